(** * Reference matrices from celestial to terrestrial coordinates of crates/tofas/src/test_data.rs

    Generated by tools/gen_tables.py from crates/tofas/src/test_data.rs:26018-36019; every literal is the exact
    decimal (mantissa, exponent of ten) of the source. *)

From Coq Require Import ZArith List.
Import ListNotations.
Open Scope Z_scope.

(** test_data.rs:26018-36019 [C2TCIO_DATA] *)
Definition C2TCIO_DATA : list (list (Z * Z)) := [
  [(47827470490021118, (-18)); (70635676022697858, (-17)); (66497814575215886, (-17)); (3285025891325235, (-16)); (81126520455855333, (-18)); (71519709151070698, (-17)); (94649883248639488, (-17)); (57133747588478601, (-17)); (58056753747024825, (-17)); (99368062496696785, (-17)); (46051816747231644, (-17)); (67295198880609564, (-17)); (49527579435222102, (-17)); (58421938816409369, (-17)); (8853684686102492, (-16)); (47196157315991505, (-17)); (42816021478016741, (-17)); (67670379906737055, (-17)); (93457130316574544, (-18)); (70121813706626979, (-17)); (12318997947164415, (-17)); (61821975213235703, (-17)); (74599229838080294, (-17)); (49614834631156568, (-18)); (68822099636032141, (-17)); (31166684312002796, (-17)); ((-12310942730789158), (-17)); (35317587033662962, (-17))];
  [(4845440519457096, (-16)); (56694875361036434, (-17)); (15293663875869867, (-17)); (78089076988125061, (-18)); (41670876204380514, (-17)); (2096618198418787, (-17)); (94064497316257123, (-17)); (37438471186819799, (-17)); (72841027292601734, (-17)); (66712172573095241, (-17)); (78652113810437996, (-17)); (95262409308681983, (-17)); (76366784557802692, (-17)); (48880278599315963, (-17)); (57401804100737919, (-18)); (52623377073140154, (-17)); (49523653632210851, (-17)); (20540553327367173, (-17)); (28262677295760041, (-18)); (82858288696596716, (-17)); (81670027971841153, (-17)); (58651313225942414, (-17)); (69099638210301761, (-17)); (53940912950301245, (-17)); (4438974038857661, (-16)); (19005030632717745, (-17)); (35403481862648878, (-17)); (70459385290481097, (-18))];
  [(32637118172856194, (-17)); (5373480127772039, (-16)); (46192506340862427, (-17)); (57725483074775008, (-17)); (77297152326768714, (-17)); (61485929350215007, (-17)); (30783494610332474, (-19)); (24363392353294111, (-17)); (89056254707929861, (-17)); (48963477762435037, (-18)); (97362176584757132, (-17)); (29229466184922348, (-17)); (92371462875161958, (-17)); (30120326067025738, (-17)); (63885925282822797, (-17)); (44331844436733503, (-17)); (30318486978616055, (-18)); (13462526456405044, (-17)); (23031344337324566, (-17)); (51158982679000342, (-17)); (1002406584307389, (-15)); (14740231313406165, (-16)); (46619841663426004, (-17)); (75748584568700827, (-17)); (92072786757516289, (-17)); (86918257393123588, (-18)); (17392738619868484, (-17)); (29964173055547066, (-17))];
  [(60784131016337228, (-17)); (62442884545437571, (-17)); (35004078330584376, (-17)); (71359548798076888, (-17)); (37533098944149057, (-17)); (67951279388928854, (-17)); (87893391291308853, (-17)); (43858473792554964, (-17)); (41161179635555489, (-17)); (20414492082473046, (-17)); (69525047303318654, (-17)); (44219720410049435, (-17)); (2305526259288081, (-16)); (45585272913752584, (-17)); (49393965450567767, (-17)); (77472955289435708, (-17)); (73737149340030661, (-17)); (76079145885838484, (-17)); (17349939559983141, (-17)); (97155345644839075, (-17)); (68568452188239482, (-17)); (69184580481628333, (-17)); (13025022249786824, (-16)); (77222070411958166, (-17)); (83155545220635751, (-17)); (11359390831415566, (-16)); (76638652971464849, (-17)); (87798719658570801, (-17))];
  [(77919942190470448, (-17)); (77084972708254973, (-17)); (83368447769650267, (-17)); (61077669422497016, (-17)); (87593691083733993, (-17)); (1572005463825753, (-16)); (32415180670732813, (-17)); (55708643893486454, (-17)); (88055959229681458, (-19)); (84232241508729266, (-17)); (29912663530786521, (-17)); (42656852975944848, (-17)); (35840177519779648, (-17)); (25394753409484094, (-17)); (95880018207772022, (-17)); (73070254356679198, (-17)); (32828141518892706, (-17)); (77378888409426183, (-17)); (69194769218685825, (-17)); (33310164847116985, (-17)); (55206632338392303, (-17)); ((-16459033321080608), (-18)); (31671296944472405, (-17)); (71097991286833784, (-17)); ((-3189502566837728), (-16)); (40893180986025712, (-17)); (77465400016431962, (-17)); ((-17358470939319204), (-17))];
  [(73925118883366991, (-17)); (99974106191272882, (-17)); (38038084685710283, (-17)); (77816504607277459, (-17)); (65501050791434434, (-17)); (48191379929078804, (-17)); (22895239389913613, (-17)); (30312782649513503, (-17)); (63170387188516697, (-17)); (68592133143777112, (-17)); (6739560884924094, (-16)); (95881380631125801, (-17)); (88947928091054607, (-17)); (56997700279793462, (-17)); (77807442498945401, (-17)); (89070481207058649, (-17)); (48215195321991966, (-17)); (21880386761900095, (-17)); (47968882647616151, (-17)); (10497938696429989, (-16)); (94948183131616204, (-17)); (10925425915332103, (-16)); (91513485534822747, (-17)); (84910984933216382, (-17)); (10071154118876056, (-16)); (65259456970767582, (-17)); (69080326215500276, (-17)); (62099556045075266, (-17))];
  [(42111563939363217, (-19)); (95234112249249392, (-17)); (19873196033219132, (-17)); (34608948715120502, (-17)); (29277276135023655, (-17)); (85405798535323463, (-17)); (97366729102547012, (-17)); (26933875308144883, (-17)); (73169850859607144, (-17)); (23436340423837021, (-17)); (26292557982246312, (-17)); (14166959354655406, (-17)); (74246447135604599, (-17)); (21243596065665671, (-17)); (10860434889461623, (-17)); (82415953026176747, (-17)); (9068696757042688, (-16)); (98535680161343275, (-17)); (35327287992585832, (-17)); (79267315188287157, (-17)); (47041208449276006, (-17)); (75737840782661092, (-17)); (85685393016042921, (-17)); (44011077367533369, (-17)); (77143956334749941, (-17)); (75130543702701058, (-17)); (10595274747490084, (-16)); (13867194763111601, (-16))];
  [(66269906125386369, (-17)); (80876570724588104, (-17)); (33428619972021512, (-18)); (89184905354505395, (-17)); (38321688924763542, (-17)); (68022292233510029, (-17)); (4151308940309677, (-16)); (37837929954027472, (-17)); (71474090629934306, (-17)); (34353100711880258, (-17)); (1669144641030027, (-16)); (28994788365322088, (-17)); (28350055341298919, (-17)); (51273855473959462, (-18)); (26237347124664989, (-17)); (67875755180952169, (-17)); (39677694048776968, (-18)); (5246305626774197, (-16)); (19979074119043649, (-18)); (45074230507014595, (-17)); (28155988863011716, (-17)); (428565425165088, (-15)); (49093096458558905, (-17)); (32569116164153733, (-17)); (66358733643525936, (-17)); (36842277354199576, (-17)); (89285099518833566, (-18)); (35472681326267741, (-17))];
  [(29352039063864366, (-17)); (44697654593825165, (-17)); (83938341234834302, (-17)); (59494174721515447, (-17)); (39005246642554203, (-17)); (20564304417730916, (-17)); (79016036585323135, (-17)); (50851854934424212, (-17)); (74225256269345286, (-18)); (64919766294817072, (-17)); (83909830886655423, (-17)); (25416415672906434, (-17)); (11988545990618016, (-17)); (13050862544083042, (-17)); (89011528680016383, (-19)); (36354330494763998, (-18)); (53900387664610083, (-17)); (1352713073643691, (-16)); (34617670103211573, (-17)); (66806747284563517, (-17)); (56787667127395547, (-17)); (58691923135387103, (-17)); (10881886755203414, (-17)); (96089130593108307, (-18)); (10312617078120227, (-17)); (63352626314416649, (-17)); (5005247910180709, (-16)); (40661264195837027, (-17))];
  [(47921825039430033, (-17)); (66551501668966628, (-17)); (91547694927125989, (-17)); (1309310824782286, (-16)); (36151253973074038, (-17)); (17836722408294547, (-17)); (18848127846569507, (-17)); (18460757867230615, (-17)); (71177890909503783, (-17)); (76851875279513759, (-17)); (65021969702912785, (-17)); (88144994581584701, (-17)); (99475251021128708, (-17)); (99630394850313309, (-17)); (93125700304684256, (-17)); (26561630511861956, (-17)); (8954029541814964, (-16)); (48365253687733589, (-18)); (77108111362058906, (-17)); (26005594511169694, (-17)); (47948507851447175, (-17)); (76876198543194918, (-17)); (26145775054691572, (-17)); (58733895787929213, (-17)); (49516237645793304, (-17)); (52375732478550918, (-17)); (78595903840044068, (-17)); (12246066310581396, (-16))];
  [(87267394157112999, (-17)); (70307873176869384, (-17)); (64907933600379064, (-17)); (75092189093235784, (-17)); (95223772035343734, (-17)); (22980269293430755, (-17)); (5660357846312386, (-16)); (70865637573906204, (-17)); (32576056432643019, (-17)); (76305417824726451, (-17)); (54234805262499552, (-17)); (72708010289109848, (-17)); (95324825849078354, (-17)); (21263803332623699, (-17)); (33134137818026099, (-17)); (62631940346561388, (-19)); (25792164187019373, (-17)); (16731314585755619, (-17)); (9845787144710294, (-16)); (11191757953021617, (-16)); (14551231161009262, (-16)); (44567777523850627, (-17)); (22799383379211396, (-17)); (3194558259975539, (-16)); (4195380472001814, (-17)); (84372827290237273, (-17)); (10323765496465043, (-16)); (43542581521030155, (-17))];
  [(68213513124997194, (-17)); (85805672506476094, (-17)); (62973522034210438, (-17)); (72364483523307066, (-17)); (30748733545288953, (-18)); (81668077478080692, (-17)); (45134980614286446, (-19)); (83564597743841096, (-17)); (86478077351109117, (-17)); (64420080794647538, (-17)); (76611975876383409, (-17)); (90723939502692696, (-17)); (51893178462396672, (-17)); (99956288740753141, (-17)); (7521841882473701, (-16)); (69609259515448496, (-19)); (6768687879030072, (-16)); (5275069344580593, (-16)); (84600118915348799, (-18)); (90642716687070135, (-17)); (52820612747286488, (-17)); (14595936707835786, (-16)); (11066973553528625, (-16)); (34094238269015498, (-17)); (12062806358733804, (-16)); (75284419538629965, (-17)); (28872212390233692, (-17)); (8909239573318114, (-16))];
  [(76609581697070395, (-17)); (66447763201213128, (-17)); (76659238132676655, (-17)); (9064815343011805, (-16)); (62877645602485266, (-17)); (62814220342769411, (-17)); (20453929502139201, (-17)); (98634567026020736, (-17)); (86810941169479883, (-17)); (84304283401233771, (-17)); (48327512826807162, (-17)); (58828828367552854, (-17)); (94149303154630548, (-18)); (86554327617774485, (-17)); (31330920997468603, (-17)); (14223921515592175, (-17)); (69229486686622521, (-17)); (31331266915100586, (-17)); (72813238548097914, (-17)); (61085299279656136, (-17)); (48754640912497599, (-17)); (4639098003142888, (-16)); (10657149111200421, (-16)); (90483282429024414, (-17)); (92237729073327746, (-17)); (98000341081390108, (-17)); (13248106183738426, (-16)); (12613949593623359, (-16))];
  [(62925803196177288, (-17)); (45353377823903018, (-17)); (48971533552061519, (-17)); (74193058088748032, (-17)); (44753338937899845, (-17)); (93406965962673938, (-17)); (77536056759819183, (-17)); (73047277530706678, (-17)); (92170929106862687, (-17)); (71572140223660874, (-18)); (1447340598453809, (-16)); (42139274712121932, (-17)); (37227982129278137, (-18)); (37661208105177324, (-17)); (26813041357368794, (-17)); (32845722238438135, (-17)); (12328727515659366, (-17)); (6197141778625892, (-16)); (55869866980072103, (-17)); (42026757877074572, (-17)); (27173737502916706, (-17)); (4925233667738943, (-16)); (69739311357156331, (-17)); (53334490726055683, (-17)); (75228023139848799, (-17)); (94783627014259675, (-17)); (7243653389906396, (-16)); (11390857863958925, (-16))];
  [(46732517160861287, (-17)); (43464757853836022, (-17)); (3935916522198184, (-16)); (63404050523375177, (-17)); (14018440067729765, (-17)); (53979931276158732, (-17)); (5112365181017513, (-16)); (20283350147343804, (-17)); (41406876640708079, (-18)); (54729090064149311, (-17)); (95379971146034692, (-17)); (8245032487177798, (-16)); (44472814489276846, (-17)); (86739671022910514, (-17)); (61533948224745583, (-17)); (34873204884942643, (-17)); (51215284757448531, (-17)); (72194913070786304, (-17)); (20511979202805231, (-18)); (11685917114406221, (-16)); (42601214897730022, (-17)); (81809794038138428, (-17)); (9941444147616515, (-16)); (39043840351899772, (-17)); (70723723927184157, (-17)); (5991674386773066, (-16)); (15474601516944506, (-17)); (50176773536337649, (-17))];
  [(41414508089054891, (-20)); (96522451930149344, (-17)); (69424871103585017, (-17)); (95010142419092003, (-18)); (17730278258514975, (-17)); (1246781645677254, (-16)); (94774010403926634, (-17)); (38046373048360116, (-17)); (9431450885360807, (-16)); (46142986423617016, (-17)); (69624121526458382, (-17)); (51014355157189084, (-17)); (44661093180796363, (-18)); (14186572697854671, (-17)); (80807137401189666, (-17)); (83910062017200637, (-20)); (3366620539308437, (-16)); (92041823633514841, (-17)); (4592306402688987, (-16)); (11534290138793905, (-17)); (535457833583314, (-15)); (41284993372940915, (-17)); (7544556028826796, (-17)); ((-84846352296165203), (-18)); ((-62706211249142038), (-18)); (52773101776654996, (-17)); (24284609429060441, (-17)); (47934620901821456, (-17))];
  [(24859737526064662, (-17)); (57557084104501877, (-17)); (76124581941995262, (-17)); (51947039973493014, (-17)); (50542874769582224, (-17)); (56154230461472188, (-17)); (69216928307887915, (-17)); (70238346817256081, (-17)); (67925930989149685, (-17)); (7681822084648221, (-16)); (96249024690596485, (-17)); (11995545428499377, (-17)); (13834212998830286, (-17)); (63082957842507847, (-17)); (87070176009685274, (-17)); (62952756821808442, (-17)); (72445670789928018, (-17)); (89362396990314008, (-18)); (7914002474510673, (-17)); (63933317770366815, (-17)); (82922218170294371, (-17)); (98143911139739659, (-17)); (95110300313808038, (-17)); (89311065719785809, (-17)); (91019168754028135, (-17)); (46373705939262716, (-17)); (60662929438189606, (-17)); (7218614588076615, (-16))];
  [(46268063419591721, (-17)); (50329641128495972, (-17)); (22285358092022045, (-17)); (89159253506914804, (-17)); (37820753830771869, (-17)); (34253455817806233, (-17)); (45298557146834173, (-17)); (61956514028394094, (-17)); (42648401298693761, (-17)); (48915285923655671, (-17)); (18932459363901666, (-17)); (11136402786461319, (-17)); (8622271733844834, (-16)); (80402837604530297, (-17)); (24989395188501629, (-20)); (54233661771815245, (-17)); (34771199905109862, (-17)); (80097605748741652, (-17)); (56085727043629774, (-17)); (61065318114485667, (-17)); (66280657193743608, (-17)); (4574530222571313, (-16)); (91103601251390165, (-17)); (83613235883975423, (-17)); (51892360152410499, (-17)); (99800654896795815, (-17)); (64174902928907662, (-17)); (52187702509281886, (-17))];
  [(10421047371543446, (-17)); (30285589949832648, (-17)); (85497114160579502, (-17)); (84680013389870035, (-17)); (34495647911510363, (-17)); (40993622540677244, (-17)); (73550655698344525, (-17)); (70315338402444505, (-17)); (73506368247501075, (-17)); (84071768481201048, (-17)); (23054310778564158, (-17)); (68922558155030811, (-17)); (42445009281010371, (-17)); (22825793241832493, (-17)); (81274083459031254, (-17)); (93158265121786843, (-17)); (79931384286318641, (-17)); (5555695021421091, (-16)); (80419570514558336, (-17)); (80939992867403898, (-17)); (40730718221042611, (-17)); (26323091965051904, (-17)); (12409635007707274, (-16)); (76339327218702879, (-17)); (58908709291165917, (-17)); (1422007713387206, (-15)); (93481484732908271, (-17)); (10890214664427627, (-16))];
  [(40429141323103457, (-17)); (77224985971664617, (-17)); (30693047850849609, (-17)); (15677944576907532, (-17)); (83808225873422593, (-17)); (86245335388432676, (-17)); (21155860924620629, (-17)); (15331094178886739, (-17)); (71120347443299758, (-17)); (62100951365561285, (-17)); (35579265241271874, (-17)); (91677724970748908, (-17)); (21821040930209334, (-17)); (35020409690610377, (-17)); (49071451262057009, (-17)); (6198556804742138, (-16)); (92073803927965625, (-17)); (69048731328572011, (-17)); (93490663928818096, (-17)); (96841418376023919, (-18)); (64335139852383083, (-17)); (90187627051723329, (-17)); (22536624621812271, (-17)); (59973268749257713, (-17)); (96056713462158427, (-17)); (51013734095816388, (-17)); (13309831758790713, (-16)); (17178075795067542, (-16))];
  [(93683515903046943, (-17)); (74487986611422219, (-17)); (61357753802276316, (-17)); (15479680414197428, (-17)); (25362712188496395, (-17)); (12548318995870722, (-18)); (52026045956212741, (-19)); (66332039327758241, (-17)); (86600854393389171, (-17)); (90489072817374228, (-17)); (42705251050868542, (-17)); (49755427944268971, (-17)); (44022807042212664, (-17)); (72548931993730803, (-17)); (5992298457849583, (-16)); (50583870136031628, (-17)); (52568307713377127, (-17)); (28134338836665018, (-17)); (84002716691397883, (-17)); ((-17531123014522327), (-18)); (36021933237835146, (-17)); (31112113932792496, (-17)); (12667798276607906, (-17)); (55696651354434978, (-17)); (43573861243669204, (-17)); (19224100824722362, (-17)); (78323875050085279, (-17)); (79835362275620469, (-17))];
  [(41903426741239835, (-17)); (35232390119902979, (-18)); (78251387058628075, (-17)); (21633085270861974, (-17)); (21648002324704241, (-17)); (55958348137613922, (-17)); (52668298820599468, (-17)); (88254319777794143, (-17)); (11649959363168472, (-17)); (18873803591315053, (-17)); (35967179641017077, (-17)); (60808012718174198, (-17)); (87189119713896424, (-18)); (88172383013153066, (-17)); (96179894637286445, (-17)); (15033125536630965, (-17)); (23850330181031165, (-17)); (37670120318167943, (-17)); (48317426390859497, (-17)); (28996153803876268, (-17)); (22928358805995547, (-17)); (56932293228679498, (-17)); (60663177164475002, (-17)); (39715443633847825, (-17)); (11752361180910016, (-16)); (41275535945566016, (-17)); (5219730295856384, (-16)); (41639474378873198, (-17))];
  [(95840582522755657, (-17)); (85503877654898264, (-17)); (80603410497405592, (-17)); (52873497943633796, (-17)); (16240359737148791, (-17)); (32825129656561036, (-17)); (2871904139695648, (-16)); (39022765788882641, (-17)); (42733960807782112, (-17)); (15067567136110949, (-17)); (5140669036630916, (-16)); (32231811047034875, (-17)); (48961673695517149, (-17)); (3078589515184097, (-16)); (25974335405336468, (-17)); (7470749784761197, (-16)); (20348780933463284, (-17)); (78995411007230587, (-17)); (13374418256364717, (-17)); (79063584276657617, (-17)); (64854492234400651, (-17)); (70982787255350521, (-17)); (62910924949089719, (-17)); (56765127272005833, (-17)); (63262557155245847, (-17)); (5466735613440068, (-16)); (2546198045668977, (-16)); (39012873824857491, (-17))];
  [(67504901280675988, (-18)); (92454404588597883, (-18)); (45974348890828098, (-17)); (36145288009651932, (-17)); (36535279490503758, (-17)); (78139094892506566, (-17)); (18406931027632312, (-17)); (90691716915473397, (-17)); (17974163227716256, (-17)); (42147090271454779, (-17)); (15420280344557746, (-17)); (43764782747950226, (-17)); (73877527483690475, (-18)); (19415244783416397, (-17)); (66132310943114081, (-17)); (26308549677389104, (-17)); (98219219314677308, (-17)); (78195670741399093, (-17)); (93662159719856897, (-17)); (1781586476586508, (-16)); (23240787557210113, (-17)); (35699587787076575, (-17)); (2889500288450616, (-16)); (47945401057850451, (-17)); (53794771534861285, (-17)); (61445325892453639, (-17)); (13102172655714055, (-16)); (13048372606276166, (-16))];
  [(6287373139609741, (-16)); (86251466982141534, (-17)); (23738283460583309, (-17)); (35548721985935372, (-17)); (62102718330335305, (-17)); (50355651358364395, (-17)); (12704849224695902, (-17)); (40750675278221449, (-17)); (22935319254602848, (-17)); (45392641404074974, (-17)); (45539825373049758, (-17)); (78106316393223985, (-17)); (59475288203159615, (-17)); (18123189184974586, (-17)); (63241035434543258, (-17)); (47014661692587356, (-17)); (69468818247100039, (-17)); (87351105722053268, (-17)); (36901335935226032, (-17)); (43808158306199674, (-17)); (85992434192638001, (-17)); (60629814692933581, (-17)); (21808195825950238, (-17)); (49521367642945935, (-17)); (40688828281995365, (-17)); (58596514854026693, (-17)); (10352213065240254, (-16)); (69062764750887917, (-17))];
  [(58243353832183908, (-17)); (17156315411370404, (-17)); (58915559902906478, (-17)); (55140106585642468, (-17)); (31863195893452534, (-17)); (32095575775446261, (-17)); (88120709415198328, (-17)); (2727490227349294, (-16)); (93441114785575974, (-17)); (28834095258874459, (-17)); (68532527905755392, (-17)); (57599223283123724, (-17)); (42074622379854698, (-17)); (5783365711491677, (-16)); (83055557161455784, (-17)); (58067268562599694, (-18)); (26768902204654665, (-18)); (78431764404312299, (-17)); (12811775876775511, (-17)); (10699940558832712, (-16)); (43742841871290011, (-17)); (92353075275343954, (-17)); (76629236445552262, (-17)); (37656094733165263, (-17)); (55012679492148442, (-17)); (41676253935485674, (-17)); (24310031943924315, (-17)); (24721732159417464, (-17))];
  [(35247637230096307, (-17)); (52564649857575652, (-17)); (40161292973023666, (-17)); (39711850052788433, (-18)); (29743756781969677, (-17)); (77933396006556754, (-17)); (8333740289447169, (-16)); (73839291362897463, (-18)); (87701242494707699, (-17)); (59648731636658903, (-17)); (93567493390398249, (-17)); (72985371277845623, (-17)); (24677510128172486, (-17)); (71343337208848756, (-17)); (8424532437246165, (-16)); (30157117525854837, (-17)); (56109665702748712, (-17)); (25314451442335351, (-18)); (54653610548649356, (-17)); (37884729415001439, (-17)); (54554745400417504, (-17)); (12428542195406949, (-16)); (3361523148639412, (-16)); (41027348688326432, (-17)); (11669718191573422, (-16)); (62742582909795175, (-17)); (37686648422019303, (-17)); (92199805982123828, (-17))];
  [(29467573950628523, (-17)); (10783560984616913, (-17)); (40561285192247321, (-17)); (63747813464501391, (-17)); (32257594932534517, (-17)); (32111481941849818, (-17)); (63548245121052593, (-17)); (56807147747649755, (-17)); (38151218227174044, (-18)); (47457221609136224, (-17)); (45108459516770294, (-17)); (54790990158536168, (-18)); (81872383166452034, (-17)); (71522781615250619, (-17)); (68288271565485448, (-17)); (1483180556083088, (-16)); (8947641149069584, (-16)); (19419294643430629, (-17)); (78584157168568924, (-18)); (79361020577083896, (-17)); (58787368100017467, (-17)); (2656659373993831, (-16)); (78533005044565896, (-17)); (42057392445710212, (-17)); (4371330644426708, (-16)); (62907561487482844, (-17)); (30850754420922216, (-17)); (47658585464494874, (-17))];
  [(55072577680508505, (-17)); (24230711839974606, (-18)); (28842626224774914, (-17)); (65788887578280186, (-17)); (31920492166854542, (-17)); (18537806021982173, (-17)); (96660537198716279, (-17)); (25355049972570076, (-17)); (21527063740629881, (-17)); (92496478154009532, (-17)); (16535905348393054, (-17)); (91093266474622958, (-17)); (97505107701071791, (-18)); (53978733794995848, (-17)); (59556496733243225, (-17)); (72425983256333681, (-17)); (71243164002307025, (-17)); (22768859489318394, (-18)); (21351807106548171, (-17)); (19599211963479674, (-17)); (22666583004370019, (-17)); ((-34011480887339414), (-18)); (11364749415603259, (-16)); (43200330272008508, (-17)); (25879459604198529, (-17)); (81583711010099313, (-17)); (25007198393346691, (-17)); (27240358702972578, (-17))];
  [(68091140776443737, (-17)); (67705209822980594, (-17)); (11281733902889179, (-17)); (8769635101437675, (-16)); (54025573824905693, (-18)); (16515866175886118, (-17)); (25292526568655105, (-18)); (59313594780394252, (-17)); (12184402523293403, (-17)); (89238054526320054, (-18)); (86919881186176173, (-17)); (87036302749421568, (-17)); (98310329143963848, (-17)); (14930404110638851, (-17)); (90023659983749393, (-18)); (20898003351241567, (-17)); (53662401749819144, (-17)); (74914270794515847, (-17)); (71076124438942523, (-17)); (13897131086808576, (-16)); (11677683176261104, (-16)); (36467457267115116, (-17)); (19138320309316456, (-17)); (22476913463936363, (-17)); (58341523955101025, (-18)); (10327528805726451, (-16)); (78114803797711097, (-17)); (27050314009477111, (-17))];
  [(22458862669174784, (-17)); (81205788787460043, (-17)); (23000071420671786, (-17)); (91893721325357713, (-17)); (47076635372707964, (-17)); (75635196605041566, (-17)); (71519523959768716, (-17)); (97333195292088381, (-17)); (99378207213297753, (-17)); (85736835041776427, (-17)); (1903837765269244, (-16)); (68898721969522447, (-17)); (48661341217867182, (-17)); (81543309888520832, (-17)); (26425841536258232, (-17)); (56850314896497167, (-18)); (58311782487920316, (-17)); (49377408978905057, (-17)); (80028198214808277, (-17)); (80563143172824891, (-17)); (43179805117997405, (-17)); (84233697901913729, (-17)); (8411405096695358, (-16)); (69809784302227085, (-17)); (73042292316625579, (-17)); (12763251758056073, (-16)); (11453327046859374, (-16)); (1375094759643678, (-15))];
  [(89214847280290699, (-17)); (32229766629920309, (-17)); (74471420099370866, (-17)); (28778840430266983, (-17)); (3232200821303749, (-16)); (84838322868439708, (-17)); (68515021498945106, (-17)); (22479614405083803, (-17)); (68773199527146445, (-18)); (76272775248460323, (-18)); (34325725334519464, (-17)); (97767711005597779, (-17)); (47175781896080249, (-17)); (37747937388630881, (-17)); (45697677357406041, (-18)); (72087740598038885, (-17)); (53861681715548726, (-18)); (4731556901255195, (-16)); (97732761321773298, (-17)); (85018135652951821, (-17)); (5158884363797378, (-16)); (10810735407131602, (-16)); (84798211876208851, (-17)); (30625959752021259, (-17)); (39033971052429201, (-17)); (8223176591374235, (-16)); (37920375781670868, (-17)); (48409124465157083, (-17))];
  [(58734994133035201, (-17)); (77027540343188095, (-17)); (40397262759977193, (-17)); (54703310393341931, (-17)); (89546095912923285, (-17)); (79506710922110813, (-17)); (6176738654808146, (-16)); (44676573340444115, (-17)); (83767328353725101, (-17)); (41448290053508008, (-17)); (46168117921590124, (-17)); (95496583758342801, (-18)); (86927736954702828, (-17)); (31417381697661573, (-17)); (64877228585673463, (-17)); (86497468192741844, (-18)); (78226712194084169, (-18)); (73647410434488947, (-17)); (53470708883021589, (-17)); (91207314905828718, (-17)); (92901201162740832, (-17)); (11006698086232434, (-16)); (46293525880414566, (-17)); (70395661356242312, (-17)); (65581575108427292, (-17)); (58412354735964533, (-17)); (69743811946498135, (-17)); (91803320480594874, (-17))];
  [(60043738312879302, (-17)); (72011629771683039, (-17)); (75144293035450516, (-17)); (64177765676921839, (-17)); (13262774968708024, (-17)); (93161078338975989, (-17)); (79058433119227001, (-18)); (62286379105346756, (-17)); (83172308497567138, (-17)); (90552668007444781, (-17)); (5871722492218151, (-16)); (21381250248350736, (-17)); (74798994016112386, (-17)); (82173516637207966, (-17)); (67603230720628216, (-17)); (75450611710589433, (-17)); (95893088559089401, (-17)); (60002475696402169, (-17)); (65176587493336757, (-17)); (55693270543849183, (-17)); (68453494773855827, (-17)); (13213907210345059, (-16)); (72757858366283112, (-17)); (59330322122093759, (-17)); (16000718846782065, (-16)); (84537310308948044, (-17)); (64144987517257002, (-17)); (16800416882570584, (-16))];
  [(61258840345588372, (-17)); (10966699587249751, (-17)); (19716162502410595, (-18)); (84694676303172545, (-17)); (15955724828821216, (-17)); (51121427738336966, (-17)); (53012713261409572, (-17)); (32492238345976032, (-18)); (56924214210006074, (-17)); (59307026367937232, (-17)); (32778210190597756, (-17)); (645023168157565, (-15)); (43828544728820751, (-17)); (81385480031224922, (-17)); (3514415652580094, (-17)); (38236453405457527, (-17)); (99568799400188701, (-18)); (39714378340080292, (-18)); (5745044465813568, (-16)); (78617730196575741, (-17)); (11908667200720215, (-17)); (61483042671629473, (-17)); (10140215855700947, (-16)); (16150881494226005, (-17)); (47801137969444596, (-17)); (41656592232676481, (-17)); (394213137234685, (-16)); (37350689199234011, (-17))];
  [(34954281815334642, (-17)); (60266123775000724, (-17)); (10787890654274723, (-17)); (23817640689598563, (-17)); (1471747821982573, (-16)); (16776256484077612, (-17)); (40705249963912926, (-17)); (43556673262777412, (-17)); (44466909605094929, (-17)); (16030918962338137, (-17)); (78163108374984036, (-17)); (50272033351475542, (-17)); (24780059178100555, (-18)); (83843062723098027, (-17)); (86373903941529406, (-17)); (72352559558909202, (-17)); (191753970380801, (-15)); (98513495319509914, (-17)); (73245678786301427, (-17)); (3996651052898908, (-16)); (51885266287970322, (-17)); (18978986068003537, (-17)); (77059046506481321, (-17)); (87605130391500752, (-17)); (56164244842300093, (-17)); (54826695147048765, (-17)); (48597867249228111, (-17)); (49744247630166349, (-17))];
  [(76093230366148046, (-17)); (49677594808023384, (-17)); (19120289513498945, (-17)); (91453319923788068, (-17)); (72119565584375744, (-17)); (37637585715002697, (-17)); (99507009567093485, (-17)); (56726040015256063, (-17)); (59102450644296234, (-17)); (35180826189394598, (-17)); (28871992896487619, (-17)); (10462050357744224, (-17)); (34427585822054163, (-17)); (41691256211281147, (-17)); (48436844012615055, (-17)); (27067448784339498, (-17)); (6953434890261333, (-16)); (12975316217801958, (-17)); (90286813698657109, (-17)); (70219296323406533, (-17)); (45461213350068502, (-17)); (3228162903739209, (-16)); (98737053524285567, (-17)); (69659235047552914, (-17)); (42810494305771363, (-17)); (16916250948410583, (-16)); (10748754212564293, (-16)); (78590577152023444, (-17))];
  [(14543895116152072, (-17)); (51297060067894806, (-17)); (33650937250552138, (-17)); (84799976018533618, (-19)); (79294707410092091, (-17)); (9079880206728318, (-16)); (45039760268910711, (-17)); (89462239106778974, (-18)); (4784684275603438, (-16)); (20228285990130779, (-17)); (39959935048416995, (-17)); (16101042746921179, (-17)); (71567237763906655, (-17)); (454444285543252, (-15)); (71168698865506719, (-17)); (31936647604161283, (-17)); (43346385687692568, (-17)); (16314234289593299, (-17)); (3100737262162101, (-16)); (37658311254858179, (-17)); (43696422694065062, (-17)); (6793781614156722, (-16)); (19447925737214872, (-17)); (80880923870035093, (-17)); (97042598771538824, (-17)); (19874035855507416, (-17)); (42452696334130868, (-17)); (5044051121540466, (-16))];
  [(65636598744860009, (-17)); (14138679131207776, (-17)); (95832978252805845, (-17)); (54465851864473125, (-17)); (99009810575904955, (-17)); (22881888511466453, (-17)); (38415764323486268, (-17)); (67254459564604741, (-18)); (20826377252120287, (-17)); (48396336179096, (-15)); (5567508982653212, (-16)); (93596815707927139, (-17)); (99549828904966031, (-17)); (86764713552201012, (-17)); (21274611490722062, (-17)); (92422698893114164, (-17)); (48038848840943227, (-17)); (70247718391261726, (-17)); (87785140776424875, (-17)); (12415687395348853, (-16)); (10914575331601923, (-16)); (91693902135807348, (-17)); (1055720839030402, (-15)); (43518524448151358, (-17)); (10713661790226219, (-16)); (10246888681428503, (-16)); (83979239610910184, (-17)); (77595785958229446, (-17))];
  [(47239067819758296, (-17)); (44292408214829504, (-17)); (90471948206679198, (-17)); (14598210520754507, (-17)); (77925528670444055, (-17)); (55934359715328175, (-17)); (98941182586619381, (-17)); (76106275988481686, (-17)); (34302939525768816, (-17)); (26779004668036088, (-17)); (65911888554942899, (-18)); (12866667175826152, (-17)); (93675884160132517, (-17)); (43254123577830805, (-17)); (65804208711034595, (-17)); (82006610987019291, (-17)); (92413405924338221, (-18)); (46357528397520309, (-17)); (58284928852034978, (-17)); (96144353755520673, (-17)); (8362872600553195, (-16)); (42719964191135584, (-17)); (10355231958506503, (-16)); (13154475857316892, (-16)); (92012925674316315, (-17)); (62966398188119621, (-17)); (79615088670004686, (-17)); (43332100686792457, (-17))];
  [(71869406932642232, (-17)); (4536053878997226, (-17)); (78720518200917222, (-17)); (77903494876391466, (-17)); (32554405374725603, (-17)); (8678251790591659, (-16)); (27883211838919819, (-17)); (21400393273289831, (-17)); (52320593109382796, (-17)); (33969252379320991, (-17)); (54020490064639126, (-17)); (59363190444777303, (-17)); (57768384194016886, (-17)); (78795724861452066, (-17)); (76484265680711783, (-17)); (31324916646472112, (-17)); (10304381890030934, (-17)); (9811790080272762, (-16)); (30852067011065054, (-17)); (96123438236336101, (-17)); (37856473317414802, (-17)); (11894276721302319, (-16)); (12044527306776422, (-16)); (40940847169114908, (-17)); (14017834532895947, (-16)); (66833240507964509, (-17)); (36794392187514219, (-17)); (8131743377986963, (-16))];
  [(67327516993356262, (-17)); (24715084248632202, (-17)); (51601958681809534, (-17)); (52863232015224049, (-17)); (85102574384388197, (-17)); (77793787479906418, (-17)); (77921543689013617, (-17)); (64783977192167996, (-18)); (97157005657542006, (-17)); (97316621604357068, (-17)); (60521392934918061, (-17)); (35507978935635376, (-17)); (6381681042762688, (-17)); (84724175759692166, (-17)); (38910298331984772, (-17)); (60718518269082156, (-17)); (71873271895486823, (-17)); (65026144310666179, (-17)); (39269353567860121, (-17)); (45147937067989047, (-17)); (61156556071929447, (-17)); (63090376481281352, (-17)); (1063521857302193, (-15)); (86003752109913778, (-17)); (13851259426289246, (-16)); (72387053587137795, (-17)); (80956211421585722, (-17)); (10596881093402657, (-16))];
  [(75680897273742032, (-17)); (20635900797434048, (-18)); (50533722094358102, (-17)); (31861383597584958, (-17)); (1653920294094452, (-16)); (97135110356742604, (-18)); (93102176373451218, (-17)); (23962501621501264, (-18)); (16616542871185114, (-17)); (23414347148587589, (-18)); (66423844381304586, (-17)); (16170262478636965, (-17)); (8314397174268916, (-16)); (70969724937286061, (-17)); (32493448528198021, (-19)); (48219043184574117, (-17)); (9945485541518817, (-17)); (54635699086780565, (-18)); (91115495919168765, (-17)); (13302485824484818, (-16)); (62857707046254097, (-18)); (48902909923590843, (-17)); (99215919246770756, (-17)); (29479499708333183, (-18)); (44055256401469911, (-17)); (94072952342008642, (-17)); (33277874528645744, (-18)); (2065322854583321, (-16))];
  [(69617750741273454, (-17)); (93026875754272453, (-17)); (98995960941248595, (-17)); (35720973951967694, (-17)); (89602685289709205, (-17)); (16392759294631098, (-17)); (20508382718048435, (-17)); (99735049547038146, (-17)); (77477741082683294, (-17)); (65160637557040157, (-19)); (24734354952601389, (-17)); (28360485829454085, (-17)); (82280186594886362, (-17)); (98808649308965291, (-17)); (58832407990698954, (-17)); (39177790258475642, (-17)); (50186477102106553, (-18)); (531309836690389, (-16)); (21230591118077147, (-17)); (44152817774414155, (-17)); (1304550123448811, (-15)); (92726768094216938, (-17)); (97799796783361914, (-17)); (18392521044832031, (-16)); (13753865143468182, (-16)); (97332760474434774, (-18)); (30600605747888809, (-17)); (22259168458700912, (-17))];
  [(59988405481544027, (-17)); (22078970986406277, (-17)); (73187003342847923, (-17)); (59383931713703364, (-17)); (91146434120980613, (-17)); (31608339702474741, (-17)); (40026032549254364, (-17)); (97999904856652253, (-17)); (40139956266843491, (-17)); (63949208084284093, (-17)); (46849260738259402, (-17)); (23206972021741934, (-18)); (72482041665417496, (-17)); (66108918147990603, (-17)); (30702306254214484, (-17)); (57718981329345942, (-18)); (75762490500241753, (-18)); (58768980985491648, (-17)); (26800226653856229, (-17)); (68440589603877322, (-17)); (10620738888833907, (-16)); (65018943529399298, (-17)); (61198287520737193, (-17)); (71737315193012108, (-17)); (47986845222665064, (-17)); (24022543110042585, (-17)); (669650178094919, (-15)); (5872591482126318, (-17))];
  [(39547291760277448, (-17)); (80209571934181834, (-17)); (12351776280790505, (-17)); (55654726977083613, (-17)); (21174740843915651, (-17)); (78464122322345475, (-17)); (38002724268927179, (-17)); (41879199766516328, (-18)); (29174811894192898, (-17)); (6245533807964273, (-16)); (66393569511391615, (-17)); (93033795741542924, (-17)); (91104268218483664, (-17)); (58272379316780754, (-18)); (36068939353208229, (-17)); (76849891979635754, (-17)); (79210065617981618, (-17)); (28907159734608001, (-18)); (29124038325582413, (-17)); (98018506009539497, (-17)); (27583654265686047, (-17)); (11619252069165686, (-16)); (40914649808474529, (-17)); ((-29895056553275789), (-18)); (46031801811305162, (-17)); (62894073376857007, (-17)); (6170831428988226, (-16)); (54407145883894004, (-17))];
  [(8361630973946883, (-16)); (41398720857491578, (-17)); (65977904650393648, (-17)); (43972707114064358, (-17)); (36456820983955829, (-17)); (33904456263963934, (-17)); (5430309894000539, (-16)); (78787382225221958, (-17)); (80124833838858711, (-18)); (35839811289576506, (-17)); (2737565769260214, (-16)); (65451650156468677, (-17)); (89679861693551488, (-17)); (15030910816603793, (-18)); (77133641324393087, (-17)); (57059170464806253, (-17)); (45679937742201293, (-17)); (8241734618151827, (-16)); (83960250627683874, (-17)); (82112398003978615, (-17)); (97611094999984049, (-17)); (32988841793225876, (-17)); (41532662139599763, (-17)); (60863009006826951, (-17)); (1231804394870024, (-16)); (98172806592446915, (-17)); (10587023995891363, (-16)); (47477077463459183, (-17))];
  [(21189936563906264, (-17)); (86846256127187349, (-17)); (9978312543152521, (-16)); (21370708564970387, (-17)); (6094887837907762, (-16)); (86301171889282413, (-17)); (99561667323239611, (-17)); (6827516691038793, (-16)); (66903383609068245, (-17)); (65708289347426141, (-17)); (5238158643169265, (-16)); (58294492932135111, (-17)); (19241213921613154, (-17)); (4685252521693184, (-17)); (34927441096481715, (-17)); (78215970881938846, (-17)); (40227479498559859, (-17)); (50051487037663378, (-17)); (36520511772852282, (-17)); (37101755358876642, (-17)); (65865287937141992, (-17)); (86173622197292865, (-17)); (80660141564139842, (-17)); (56695499891210044, (-17)); (61079154737493369, (-17)); (50351710260488713, (-17)); (6517521344097077, (-16)); (81116148045671033, (-17))];
  [(8089896561001666, (-16)); (43032578015475753, (-17)); (91608582534681149, (-17)); (26251536835864153, (-17)); (63262214717618881, (-17)); (31268341517078679, (-17)); (28842491025716255, (-17)); (42106143302328092, (-18)); (83920960333338246, (-17)); (90393523036234813, (-17)); (76904728331847527, (-17)); (72609346398949226, (-18)); (24694854373246922, (-18)); (25612086751122853, (-17)); (42933991741008748, (-17)); (45166260995949836, (-17)); (21557825332067171, (-17)); (92203693842675305, (-17)); (91146174346566666, (-17)); (5162067601514988, (-16)); (59188227720976627, (-17)); (60721003067439416, (-17)); (10805062787879535, (-17)); (23732622717374022, (-17)); (36107403232488688, (-17)); ((-21177770456441369), (-18)); (25193149717791308, (-17)); (45463882261838717, (-17))];
  [(92619686102086674, (-17)); (90591043585904973, (-18)); (77631059165731986, (-17)); (97203792928251431, (-18)); (10264889227080831, (-17)); (14307355866293014, (-17)); (147909232326354, (-15)); (2182194203093093, (-16)); (30203816453975019, (-17)); (80682738522689279, (-17)); (56628443494313174, (-18)); (70400553054791115, (-17)); (39788622365050785, (-17)); (38676391553976674, (-17)); (36649368571567709, (-17)); (22943566794992543, (-18)); (27427402512481769, (-18)); (91724686936562727, (-17)); (8791617955244021, (-16)); ((-32439055898519809), (-17)); (98512704862428357, (-18)); ((-16852503836312466), (-17)); (57887136394660775, (-18)); (599641925932939, (-16)); (85426458900134936, (-18)); ((-40224233358362177), (-17)); (20073526547392517, (-17)); ((-14029141736046441), (-17))];
  [(74693160648255952, (-17)); (38123319543838741, (-17)); (8524020393987175, (-16)); (86108106764788006, (-17)); (45897999109486143, (-17)); (38793233382163972, (-17)); (602672580380611, (-16)); (52895251225388462, (-17)); (69362816804748872, (-17)); (15455649220932433, (-17)); (91490987372214161, (-17)); (69207635298748238, (-17)); (37064005689010804, (-18)); (40661830300142987, (-17)); (89201205124770488, (-17)); (87283041327750033, (-17)); (94065732123714307, (-17)); (3847134939232808, (-16)); (72277284750707216, (-17)); (13079926571191363, (-16)); (7021319326438874, (-16)); (10253850557936579, (-16)); (10629704650818277, (-16)); (99576976761708713, (-17)); (11970386710304222, (-16)); (11455660961501477, (-16)); (95500398595676383, (-17)); (14467527863778227, (-16))];
  [(81411471315685391, (-17)); (30586186193775777, (-17)); (66152196192195334, (-17)); (97670432423763087, (-17)); (26168188475052112, (-17)); (9945065464028976, (-16)); (18107992398756279, (-17)); (66840269334758928, (-17)); (66717856037157885, (-17)); (66631072036658512, (-17)); (53376456571012754, (-18)); (32560962948972927, (-18)); (67121265523578921, (-17)); (81598223936229919, (-17)); (18587255974288741, (-17)); (51702204726203149, (-17)); (30972175918865297, (-17)); (25997168532794568, (-17)); (61995061523736017, (-18)); (19654155362404849, (-17)); (47064992294554908, (-17)); (52052839162990927, (-17)); (11576187292978841, (-16)); (67684990072322626, (-17)); (13401723929487936, (-16)); (46520661688273385, (-17)); (17033365427462316, (-17)); (48975553383819115, (-17))];
  [(12937496644464819, (-17)); (7098955815020026, (-16)); (88548169765033868, (-17)); (55410101352708563, (-17)); (65642235789702774, (-17)); (82716422287720914, (-17)); (99289197146374464, (-17)); (61683139928074537, (-17)); (81416400230840402, (-18)); (81034829014126397, (-18)); (1349875060906176, (-16)); (20647982746426241, (-17)); (22913238144200587, (-17)); (86111908306994356, (-17)); (80378961644667957, (-17)); (75796460586999104, (-17)); (47500865525654146, (-17)); (22510903320515507, (-17)); (10260098567582654, (-17)); (36283780407523059, (-17)); (36724935284335303, (-17)); (30226260010181527, (-17)); (13377433577522289, (-16)); (16022960766019139, (-16)); (1484442184550393, (-15)); (30639591181497094, (-17)); (5589732173688966, (-16)); (62884531636100849, (-17))];
  [(13178354471302267, (-17)); (85536603060679228, (-18)); (16734421592940363, (-17)); (91429789278410356, (-17)); (83756819335816368, (-17)); (2878369912129588, (-16)); (48763765551285787, (-17)); (78736819153253779, (-17)); (32713971648128304, (-17)); (49010893485703144, (-17)); (6995569265173629, (-16)); (94975701892056807, (-17)); (77987420779258498, (-17)); (18402861970500972, (-17)); (6245886591287646, (-16)); (72905930023714016, (-17)); (27432449545600535, (-17)); (21366403874007989, (-17)); (32842766057362027, (-17)); (14699311641927895, (-16)); (16062523313770996, (-16)); (61957659817995481, (-17)); (92120651273099363, (-17)); (10968861980022115, (-16)); (40002522770512694, (-17)); (46921494487398907, (-17)); (53674027086014142, (-17)); (22254266157458141, (-17))];
  [(93301842886414132, (-17)); (27746529287857269, (-17)); (11235702587770746, (-17)); (24625931590094119, (-17)); (39803997942287106, (-17)); (10171335674503623, (-17)); (95790532738523604, (-17)); (36050572977439455, (-17)); (11452881442893204, (-17)); (95368470780687975, (-17)); (95656395085312451, (-17)); (59090328291584315, (-17)); (84203575566493827, (-18)); (52934772989482859, (-17)); (36645546225099557, (-17)); (25835825700751691, (-17)); (37004656926888813, (-17)); (39436210011473993, (-17)); (46143278111543728, (-17)); (42381528061147544, (-17)); (49686188397614356, (-17)); (13182213382134431, (-17)); (41297804250484382, (-17)); (35145670059985823, (-17)); (95907906821645628, (-18)); (47224248305246136, (-17)); (34748842575945804, (-17)); (94679139016176486, (-18))];
  [(80813245982163129, (-17)); (67471517664088143, (-17)); (83212892919122194, (-17)); (27479895302152957, (-17)); (58128687487407338, (-17)); (13635516268805448, (-17)); (57186362081712594, (-17)); (15412480046180599, (-17)); (33376189502591436, (-17)); (24076501043220688, (-17)); (55412656739889743, (-17)); (10561459018020014, (-17)); (17040878735960352, (-17)); (90239092074511362, (-17)); (50813842517044239, (-17)); (70358846921868012, (-17)); (20590197845436997, (-17)); (67436760855791578, (-17)); (22176726727943707, (-17)); (57648471513584854, (-17)); (50879251583387519, (-17)); (51572693316638663, (-17)); (12073943769182067, (-16)); (10299151030084861, (-16)); (9598822763166257, (-16)); (3519313288855711, (-16)); (46983684558980937, (-17)); (20260177561706019, (-17))];
  [(71605285597955615, (-17)); (33732693236187705, (-17)); (10979959307941156, (-18)); (76227031479619123, (-17)); (85274140430162237, (-18)); (85320720568516262, (-17)); (44751867165611314, (-17)); (22450347516347979, (-17)); (42142386725964209, (-17)); (19585745204790772, (-17)); (8290861558298156, (-16)); (74496442046413158, (-17)); (54305487423378762, (-17)); (74737221271576915, (-17)); (15560739640756216, (-17)); (81098361579381473, (-17)); (77822986947987616, (-17)); (26074765192404425, (-17)); (16930045259708604, (-17)); (1401533131960137, (-15)); (42340987414036835, (-17)); (99731266501699489, (-17)); (10933879652035754, (-16)); (44456055951004247, (-17)); (60380578708868093, (-17)); (89643535666195051, (-17)); (31311490106538187, (-17)); (42660782982714895, (-17))];
  [(49751852625036785, (-17)); (31253492227258073, (-17)); (55636420089074723, (-17)); (76391361420102366, (-17)); (8294567600324162, (-16)); (40677934296531659, (-18)); (8475468731997291, (-16)); (49769461409323534, (-17)); (62207242573063826, (-17)); (37418479880639066, (-17)); (38908669778301397, (-17)); (47557492600547646, (-17)); (13729858083416346, (-17)); (71376401309765214, (-17)); (66003958768903803, (-17)); (7291659368347374, (-16)); (24795692628636357, (-17)); (86248083274952436, (-17)); (69690207700998807, (-17)); (65686837057073144, (-17)); (61233044251502022, (-17)); (21398438953343282, (-17)); (14971359677400997, (-16)); (12211322124871689, (-16)); (72460777696728607, (-17)); (12311486204571092, (-16)); (10615159920323958, (-16)); (42288225347970887, (-17))];
  [(3709684401633816, (-16)); (6995150879738975, (-16)); (15010180302372489, (-17)); (32676897890248657, (-17)); (11604834557568133, (-17)); (59504806678444289, (-17)); (73009392578701304, (-17)); (63716019077546837, (-17)); (65162294340192739, (-17)); (98453334816523741, (-17)); (37132912110065297, (-17)); (91886202719513843, (-17)); (73472944603967172, (-17)); (68397506895857552, (-17)); (4274829207456905, (-16)); (36827084991706593, (-17)); (528370918680519, (-15)); (75320149818867232, (-17)); (86190912619854287, (-17)); (59587816281682626, (-17)); (17131235782765669, (-17)); (88127319121751047, (-17)); (54061197692400409, (-17)); (34382047890723477, (-17)); (72309004602507898, (-17)); (78495334635792202, (-17)); (41419914041523515, (-17)); (10212071253341786, (-16))];
  [(52124373512146049, (-17)); (1660357578125895, (-16)); (57955088828630319, (-17)); (67863407689575372, (-17)); (61981813508028771, (-17)); (4076388066996548, (-16)); (61594709822745619, (-18)); (4783208313111621, (-16)); (47507889306227302, (-17)); (21345792726430768, (-17)); (10823561355494349, (-17)); (59376855013398355, (-17)); (37568899622935525, (-18)); (62788365586992301, (-18)); (3326112057911238, (-16)); (3783000667473112, (-16)); (51884245320649569, (-17)); (96517421195380604, (-17)); (52213635221901766, (-17)); (40125294897597447, (-17)); (38853586187322842, (-17)); (25215055466994429, (-17)); (24818438850952304, (-17)); (38916214893964496, (-17)); (31238015110083589, (-17)); (90461552869822892, (-17)); (95277227288884048, (-17)); (8527476207734036, (-16))];
  [(15147148316325787, (-17)); (97314529107552483, (-17)); (20247182550315157, (-17)); (87497756948539107, (-17)); (1047451301765, (-13)); (30423656775965424, (-17)); (18101302663536378, (-18)); (37996750018508729, (-17)); (63734020270978053, (-17)); (48323283380622561, (-17)); (84883324719403519, (-17)); (84366023256362599, (-17)); (53456315271516164, (-17)); (82240023752349112, (-17)); (29268508914997726, (-17)); (30111306285031636, (-17)); (61728151888431493, (-17)); (52573715510343599, (-17)); (44002546397196662, (-17)); (10629069658088768, (-16)); (67265927650265167, (-17)); (76079033802366069, (-17)); (65627696966367643, (-17)); (75792020389955617, (-17)); (50692866859630104, (-17)); (71205190227148341, (-17)); (54020264116072236, (-17)); (570551261144568, (-15))];
  [(76374610827054146, (-17)); (52650941290488729, (-17)); (33705035770613978, (-17)); (11751608625655985, (-17)); (33835252518901915, (-17)); (63302392486628889, (-17)); (89731646842382884, (-18)); (24834037845407197, (-17)); (26969623402534504, (-18)); (36298901245221027, (-17)); (75103757446962738, (-18)); (85690480170943284, (-17)); (63616125360536624, (-18)); (65519993927592501, (-17)); (69843062951125412, (-18)); (56828119985028647, (-17)); (82252667848312078, (-17)); (87000562549445881, (-18)); (4943034225085815, (-16)); ((-75775103581638956), (-18)); (17263472693298182, (-17)); (44680515170029489, (-17)); (53486433062403616, (-17)); (55136752425001279, (-17)); (40201274925327518, (-17)); (65190817946036106, (-17)); (63767628966534029, (-17)); (49844996867781882, (-17))];
  [(93458769066341163, (-17)); (3963287316314934, (-17)); (52776838026464346, (-17)); (80101242499666758, (-17)); (55569205408712619, (-17)); (52593000635969778, (-17)); (42318622212949275, (-17)); (32131798137262679, (-17)); (4068323980409071, (-16)); (41604662934302461, (-17)); (89358351130211622, (-18)); (59611993427324372, (-17)); (26596073789827523, (-17)); (81595826099633817, (-17)); (867063236055854, (-15)); (41205340355508824, (-17)); (63071908773551066, (-17)); (70280888671888975, (-18)); (80926094195636966, (-17)); (42947226951142947, (-17)); (40221791621281289, (-17)); (32995452316246288, (-17)); (14438358616032672, (-16)); (77205912479753369, (-17)); (96714463261039141, (-17)); (11107741044136779, (-16)); (459139970567912, (-15)); (78659142967848128, (-17))];
  [(10786900144042821, (-17)); (63707968331845211, (-17)); (87709082243204795, (-17)); (39519380848696928, (-17)); (60207210847250114, (-18)); (68983089577167644, (-17)); (50206838892194017, (-18)); (74768399492953297, (-17)); (1138953018206339, (-16)); (25962951390519884, (-17)); (85277743644544213, (-18)); (2570162590185886, (-16)); (16365048661890114, (-17)); (97823455754717215, (-17)); (63316361313161429, (-18)); (75977509610827276, (-19)); (55707056757572915, (-17)); (88022943042902912, (-17)); (64686590207725236, (-17)); (11680846037471956, (-17)); (14910476370877287, (-17)); (21951440106624462, (-17)); (22404328020573661, (-17)); (61645608618912018, (-17)); (10313075617716223, (-16)); (45889852460753289, (-17)); (74252175753295291, (-17)); (10332141329914342, (-16))];
  [(89812527654032115, (-17)); (38107375035213198, (-17)); (74547853540544939, (-18)); (67653434819647029, (-18)); (81329169502234466, (-17)); (51174936644146651, (-17)); (49440680057821185, (-17)); (53064354212150389, (-17)); (29121708470002505, (-18)); (65669654558333268, (-17)); (6511611927991785, (-16)); (75886661226596885, (-17)); (56555944888036835, (-17)); (1183723572882982, (-16)); (19304814268064219, (-17)); (58370419495168313, (-17)); (66842163021416934, (-17)); (87677415590012764, (-17)); (29353213621109542, (-18)); (394268388883389, (-15)); (11322207345796969, (-16)); (53139612980427087, (-17)); (28217186643042425, (-17)); (48367699021515809, (-17)); (13042881722903407, (-17)); (83823116292386354, (-18)); (90998381714360588, (-17)); (56461578639099708, (-17))];
  [(63234343518428093, (-17)); (57762735361899431, (-17)); (7631291001417676, (-16)); (67653265423978504, (-17)); (75953211050035041, (-17)); (26209915184355304, (-17)); (13597579566258122, (-17)); (7667695982448407, (-16)); (42497313957355465, (-17)); (2137716643611729, (-16)); (33462419667188548, (-17)); (39776077633560414, (-17)); (3507071107440668, (-16)); (71747410114027776, (-17)); (81479214825740975, (-17)); (90522823114952145, (-17)); (69296216603564698, (-17)); (41161393897684639, (-17)); (55946836943637135, (-17)); (51210872769145999, (-17)); (75821174317858975, (-17)); (4546802338194178, (-16)); (10988091507875202, (-16)); (1719637033050339, (-15)); (10364382159953354, (-16)); (82066077241153901, (-17)); (11868826335498195, (-16)); (83186213238194939, (-17))];
  [(59628840135769412, (-18)); (98615718768849314, (-17)); (74431218631659546, (-17)); (82708402190363972, (-17)); (66572557529536613, (-18)); (96055637629407231, (-17)); (15000520092599146, (-17)); (16083753959305447, (-17)); (48457206623374016, (-17)); (6486163983258979, (-16)); (87615048708998999, (-17)); (70897046649649464, (-19)); (82390365375838359, (-17)); (14611073497536631, (-17)); (8207961258671892, (-16)); (5556305695293573, (-16)); (60939529832097727, (-17)); (65354428340359871, (-17)); (90059570180788351, (-17)); (60739137698395085, (-17)); (85245886576184793, (-17)); (1429567849285944, (-15)); (6747291227567942, (-16)); ((-23535175833743785), (-17)); (69994785721670938, (-17)); (87574639293709278, (-17)); (29361531461141399, (-17)); (13579051112116669, (-16))];
  [(12144110794971219, (-17)); (85716166881351619, (-17)); (74385899662594535, (-17)); (84287559624082908, (-17)); (25318402811236762, (-18)); (18386668195999889, (-17)); (24412010317736599, (-17)); (78248456568404812, (-17)); (29063662347632735, (-17)); (94402416421024826, (-17)); (10289445221666194, (-19)); (9108460935628796, (-16)); (25411741007304811, (-18)); (6527788473040651, (-16)); (93783001806625854, (-17)); (9070095278056689, (-18)); (50947412277065152, (-17)); (63721481322804019, (-17)); (78381438426805605, (-17)); (36768940558966229, (-17)); ((-59839387333250016), (-17)); ((-44254041904143127), (-17)); (86573732731368558, (-17)); ((-28847878705684676), (-17)); ((-79222089500792306), (-18)); (82778261909545814, (-17)); (44699494730894207, (-17)); (21077478865895741, (-17))];
  [(1658452843624586, (-16)); (18848073962584488, (-17)); (91096203556420541, (-17)); (84553055124191179, (-17)); (70163765665221178, (-17)); (5584593346777933, (-17)); (36432769249953911, (-17)); (51661854142374697, (-17)); (45488049923485618, (-17)); (92905963193340413, (-17)); (81057480782288771, (-17)); (49921746700504288, (-17)); (22830319927170584, (-17)); (77050607886145051, (-17)); (27319230414341211, (-17)); (68223969094118453, (-17)); (29821443475471887, (-18)); (8004414528312187, (-16)); (50398065832868688, (-17)); (89900675477083369, (-17)); (79927506426242756, (-17)); (23450392270150899, (-17)); (94890239019320632, (-17)); (94594321758446553, (-17)); (57473144675827492, (-17)); (50555593485442174, (-17)); (49581636268489276, (-17)); ((-3105043373656784), (-16))];
  [(28880823481448714, (-18)); (29209630702284495, (-17)); (53471664550679554, (-17)); (60282450699955303, (-18)); (87896664356413512, (-17)); (4026976473957713, (-16)); (52962583420827825, (-17)); (34890593013676874, (-17)); (66854696345371134, (-17)); (95423167808021536, (-17)); (80670157084485672, (-17)); (6314847541729246, (-16)); (63285156365138551, (-17)); (14305682180320611, (-17)); (24338795808571456, (-18)); (65839965365235165, (-17)); (93718659846252228, (-17)); (25812767233832046, (-17)); (32521908676237032, (-17)); (39545438715305442, (-17)); (11060230182899531, (-16)); (80911063543156669, (-17)); (35840530823331762, (-17)); (36304110089613595, (-17)); (52645367438638491, (-17)); (23690409206464841, (-17)); (10135178797405122, (-16)); (76260221321286026, (-17))];
  [(45945527397337704, (-18)); (23689322148893044, (-17)); (17634092293110049, (-17)); (25223766117538815, (-17)); (18438239509683041, (-17)); (93360158975638174, (-17)); (63450192543223816, (-18)); (69367014347187073, (-17)); (79685572595733678, (-17)); (98082380228604504, (-17)); (79865299685677271, (-17)); (32561535596793456, (-17)); (63277026383815937, (-17)); (19438086413283806, (-17)); (38982064710942865, (-17)); (59648678698959556, (-17)); (35730637533449927, (-17)); (91939716891336587, (-17)); (9898595521007566, (-16)); (26122219469144325, (-17)); (63585966258242121, (-17)); (13235701960232578, (-16)); (1233782010486032, (-16)); (43241691418495809, (-17)); (79053195198881232, (-17)); (24074791403517939, (-17)); (70180009086565964, (-17)); (14438332174571638, (-16))];
  [(19222053981765574, (-18)); (98890876010929496, (-17)); (22249774319927818, (-17)); (15964869082617472, (-17)); (72145223208549214, (-18)); (83931963257993181, (-17)); (97787238813335331, (-17)); (27318678731985568, (-17)); (54301410855760268, (-17)); (15455330798972222, (-17)); (28560681947461575, (-17)); (91179477662997321, (-17)); (99800373195118808, (-17)); (9960366924942391, (-16)); (97376299388966103, (-17)); (87745150135002203, (-17)); (93527919985483354, (-17)); (53209763951721833, (-17)); (85530472510341382, (-17)); (11294976364828653, (-16)); (48107966305202404, (-17)); (13665564444478147, (-16)); (10521575536360284, (-16)); (11451964973451194, (-16)); (15983387671718141, (-16)); (95948975366447031, (-17)); (11148551634524262, (-16)); (12139530516587826, (-16))];
  [(43141381354075325, (-17)); (81725028868305349, (-18)); (44007713261342007, (-17)); (53546266204295967, (-17)); (78332623428685189, (-18)); (63543383058539027, (-17)); (70429498764130483, (-17)); (50473954556094491, (-17)); (473292777774033, (-15)); (72094916887044591, (-17)); (44717599879399783, (-17)); (37342678718309008, (-17)); (31270765022174685, (-17)); (81998181698614903, (-17)); (39513083335929111, (-17)); (41530137996870553, (-18)); (6970670631007192, (-17)); (5600933059574762, (-16)); (57292127109617608, (-17)); (56707243349066416, (-17)); (21023839838348776, (-17)); (55316332722020833, (-17)); (63121870188749651, (-17)); (11563399161516466, (-17)); (70848582853153141, (-17)); (51651851246253233, (-17)); (29980151314687525, (-17)); (42808402289937753, (-17))];
  [(41573589374962228, (-17)); (75406676707003317, (-17)); (21732520106223385, (-17)); (13569251037850172, (-17)); (64968317792562258, (-17)); (8219913031420395, (-16)); (44211806857499047, (-17)); (93105063168147861, (-17)); (39842278949717269, (-17)); (57911860107784596, (-17)); (82801070721988701, (-17)); (85274674306213805, (-17)); (33023184122085281, (-17)); (88071179693152768, (-17)); (93576711131078172, (-17)); (92797934992675235, (-17)); (12250740960951323, (-17)); (13931037788987355, (-17)); (80212807971013955, (-17)); (39841809091451563, (-17)); (12362003799972834, (-16)); (11399032147930677, (-16)); (67548308702665238, (-17)); (1855612997096272, (-15)); (14585940413439822, (-16)); (39048355205809437, (-17)); (88595476151312336, (-17)); (47625141889433448, (-17))];
  [(46923359036698697, (-17)); (35331138856943001, (-17)); (7910676779562229, (-16)); (83343365302968586, (-17)); (92152700741242521, (-17)); (46767110552430657, (-18)); (4320536128773298, (-16)); (20905480281437705, (-17)); (62010119033728717, (-17)); (55357456044501041, (-18)); (41226876887850017, (-17)); (50158332605826828, (-17)); (61400550737958481, (-17)); (33412749270614839, (-17)); (59305146098697159, (-17)); (30710852074569195, (-17)); (10719941260260968, (-17)); (47646531618447674, (-17)); (4979789925099728, (-16)); (88182215219596038, (-17)); (7465267800759845, (-16)); (70891304741260242, (-17)); (7827536327740483, (-16)); (73319154290333399, (-17)); (45695098263530065, (-17)); (65444523628197804, (-17)); (5764763852156829, (-16)); (39514114102837278, (-17))];
  [(85485424855482084, (-17)); (27917113069488786, (-17)); (16122139769010957, (-17)); (54858933928359599, (-17)); (74736178268127862, (-17)); (14065286479568728, (-19)); (12320164950552059, (-17)); (73839194107886164, (-17)); (674680070025932, (-15)); (33591637273952879, (-17)); (59471317940327695, (-17)); (23552635061140248, (-18)); (35407469300441119, (-17)); (59222405188610938, (-17)); (26608926802012733, (-17)); (73135938351575924, (-17)); (98051393021497391, (-17)); (71497793848981739, (-17)); (87855163229769717, (-17)); (63670691129277701, (-17)); (57915557141924112, (-17)); (32846406215618607, (-17)); (73800221512540765, (-17)); (10052825821321709, (-16)); (57006316827340076, (-17)); (12457316016460367, (-16)); (15873894656207934, (-16)); (70539296286209452, (-17))];
  [(55109381614269626, (-17)); (34652602699389967, (-17)); (70021677503802571, (-17)); (56969967829634394, (-17)); (35022279706831283, (-17)); (13390611281594922, (-17)); (28790129193578873, (-17)); (28293610384956125, (-17)); (59582380201812501, (-19)); (7268587532724875, (-16)); (74313272356498283, (-17)); (9192758068464868, (-17)); (76175570890305755, (-17)); (29333617982729132, (-17)); (83860843095232462, (-17)); (51726206214232817, (-17)); (34676477377200432, (-17)); (78512366028184488, (-17)); (83936024993704228, (-18)); (81214744586224707, (-17)); (58380056847499084, (-17)); (42593186124916538, (-17)); (43066943708765582, (-17)); (31694017041918232, (-17)); ((-12362876298635277), (-17)); (34496152284859477, (-17)); (21892506403624459, (-17)); ((-73964699567052844), (-18))];
  [(53283995498862868, (-19)); (93365612953756461, (-17)); (87213289192173515, (-17)); (44010234913801527, (-17)); (97592320023714574, (-17)); (2131909651053554, (-17)); (16265688469635231, (-17)); (14660418862554903, (-17)); (77719368273532963, (-17)); (35170684864335, (-14)); (99677777638822451, (-17)); (23957278664060377, (-17)); (63913455082868587, (-17)); (96046187198505362, (-17)); (98784889490150185, (-17)); (25911391588388299, (-17)); (93246647560081952, (-17)); (61035998649224465, (-17)); (16852290499212508, (-17)); (35861535281875218, (-17)); (14449368610045346, (-16)); (12529752343707565, (-16)); (59890031990281412, (-17)); (17900621351568489, (-16)); (71778158636520317, (-17)); (42450936874968526, (-17)); (15183993505298661, (-16)); (73010968187912184, (-17))];
  [(2672378635845718, (-16)); (23990237429474859, (-17)); (21997530692617084, (-17)); (48196727011786766, (-17)); (74575203129052914, (-17)); (32627692262805741, (-17)); (62700554663325958, (-17)); (95037119344206888, (-17)); (1410272696138134, (-16)); (46266239119941743, (-17)); (57133322370623252, (-17)); (64224001850935453, (-17)); (47425939590783783, (-17)); (46013084949944394, (-17)); (39460665723695221, (-18)); (50425490956174901, (-17)); (41902096044974135, (-17)); (15020712235744937, (-17)); (38827519313930614, (-17)); (75728874843951766, (-17)); (11233765366962629, (-16)); (3870130794945012, (-16)); (53750215131259826, (-17)); (7532753377277428, (-16)); (2363449280817318, (-16)); (48066275083960291, (-17)); (68259074699491473, (-17)); (22737128387828426, (-17))];
  [(79421275696365501, (-17)); (88640087272990975, (-17)); (48620338904070215, (-17)); (97578324310571174, (-17)); (22492195344446841, (-17)); (61518446035889407, (-18)); (24127837930829776, (-17)); (41983488674515912, (-17)); (61579268829537048, (-17)); (76635117731733371, (-18)); (91578884892613233, (-17)); (91574464305882874, (-17)); (94635559544145598, (-17)); (22288569269884129, (-17)); (46879157193758902, (-18)); (97229209340540634, (-17)); (42340918643184455, (-18)); (1604916174418457, (-16)); (18420773347074282, (-17)); (1857210337091074, (-15)); (13656779270158097, (-16)); (10531072357190925, (-16)); (4705022313622812, (-16)); (6163582995094915, (-16)); (70896028689508783, (-17)); (22752415944624244, (-17)); (14058752037490155, (-17)); (13802918178738655, (-17))];
  [(75581684276422778, (-17)); (42878587318159966, (-18)); (62246159050728633, (-17)); (29683324593382854, (-17)); (29828491968602044, (-17)); (65394667311838961, (-17)); (61872735189707961, (-17)); (93265199257462472, (-17)); (67559891662675498, (-17)); (87231560595981461, (-17)); (88618391114553885, (-17)); (4377171034006504, (-16)); (54086468607249116, (-17)); (12451893691862048, (-17)); (51923355587195885, (-17)); (58916573514030834, (-17)); (62436159416760295, (-17)); (22083932605080092, (-17)); (88733649190325903, (-17)); (79700157223293289, (-17)); (80089345002026624, (-17)); (11393458458904124, (-16)); (2519276001566767, (-16)); (66391000792773514, (-17)); (48107625079547939, (-17)); (90873700412788838, (-17)); (10225245945043182, (-16)); (11496803317097455, (-16))];
  [(70010873464927592, (-17)); (32844941540991723, (-17)); (90916321213361406, (-17)); (76200061887222248, (-17)); (69781870371457477, (-17)); (20442463250087206, (-17)); (71754986492090977, (-17)); (64658847164831357, (-17)); (86002536829713438, (-17)); (72387887102654902, (-17)); (59412867672840042, (-19)); (56425493776793212, (-17)); (75622770524102378, (-18)); (99172008312400584, (-18)); (27264650080830477, (-17)); (91059459536449827, (-17)); (32702598388209447, (-17)); (4822261149546947, (-17)); (16743617470152627, (-17)); (12089099848176865, (-17)); (22537440514080476, (-17)); ((-18344534857380462), (-17)); (78470666250621801, (-17)); (74225886188834056, (-17)); (74170517009759485, (-17)); (46189740787847738, (-17)); (35460126205659526, (-17)); (38938944565813571, (-17))];
  [(57357101430189195, (-17)); (99891105812274228, (-18)); (42275162532118638, (-17)); (5639346694145384, (-16)); (95563262320286968, (-17)); (7542491135387609, (-16)); (33438501126045006, (-17)); (74891470774849633, (-17)); (6493121241155031, (-16)); (3527238532022251, (-16)); (49007432369619308, (-17)); (53314748070058005, (-17)); (94755766256690555, (-17)); (15216232573741317, (-17)); (82499702665183872, (-17)); (70750025359976709, (-17)); (82618984937130602, (-19)); (58937156248931055, (-17)); (7237241984818773, (-16)); (8526203060705122, (-16)); (13770959876180529, (-16)); (12368862695484055, (-16)); (62125791524914975, (-17)); (13057421846300876, (-16)); (10228627752635264, (-16)); (4431841393746736, (-16)); (10537197002295511, (-16)); (80644585502015276, (-17))];
  [(15503671742753689, (-18)); (86837747566382206, (-17)); (29970252338665804, (-17)); (80574081411013532, (-17)); (26527235251617121, (-17)); (26728135750246573, (-18)); (39630488085154802, (-17)); (21843478372193426, (-17)); (41101551030303374, (-17)); (69170759084926769, (-17)); (6918609082897631, (-17)); (98581647815907503, (-18)); (54640194111709439, (-17)); (89873478633163895, (-17)); (5497111885062459, (-16)); (10257349922332404, (-17)); (28379468976925415, (-17)); (5097342162964692, (-16)); (1433862723203273, (-16)); (31312539293751912, (-17)); (14286689815350692, (-17)); (22491242590978042, (-17)); (84896708793764908, (-17)); (58336205233382699, (-17)); (17115544266346272, (-17)); (5173415465489144, (-16)); (90937487460479249, (-18)); (42326150723620712, (-18))];
  [(57993420195095657, (-17)); (63446488902194931, (-17)); (12254944428422776, (-17)); (61504943097066922, (-17)); (9974332475166624, (-16)); (38707073385136792, (-17)); (92688732755676706, (-17)); (84440377043816461, (-17)); (43519210797995822, (-17)); (41717247113514211, (-17)); (800201538025754, (-15)); (81222186247046035, (-17)); (85696751152870576, (-17)); (89749076752853951, (-17)); (82994972585142235, (-17)); (44877726509661542, (-17)); (29788970492459277, (-17)); (42586641263692293, (-17)); (52119969023772694, (-18)); (16838520326639412, (-16)); (2043036186537841, (-15)); (83519159638655149, (-17)); (13871358647651295, (-16)); (18057183817857498, (-16)); (6891019118727868, (-16)); (41988216729272321, (-17)); (61605638007878794, (-17)); (23233362520899534, (-17))];
  [(76933732343682759, (-17)); (32129141371041392, (-18)); (4535699342022208, (-16)); (1069835579168863, (-16)); (73496241258259176, (-17)); (75914066532329671, (-17)); (69641676786056028, (-17)); (61914290754925827, (-18)); (8220891332782877, (-16)); (76205978367041349, (-17)); (68834697703629799, (-17)); (39095136489278126, (-17)); (79257529124845649, (-17)); (32186105970736889, (-17)); (3783489779592567, (-16)); (38997075859609498, (-17)); (79526333164853635, (-17)); (61205727484188166, (-17)); (45700536946583825, (-18)); (80850504199104611, (-17)); (61354706940398929, (-17)); (1330478123559983, (-15)); (30280542973993202, (-17)); (38771597303370059, (-17)); (68419286853602213, (-17)); (25543988760729092, (-17)); (7366958185333512, (-16)); (8597850984080645, (-16))];
  [(26291112715381404, (-17)); (80856677530256715, (-17)); (81280694812535859, (-18)); (20295864335058222, (-17)); (54402172208298505, (-17)); (88362195687786138, (-17)); (42248209873106912, (-17)); (49193855016783528, (-18)); (26018079558153218, (-17)); (6308504195645267, (-16)); (1621759202643972, (-16)); (47904832450958101, (-17)); (15482144189996716, (-17)); (75383146512482835, (-17)); (21222238115899406, (-18)); (25933312849582446, (-17)); (82406953202960875, (-17)); (5746953638591229, (-16)); (97519032798093441, (-17)); (12348051943421251, (-17)); (14753109156168145, (-17)); (45430778881562867, (-17)); (36003722651547854, (-17)); (74605574440181488, (-17)); (52396594856977763, (-17)); (69067669890170991, (-17)); (82885655840241701, (-17)); (11198306691225202, (-16))];
  [(22877998948891387, (-17)); (43824006716259289, (-17)); (72508882412332043, (-17)); (4928867339560028, (-17)); (15518955687561542, (-17)); (52879849345934316, (-17)); (36318997177277335, (-17)); (54367645039166246, (-17)); (64657721291150672, (-17)); (92768843576789894, (-17)); (36043376543208328, (-17)); (37174364037239072, (-17)); (8641648049305295, (-17)); (55465060217345385, (-17)); (19442072788980602, (-17)); (78375779982578708, (-17)); (7223539088787867, (-17)); (58348034754551459, (-17)); (74187797120332999, (-17)); (37981928171888911, (-18)); (90695953441017552, (-18)); (26730635462040842, (-17)); (3527781474195591, (-16)); (59066862979211787, (-17)); (93148607481700196, (-17)); (19262614341169548, (-17)); (28097393351707778, (-17)); (3881277288331545, (-16))];
  [(77880463483023821, (-17)); (40686542819624694, (-17)); (27841893920022509, (-17)); (30454879059906781, (-17)); (81531054611971776, (-17)); (1449687220519299, (-16)); (622930160191979, (-16)); (11339884982594595, (-17)); (41726476289934922, (-17)); (55796238695772327, (-18)); (17720616628980379, (-17)); (90340988427122892, (-17)); (94268555818075683, (-17)); (96543497130950007, (-17)); (96429880701344606, (-17)); (65860721411568635, (-17)); (31273120560078349, (-17)); (78035540279718807, (-17)); (38728577414250809, (-17)); (43499406904749593, (-17)); (9018586626913857, (-16)); (56077828348512582, (-17)); (10594763425025142, (-16)); (12738719648831895, (-16)); (67559900324071653, (-17)); (47600826271235253, (-17)); (80271420931136261, (-17)); (35189853268165971, (-17))];
  [(37939493999850049, (-17)); (74046030576067046, (-17)); (55502880144566014, (-17)); (45707433900783323, (-17)); (59827115519203611, (-18)); (75766767785320399, (-17)); (74057944521073138, (-17)); (40165928877787604, (-17)); (95157390298204525, (-17)); (19659152920575651, (-17)); (95269888439671624, (-17)); (53242328646058212, (-17)); (70836174869727586, (-17)); (37276071525915899, (-17)); (90935199596461036, (-17)); (47764980670988444, (-18)); (75844400405496171, (-17)); (37511412414955925, (-18)); (7519416626633938, (-16)); (1163354875617965, (-15)); (94173499217317191, (-17)); (16715501384278149, (-16)); (54759965893479301, (-17)); (21607346438920644, (-17)); (8806561078384687, (-16)); (92082846558193321, (-17)); (85844326231112378, (-17)); (12644296262659738, (-16))];
  [(43642161411410973, (-18)); (1246951553126231, (-16)); (65561404243956123, (-17)); (24981993231748212, (-17)); (43341792776179011, (-17)); (51775654543132588, (-17)); (79122461529179733, (-17)); (46433972554999869, (-17)); (50572894564477877, (-17)); (1870594151431807, (-16)); (89384837935772088, (-17)); (89376478197198295, (-17)); (38987676727546783, (-17)); (4563293597785848, (-16)); (26831914068349494, (-17)); (10499596987629267, (-17)); (20274409960490092, (-17)); (68450903302540922, (-17)); (37121867695112565, (-17)); (60046775000491492, (-17)); (72248628241645485, (-17)); (12047428429709, (-13)); (18752825063879358, (-17)); (24948809396456062, (-17)); (49478093204357187, (-17)); (47429581949054977, (-17)); (48918306359032215, (-17)); (60262868534202252, (-17))];
  [(28274889332066755, (-17)); (98332089292124358, (-17)); (66647152058443615, (-17)); (44627179257522542, (-17)); (57597478590887996, (-17)); (51374345007335753, (-17)); (91787730921862187, (-17)); (69948721823529492, (-17)); (7346342060024289, (-16)); (94454468341969355, (-18)); (78537607095179118, (-17)); (21733110220781338, (-17)); (32830000916595037, (-17)); (41576701595142185, (-17)); (71446965582832167, (-17)); (91225622329946365, (-17)); (50136059203777483, (-17)); (86399072725454584, (-17)); (9845584725108314, (-17)); (64623054576145578, (-17)); (11456032992027096, (-16)); (89782583732753962, (-17)); (12702459332492984, (-16)); (14111286383551491, (-16)); (12866896758301989, (-16)); (61341554522802844, (-17)); (10021958683145802, (-16)); (81685729058127976, (-17))];
  [(94523670043458297, (-17)); (45914621825179169, (-17)); (7839941373989866, (-16)); (38718416717043524, (-17)); (9562555530797785, (-16)); (38412353785591846, (-17)); (63807344553485301, (-17)); (91432852892472027, (-17)); (28346062894211255, (-17)); (54622251448632375, (-17)); (52735579230143659, (-17)); (5966452432904944, (-16)); (53404844750486291, (-17)); (40028268737603256, (-17)); (39006738438251953, (-17)); (18403635913854888, (-17)); (19362396326898057, (-17)); (45369855231526302, (-17)); (68657386967563561, (-17)); (77720796620401744, (-17)); (13023768026521996, (-16)); (56274404543840228, (-17)); (4587673735081389, (-16)); (7498462502783817, (-16)); (36936985713441639, (-17)); (56074876578368893, (-17)); (10624124364663683, (-16)); (32711044338288792, (-17))];
  [(82656142228465912, (-17)); (80552373437969316, (-17)); (31499180932656379, (-17)); (75078959516428168, (-17)); (390517763396384, (-15)); (91104532136465821, (-17)); (70933219575792006, (-17)); (88379220389090174, (-17)); (29675807688911937, (-17)); (87569497976972976, (-17)); (17648189632659672, (-17)); (64746310029036525, (-18)); (47724373447535273, (-17)); (37215049809787504, (-17)); (25394011873664801, (-17)); (48713321403410381, (-17)); (6341105316738378, (-16)); (9364737827744708, (-16)); (6577361603225077, (-16)); (52374299870190377, (-17)); (54190167191342653, (-17)); (32282516123135768, (-17)); (71803965127687519, (-17)); (64055071995407387, (-17)); (56676321119622408, (-17)); (1023709420267799, (-15)); (75351300534375754, (-17)); (1086665725061899, (-15))];
  [(67527250873563172, (-17)); (27241797945991797, (-17)); (51516168017385444, (-17)); (62632179801654531, (-17)); (29342007968189443, (-17)); (55585377213420795, (-17)); (76560175047240109, (-17)); (92492701781941045, (-17)); (93431158476044551, (-17)); (91665590666051622, (-18)); (52595350129168894, (-17)); (51111273106961863, (-17)); (944541424199694, (-15)); (71346895202828287, (-17)); (38435062154944433, (-17)); (96983631803558956, (-18)); (53250557370163654, (-17)); (4844113885074206, (-16)); (22399829478981981, (-17)); (13941511254749699, (-16)); (1167031853276679, (-15)); (14378796420162332, (-16)); (8108773562642686, (-16)); (40512992146680077, (-17)); (68754510667491731, (-17)); (83228060368634216, (-17)); (49539945347300118, (-17)); (754841844558791, (-15))];
  [(61529447007582005, (-18)); (41682140115847344, (-17)); (91582481235728463, (-17)); (13943781072317496, (-17)); (91577542074969043, (-17)); (67964219555399663, (-17)); (53798763557216589, (-17)); (68456508218630807, (-18)); (15397756892772374, (-17)); (59310012878267937, (-17)); (83401138035462563, (-18)); (59405589623262367, (-18)); (97603280813282578, (-17)); (97195559323203551, (-17)); (7619617018367153, (-17)); (73216434585678614, (-17)); (60819386694333966, (-17)); (62922470735638536, (-17)); (60555190036161288, (-17)); (54067445646230616, (-17)); (16960244385519552, (-17)); (24837525837609536, (-17)); (52542597259347712, (-17)); (9236745566874941, (-16)); (12240123633826818, (-16)); (45532415600272419, (-17)); (89419652582776699, (-17)); (81866874671467249, (-17))];
  [(69779109084992597, (-17)); (5326108436820004, (-16)); (37970836574659084, (-17)); (97997058406858784, (-17)); (3888394265647348, (-16)); (70947985866242735, (-18)); (36362230763639813, (-17)); (24536818043556263, (-17)); (44815209595313499, (-17)); (66358989692389503, (-17)); (2708225735676687, (-16)); (52208429373669685, (-17)); (62528831187717426, (-17)); (30931045169082017, (-17)); (74078363275130521, (-17)); (85784850265192314, (-17)); (88117696021747527, (-17)); (47174396691870979, (-17)); (97070726597972923, (-17)); (71837350448417647, (-17)); (32057247597537042, (-17)); (28014486745325051, (-17)); (92216618786912541, (-17)); (39824801925759756, (-17)); (35863587728169299, (-17)); (15306839978772715, (-16)); (80869927555819077, (-17)); (65315250045789142, (-17))];
  [(35465077626974817, (-18)); (84799102458910747, (-17)); (79360036108214371, (-17)); (53376457765247443, (-17)); (98269333078688792, (-17)); (34215784361511503, (-17)); (30488425074863346, (-17)); (65472667605587676, (-17)); (20401062520720337, (-17)); (10579912222124566, (-17)); (31768495252790807, (-17)); (14779567461150034, (-17)); (47723596849426519, (-17)); (8952551148115, (-13)); (38070903074031348, (-17)); (15204876633156239, (-17)); (37523276697607844, (-17)); (89953598527835765, (-17)); (58284513028992058, (-17)); (25250572397538273, (-17)); (74450501080621101, (-17)); (39744572549455187, (-17)); (32903938592026044, (-17)); (12853142622873182, (-16)); (86749816975143568, (-17)); (68617093275101748, (-17)); (15354309513376285, (-16)); (65926059438021334, (-17))];
  [(7148346619210485, (-16)); (62326898605812386, (-17)); (36527052601722509, (-19)); (95329349153316589, (-18)); (36069213031960268, (-17)); (47811061073099437, (-17)); (34594104506001677, (-17)); (15045004326087363, (-17)); (32286559805598947, (-17)); (47980971519046256, (-17)); (23764512635298218, (-17)); (86533114497033936, (-18)); (90330241814200896, (-17)); (53938958911671375, (-17)); (42191230242401878, (-17)); (15694457503542925, (-18)); (24229814953777085, (-17)); (81867877905780095, (-17)); (65941711602214059, (-17)); (45240579926923702, (-17)); (30965275567147776, (-17)); (38141861844168412, (-17)); (26766006010551591, (-17)); (40400227906077374, (-17)); (30409028908076946, (-17)); (19151525661932767, (-17)); (29992388075352922, (-17)); (61300427655082868, (-17))];
  [(15386073921076926, (-17)); (55442273421118571, (-17)); (77644028325095538, (-17)); (30503472119334607, (-17)); (58803526797387973, (-17)); (62089954190293606, (-17)); (55096587526512464, (-17)); (28170954028217887, (-17)); (87735855854480738, (-18)); (21395494595960851, (-17)); (99480266371340254, (-17)); (78457326402037553, (-17)); (36985695489186976, (-17)); (61753513551019545, (-17)); (72857367673122042, (-17)); (88493683293811665, (-17)); (16695981639309476, (-17)); (4197618313369631, (-16)); (61303385674718391, (-17)); (62601422975786247, (-17)); (11258425573130288, (-16)); (12650810210663916, (-16)); (81378518905912445, (-17)); (99385842254538836, (-17)); (94954361285315536, (-17)); (4850863956488497, (-16)); (47579189926289395, (-17)); (38796029365382168, (-17))];
  [(19661513935090447, (-17)); (74295701125760027, (-17)); (43999172895338723, (-17)); (22440696049593756, (-17)); (35528403840388212, (-17)); (68597949635689803, (-17)); (64155063397088596, (-17)); (37391076639855425, (-17)); (42238744886479462, (-17)); (51010912544333153, (-17)); (60011073223763356, (-17)); (48549019946847916, (-17)); (91291089152338989, (-17)); (69079090390547315, (-17)); (20956203849785771, (-17)); (15885733956559012, (-17)); (54918645365680896, (-17)); (27016867917427811, (-17)); (7358852556900386, (-17)); (80287283352206662, (-17)); (80895545208342567, (-17)); (10033719875773619, (-16)); (31705695250438581, (-17)); (61607676219025964, (-17)); (6441565270824603, (-16)); (22859048088453665, (-17)); (46462186360131091, (-17)); (52959910151216327, (-17))];
  [(41194153891985419, (-17)); (5176421434224231, (-16)); (17324222698069869, (-17)); (68045013077412175, (-17)); (83483323566440115, (-17)); (88189011310688259, (-17)); (70342365756679615, (-17)); (69391864886445542, (-17)); (57875468757502158, (-18)); (98764081446124163, (-17)); (57521332465473329, (-17)); (67473468481400833, (-17)); (49162817637174128, (-17)); (5105378885099876, (-18)); (17509321711893944, (-17)); (34321532711621772, (-17)); (54211204472896735, (-18)); (43037468331051132, (-17)); (60762964489385574, (-17)); (82382774273036552, (-17)); (92459008666369513, (-17)); (73685696137451906, (-17)); (25088313397694145, (-17)); (24801238081363189, (-17)); (83817923261479757, (-18)); (48378152388168816, (-17)); (48676222843265327, (-17)); (22700834897406, (-14))];
  [(43287218989069953, (-17)); (23243621930323377, (-17)); (72140587255016819, (-18)); (61468020591771033, (-18)); (12715071923470178, (-17)); (41981231378145212, (-17)); (49402308083771773, (-17)); (79663753667330628, (-17)); (6828958888015384, (-16)); (19365606110208655, (-18)); (25347641721474523, (-18)); (65884511232260201, (-17)); (77023231813801496, (-17)); (37132037256768224, (-17)); (2415141154218029, (-16)); (67898412727825908, (-17)); (82187755177977939, (-17)); (65207285721241171, (-17)); (53221004539698302, (-17)); (42648061400345816, (-17)); (70034046140576767, (-17)); (80364184434015473, (-17)); (50939809887485932, (-17)); (65772651003538884, (-17)); (59451053502894824, (-17)); (65421178274098679, (-17)); (69696142925855031, (-17)); (702191010931563, (-15))];
  [(87182461062670014, (-17)); (95438400260605605, (-17)); (29161877618341103, (-17)); (18924779756413246, (-17)); (13011533853932034, (-17)); (62854045107955825, (-17)); (85224620785925975, (-17)); (44423838504241109, (-17)); (51672010979213301, (-17)); (38271965920321971, (-17)); (76380353523853584, (-17)); (22192560383998161, (-17)); (56277777167121301, (-17)); (35535457418921079, (-17)); (84338815720739202, (-17)); (7620393636574796, (-17)); (20154691177220252, (-17)); (70495912582174813, (-17)); (88463451789197989, (-17)); (11180384823984424, (-16)); (91103501889735028, (-17)); (78193630577669504, (-17)); (25092489160942916, (-17)); (16693489503849779, (-17)); (61882152425950732, (-17)); (82541208832151702, (-17)); (4150543954477689, (-16)); (89320515356946939, (-17))];
  [(37811884442238319, (-17)); (73409340247365162, (-17)); (38724480428010988, (-17)); (10769823467132345, (-17)); (33381031343678724, (-17)); (28899267434208009, (-17)); (17482922286387714, (-17)); (69409973839110817, (-17)); (18800016279341147, (-17)); (98654921025842268, (-17)); (14975568292952957, (-17)); (47685076040337226, (-18)); (77785524143995033, (-17)); (18009545450709841, (-17)); (89641888583805374, (-17)); (58810322218608369, (-17)); (13716767829141574, (-17)); (53731097294956354, (-17)); (51436860863663025, (-17)); (1684707813922052, (-16)); (62182488222310162, (-17)); (2065215055530269, (-16)); ((-72922749425776479), (-18)); (14741659147854425, (-17)); (4577950891922436, (-17)); ((-66928729362758788), (-19)); (22067554377407012, (-17)); (71154440636407884, (-18))];
  [(60157043262323273, (-17)); (96843649811015253, (-17)); (91508446718727943, (-17)); (64373213781704997, (-17)); (61581080557470091, (-17)); (4730927916776182, (-16)); (49981346393219894, (-17)); (37195333646103401, (-17)); (22734962833669781, (-17)); (76557864670491416, (-17)); (94580333111579429, (-18)); (94460203053946723, (-17)); (93451443132306822, (-17)); (29552214239750751, (-17)); (72599130772200726, (-17)); (76619169948083155, (-18)); (96961556147018624, (-17)); (52801289743717417, (-17)); (93822410776571441, (-17)); (59493462948070452, (-17)); (23948074760527902, (-17)); (29080335046252209, (-18)); (33260411538093759, (-17)); (19607913796926163, (-17)); (96543859772488264, (-18)); (13469558900276672, (-16)); (13198394733114469, (-16)); (10161695352913509, (-16))];
  [(98473826279850174, (-17)); (40026916223878561, (-17)); (40730735066627155, (-17)); (94009001914623458, (-17)); (63237006862306055, (-17)); (50930694540339094, (-17)); (73238404647479938, (-17)); (30999104246420384, (-17)); (63405083297490972, (-17)); (32188990594730105, (-17)); (99383159316865421, (-17)); (54408653339631341, (-17)); (64915344388727458, (-17)); (62848449459468303, (-17)); (51323649918995584, (-17)); (36210618241670534, (-17)); (99152287616783585, (-17)); (36048685018500926, (-17)); (36958758476963682, (-17)); (20151205390732509, (-16)); (10349185421238936, (-16)); (11484970041685183, (-16)); (1337040353334173, (-15)); (71951990617829531, (-17)); (75553256306460037, (-17)); (17009894064822146, (-16)); (86002637351658384, (-17)); (90492594100925006, (-17))];
  [(4471874849181755, (-16)); (11860494061136251, (-17)); (11021575652966686, (-17)); (81909504272194622, (-17)); (91979090596402613, (-17)); (47316275404159946, (-17)); (66115910287338286, (-17)); (4940372606799559, (-16)); (51353447080555603, (-17)); (45392263226147089, (-18)); (91411003310504058, (-17)); (72040215114178252, (-17)); (26706629435275586, (-17)); (29927935353534041, (-17)); (33915918371564313, (-17)); (38027833368983899, (-17)); (75996632695512922, (-17)); (33025998190417405, (-18)); (70465917491633334, (-18)); (11937579885587475, (-16)); (93645893488228016, (-17)); (59433320975646098, (-17)); (66687944165640456, (-17)); (54563103452050621, (-17)); (39327903193315378, (-17)); (44068624479680718, (-17)); (18674244180949115, (-17)); (15162296696793742, (-17))];
  [(97614962380058579, (-17)); (10591976988810181, (-17)); (99083478845495676, (-17)); (88888219039536731, (-17)); (26543977800499075, (-17)); (56366804598429998, (-17)); (53146600123500065, (-17)); (46960656754715657, (-17)); (84231955477887399, (-17)); (65180303603862189, (-17)); (48435640639868327, (-17)); (52096123999226696, (-17)); (91718348337139277, (-17)); (54214155250490337, (-17)); (1967174544336362, (-16)); (17321006784027548, (-17)); (15022185195830551, (-17)); (20918018563555141, (-17)); (98520213547337465, (-17)); (11841497077311605, (-16)); (6259535140102408, (-16)); (12400279979689648, (-16)); (82762851881717803, (-17)); (24316016889161543, (-17)); (72823394103741368, (-17)); (7451313014580192, (-16)); (53019699122679675, (-17)); (96755724862175729, (-17))];
  [(74446709348966333, (-17)); (16370173047490633, (-17)); (25077255994004333, (-17)); (24435454454987826, (-17)); (9239425197464235, (-17)); (94273420552675458, (-17)); (41240674509339259, (-17)); (27205170454062233, (-18)); (49040390085463303, (-17)); (66266437323447225, (-17)); (86976716836033596, (-17)); (84181765748560022, (-17)); (80448616227722891, (-17)); (26010668506540868, (-17)); (18548459354191804, (-18)); (18976286538747145, (-17)); (74023429515484129, (-18)); (49237787721723059, (-17)); (93579889507934633, (-17)); (74960465256625675, (-17)); (16011018913032549, (-17)); (15667008852942472, (-16)); (26509742551589199, (-17)); (5299883409308058, (-17)); (30626564597047357, (-17)); (30983909304570123, (-17)); (25495350207290365, (-18)); (80646248491089012, (-17))];
  [(29541118765332863, (-17)); (78616530148822616, (-17)); (90566832881240256, (-17)); (10561704233193514, (-17)); (78810922222279245, (-17)); (84243999801238778, (-17)); (32870597782593691, (-17)); (2260215617666903, (-16)); (53225335513381666, (-17)); (55602263617914316, (-19)); (51121598668792556, (-17)); (79301182333050391, (-18)); (46646320163786048, (-17)); (26582300022042571, (-17)); (83149246006281419, (-17)); (54480158035093873, (-17)); (24530853770175787, (-17)); (96431402578987468, (-17)); (53910319790077144, (-17)); (31289121369316031, (-17)); (57171535251284822, (-17)); (78006229777659808, (-17)); (3442141688851218, (-16)); (98494143826927683, (-17)); (12282459061211939, (-16)); (35007876003477933, (-17)); (10715317649366589, (-16)); (13177614397009263, (-16))];
  [(48642591372962529, (-17)); (58415703019527321, (-17)); (97846843425126639, (-17)); (11898550782947914, (-17)); (91890679858473934, (-17)); (76550955178750812, (-17)); (3995478455101642, (-16)); (21596099649469314, (-17)); (36909941630852539, (-17)); (96640178015327316, (-18)); (38687681404695939, (-17)); (58793002974800468, (-17)); (15650206025231406, (-17)); (40581205049483371, (-18)); (95950586867817422, (-17)); (51680855535271741, (-17)); (33568525028349838, (-18)); (80018669055576352, (-17)); (41166314176304719, (-17)); (29631472977082557, (-17)); (79763640354653265, (-17)); (85557972040143337, (-17)); (29520332989263509, (-17)); (96230351050389973, (-17)); (87376792821088001, (-17)); (23832641046030703, (-17)); (79816071683828471, (-17)); (72126156371657346, (-17))];
  [(72585952669650544, (-17)); (15250127637148259, (-17)); (35206098750044224, (-17)); (13327789939298218, (-17)); (2294810613724243, (-16)); (88895119630637043, (-17)); (23793140203722718, (-17)); (30409881686986817, (-17)); (32928903405404997, (-18)); (50836756686931839, (-17)); (54683667800527691, (-18)); (57941428672426964, (-17)); (91588997031529973, (-17)); (10409431414061843, (-17)); (72299614510640042, (-17)); (74390050615603709, (-17)); (1297000207207557, (-16)); (77633141067747791, (-17)); (1344520804733278, (-16)); (11888224256808769, (-17)); (36505382850925294, (-17)); (42128135052429061, (-17)); (78482573446086945, (-18)); (34297794375347557, (-17)); (53908476050851584, (-17)); ((-6126205746735728), (-17)); (17064920047669582, (-17)); (57024742483799962, (-17))];
  [(85335290728921132, (-17)); (62013456324222538, (-17)); (94845241389964552, (-17)); (91099859198898281, (-17)); (331918422612555, (-15)); (27985699221810723, (-17)); (72145023404107445, (-17)); (46159391479515044, (-17)); (62580942671648987, (-17)); (93449094825380619, (-17)); (80847301388494752, (-17)); (46535947433443325, (-17)); (57989582063499268, (-17)); (20034795563610486, (-17)); (38883618502455752, (-17)); (80458359198717755, (-17)); (49618433773859427, (-17)); (32899075522648125, (-17)); (10674036500878981, (-17)); (13532293427615965, (-16)); (64110730607168898, (-17)); (72293003750017548, (-17)); (77247387300642223, (-17)); (38145594782109271, (-17)); (42957174276528265, (-17)); (6444705212206514, (-16)); (265374199462108, (-15)); (26187667142069859, (-17))];
  [(55095916763001607, (-17)); (80648824509391692, (-17)); (72140091756467073, (-18)); (4370131934689967, (-16)); (67521780909780971, (-17)); (47187448646718022, (-17)); (15102066402763892, (-17)); (60657458516553109, (-17)); (38657220743827259, (-17)); (76988208947341163, (-17)); (77149726547304243, (-17)); (57534638890595169, (-17)); (21193743465883608, (-17)); (4415565327876233, (-16)); (59051661648847076, (-17)); (86820991678685167, (-17)); (68602371342021529, (-17)); (4816215406465042, (-16)); (20468539627536919, (-18)); (53176104972954974, (-17)); (89384045038104909, (-17)); (54132558632337868, (-17)); (39893208148258374, (-17)); (94463678197811052, (-17)); (67394208027079661, (-17)); (44956842709962724, (-17)); (69521035883724258, (-17)); (40776018960464649, (-17))];
  [(35917769236744135, (-17)); (75507685396157787, (-17)); (8390541399635123, (-16)); (82581120295494093, (-17)); (15486149075394551, (-17)); (27641374089071946, (-17)); (91037578518367601, (-17)); (46507050072846712, (-17)); (21224207820587337, (-17)); (65748709761727642, (-18)); (7894942758736504, (-16)); (64897657754076399, (-17)); (84394593298886245, (-17)); (24604912910098042, (-17)); (10165819466248616, (-17)); (77673934941787448, (-17)); (69415539085755629, (-17)); (5624731300428597, (-16)); (87794224581925395, (-17)); (16135588054431196, (-16)); (10634568529306125, (-16)); (99767812937523637, (-17)); (89002907941050036, (-17)); (55979229747706272, (-17)); (39776258307464463, (-17)); (15359260008848277, (-16)); (99738914675096657, (-17)); (90425010285876894, (-17))];
  [(34102954986382139, (-17)); (84748329224754282, (-17)); (41267027940762357, (-17)); (48403125765343191, (-17)); (44761109525169751, (-17)); (95278379827595372, (-17)); (54183727131088366, (-17)); (52944092167902401, (-17)); (46277008202423875, (-17)); (25565876932228604, (-17)); (71301353619580377, (-17)); (89557116643091117, (-17)); (30708896872725744, (-17)); (19384128533304934, (-17)); (8165261402971089, (-16)); (25364385979324855, (-17)); (70374165885169948, (-17)); (97925787564997979, (-17)); (29677014026820359, (-17)); (83108299565505594, (-17)); (10238249832708139, (-16)); (13306747232173277, (-16)); (53707799346688201, (-17)); (49378245581678532, (-17)); (90895191329755076, (-17)); (85327094882504428, (-17)); (10280162332395806, (-16)); (13883740067660266, (-16))];
  [(62017689996672931, (-17)); (28897137536358075, (-17)); (34560310149058504, (-17)); (35434679639046529, (-17)); (15100650522533687, (-17)); (42036027737641912, (-17)); (33421038614726273, (-17)); (66115288164624719, (-17)); (76899233168454095, (-17)); (23444891941306523, (-17)); (7412805291206126, (-17)); (39367222717127126, (-17)); (924292110080706, (-15)); (63643652271127793, (-17)); (79067231237405478, (-17)); (70969399893882446, (-17)); (45254037787318946, (-17)); (49368642383650896, (-17)); (71116620969819588, (-17)); (4386881456375672, (-16)); (66592715557995585, (-17)); (87228091824348286, (-17)); (83207603709732103, (-17)); (73347528701683617, (-17)); (10816305470727599, (-16)); (64693235171490571, (-17)); (65262744605734035, (-17)); (90540643553260824, (-17))];
  [(88538192851484987, (-17)); (32616638592678748, (-17)); (84160371826876856, (-18)); (918776747998309, (-15)); (57996665037411743, (-18)); (93367948601441919, (-17)); (32215804624680888, (-17)); (62625472893845702, (-17)); (8375939194384463, (-16)); (59450296556790005, (-17)); (59787631716744727, (-18)); (2957613405039401, (-16)); (43731638374200676, (-17)); (35679017960211734, (-17)); (36560421213812566, (-17)); (85267096619183613, (-17)); (95106628017092432, (-17)); (48963263995770445, (-17)); (50213265339179369, (-17)); (29395227580234684, (-17)); (2521475379049094, (-16)); (61655344444798399, (-17)); (81696967285346211, (-17)); (59276109106830188, (-17)); (1191207152848516, (-15)); (14786413820450404, (-16)); (53641649124405455, (-17)); (13398968329752279, (-16))];
  [(37995182564892527, (-17)); (44426232966446411, (-17)); (3679502674184012, (-16)); (93476301753600632, (-17)); (94240105004604446, (-18)); (74791115312697809, (-17)); (69870901403540719, (-17)); (21162653265850817, (-17)); (35418437572610573, (-17)); (16712178523013321, (-17)); (12696749428028165, (-17)); (47102860777597233, (-17)); (1059289259813061, (-16)); (28801118294622385, (-17)); (57457858510915549, (-17)); (3985206780290943, (-16)); (56456938727170969, (-17)); (35686192769561098, (-17)); (74040140266976118, (-17)); (5457207236068552, (-16)); (8899069959225632, (-17)); (41793064649215855, (-17)); (92443617037492976, (-17)); (22595447687114212, (-17)); (67005743257468764, (-17)); (11230113056363658, (-16)); (41965118640781396, (-17)); (77865674005155716, (-17))];
  [(82586295898356443, (-17)); (41099443636827271, (-19)); (61995495844954507, (-17)); (22688999441492275, (-17)); (64331068127359337, (-18)); (33573783392540224, (-17)); (21321549046488264, (-17)); (11769411513174588, (-17)); (11308687304219822, (-17)); (37814552782107391, (-17)); (2738468629863452, (-16)); (77471869214164157, (-18)); (30552081051813773, (-17)); (33709889194620657, (-17)); (98666072589294018, (-17)); (6784072065454072, (-17)); (11783993848113428, (-17)); (10494747040721475, (-17)); (18217695991406346, (-17)); (29097721208852656, (-17)); (48022274646437962, (-18)); (232713551668222, (-15)); (20863976254053387, (-17)); (74769916366078285, (-18)); (32570138956826461, (-17)); (12928825773924346, (-17)); (30805215728186602, (-18)); (11182719094123586, (-17))];
  [(31976294566097452, (-17)); (28614372156349988, (-18)); (98987030397973497, (-17)); (18902505233133404, (-17)); (96517959730075298, (-17)); (67499627307610233, (-17)); (26029059785637798, (-17)); (32659277121586305, (-17)); (19986816346827607, (-17)); (1444059525687722, (-16)); (55029284683649082, (-17)); (63000989536409246, (-17)); (46031784134086284, (-17)); (4296613843051138, (-16)); (85059996134548732, (-17)); (39950513093370166, (-18)); (1493208964225915, (-16)); (78112069764677972, (-17)); (60504557513411639, (-17)); (39777500487093737, (-17)); (84150051677180704, (-17)); (10155896478593602, (-16)); (2780165112124946, (-16)); (8938254102531884, (-16)); (91761273680135269, (-17)); (31897076724968576, (-17)); (96542966985195844, (-17)); (69220097967646677, (-17))];
  [(67579452833634601, (-17)); (57945789475198484, (-17)); (758033301521567, (-15)); (54674164411220239, (-17)); (90432956870454595, (-17)); (40975869072252935, (-17)); (39571273901778892, (-17)); (12358832503743444, (-17)); (57414166997741922, (-17)); (4138855796973604, (-16)); (64868759923249697, (-18)); (60499006427534141, (-17)); (27715067271052396, (-17)); (10831519923037058, (-17)); (83199954696438549, (-17)); (6416781451103869, (-16)); (42533096613247556, (-19)); (1485084254734802, (-16)); (51091922819251789, (-18)); (30248980205166703, (-17)); (4521878790761289, (-16)); (25736680610575202, (-17)); (5351111475618564, (-16)); (67114535465946368, (-17)); (51992930762417955, (-17)); (57762364576996052, (-18)); (98470208334003745, (-18)); (43427364132570735, (-18))];
  [(74596981329988321, (-17)); (22557417321858964, (-17)); (74530271364795497, (-17)); (84730187582341154, (-17)); (40522534817480049, (-17)); (97861032603100362, (-17)); (41629874064216144, (-17)); (77242058068254293, (-17)); (96191922252406581, (-18)); (24470890184119476, (-17)); (62170565124797972, (-17)); (44555850045947865, (-17)); (59587375480123039, (-17)); (13950624310174498, (-17)); (28935559473387529, (-17)); (84175141581096824, (-17)); (46163203798937746, (-17)); (24297550503516074, (-17)); (29264997697332817, (-17)); (1111391555493628, (-15)); (80818658938579047, (-17)); (99685860306042706, (-17)); (66559724036236512, (-17)); (79236116875814477, (-17)); (43740429307987194, (-17)); (70652495906605539, (-17)); (45464749757957706, (-17)); (65822614431294246, (-17))];
  [(82628975148184125, (-17)); (72300418672214117, (-17)); (1812341574024573, (-16)); (19565308959254202, (-17)); (30064598382012819, (-17)); (11805381676118054, (-17)); (52667776829084101, (-17)); (60859327662113938, (-17)); (6589359127031138, (-16)); (44685208240161289, (-17)); (66919704233061073, (-17)); (83285507285634996, (-17)); (87272856955631284, (-17)); (21732275877831031, (-17)); (34232581194911971, (-17)); (32255983843454983, (-17)); (17761125621398255, (-17)); (33695411226606675, (-17)); (21062772318106115, (-17)); (86445162070909476, (-17)); (10200020760251136, (-16)); (74202528852142835, (-17)); (28836757661549994, (-17)); (35209955740472032, (-17)); (26878694678056947, (-17)); (19743682133159338, (-17)); (25314862455831366, (-17)); (18636339162696652, (-17))];
  [(31023341357571133, (-17)); (87328464720397325, (-17)); (96907924921245892, (-18)); (61385279814587879, (-17)); (3444281319232031, (-16)); (98396154014199988, (-18)); (93575874200685472, (-18)); (37083474464753652, (-17)); (14845640756091061, (-17)); (41155190875401659, (-17)); (95149960174483039, (-17)); (39879582012746284, (-17)); (19137592180237595, (-17)); (37737728432662687, (-17)); (83472259253675196, (-17)); (24034076559257489, (-18)); (4473973082164473, (-16)); (36373339493357493, (-17)); (42507760294480257, (-17)); (69696775236377717, (-17)); (9501882155919541, (-16)); (17087579864899752, (-17)); (5682378815734741, (-16)); (33484092512527741, (-17)); (94855763979634578, (-18)); (43634312606809234, (-17)); (56511068387470864, (-17)); (13915286915054689, (-17))];
  [(34795966508997667, (-17)); (51057089317166493, (-17)); (86657571376481901, (-17)); (69000920964099532, (-17)); (6243887421421257, (-17)); (615478510539609, (-15)); (73977701560633324, (-18)); (54030137892689145, (-17)); (76142993505989209, (-17)); (66319758035081955, (-17)); (26930148924703623, (-17)); (7778440350775212, (-16)); (15231474435883918, (-17)); (5634455624560375, (-17)); (88129879267707145, (-17)); (79355408401085137, (-17)); (23838950224291389, (-18)); (83240180022318844, (-17)); (69502486378262662, (-17)); (45583118676201834, (-17)); ((-52256506922080254), (-19)); (36420771312632017, (-17)); (38850321960843548, (-17)); (219940510311468, (-15)); (62133320427614047, (-17)); (34237991345019447, (-17)); (16534086554597238, (-17)); (51416643491015035, (-17))];
  [(32064144416219464, (-17)); (52184382934435614, (-17)); (33114527405499627, (-17)); (14803624875591914, (-17)); (99632074286465921, (-18)); (3690139573359732, (-16)); (20592602357851453, (-17)); (4026363453944487, (-16)); (64023565419356498, (-18)); (17293224806108665, (-17)); (9952373436731643, (-17)); (8751681214723831, (-16)); (60211976476437568, (-17)); (63380707050997476, (-17)); (76486269464956191, (-17)); (88269364487731916, (-17)); (39314623947281868, (-17)); (9990648086930054, (-16)); (95326107686612604, (-17)); (23730103438383934, (-17)); (30261168791719673, (-17)); (34559913614154414, (-17)); (46744662516368685, (-17)); (69847320636949028, (-17)); (53796239519632205, (-17)); (42106469140202307, (-17)); (60100214194889134, (-17)); (52048394478535465, (-17))];
  [(21468220994617304, (-17)); (88221429869669632, (-18)); (32228382216280105, (-17)); (73535366625888554, (-17)); (19415944785029349, (-17)); (5923987928616965, (-16)); (97865433337776109, (-17)); (55380405068588068, (-17)); (13754065923410375, (-17)); (50781623428807321, (-18)); (73131259912665192, (-17)); (25335904241563911, (-17)); (17264303709422901, (-17)); (59580107584750552, (-17)); (84414406155861721, (-17)); (89972209527659908, (-17)); (20512748674123416, (-17)); (38282265123034953, (-17)); (369710638463846, (-16)); (53635995979516182, (-17)); (21524620409535861, (-17)); (42687382124119483, (-17)); (16412444384287057, (-16)); (716543417743152, (-15)); (81904952462567926, (-17)); (36479445475786398, (-17)); (11308816732068173, (-17)); (29750597329635181, (-17))];
  [(24501835920815251, (-17)); (29272358248506736, (-17)); (86800287413762345, (-17)); (37922356988802652, (-17)); (18307980206509888, (-17)); (23839967782100457, (-17)); (42345829831626314, (-17)); (92124531930997244, (-17)); (51661905367766059, (-17)); (57281730130108233, (-17)); (10524347553554192, (-17)); (10748645937535017, (-17)); (58265029778178967, (-17)); (73320887946779101, (-17)); (79361045449926637, (-17)); (87844317465934907, (-18)); (10003194971061735, (-17)); (76435937687916322, (-17)); (42205417664478229, (-17)); (31001100443901841, (-17)); (5725808391802153, (-16)); (36234338676899003, (-17)); (48640017881446074, (-17)); (33024048724564281, (-17)); (4605965359835702, (-16)); (36196740963960639, (-17)); (41967987207703711, (-17)); (97471230015857988, (-18))];
  [(65343124597728097, (-17)); (65162792281982429, (-17)); (30127252621941236, (-17)); (163223114709659, (-15)); (99805931754562383, (-17)); (43646047623560058, (-19)); (97921296138250846, (-17)); (37998380023060507, (-17)); (16363040919513461, (-18)); (46429610218252426, (-17)); (96048148423129798, (-17)); (64963581242286983, (-17)); (78505601240855183, (-17)); (49211602527312048, (-18)); (95534613551674286, (-17)); (22029107501618939, (-17)); (44236933454479443, (-17)); (99428349810357741, (-17)); (99699357275601419, (-18)); (13048323456965556, (-16)); (16773664629733447, (-16)); (18835080678766947, (-17)); (10795139609660401, (-17)); (70816134734677971, (-17)); ((-10819805854285819), (-17)); (24259710341264268, (-17)); (10905075659213592, (-16)); ((-85955030660482094), (-19))];
  [(66565271845931018, (-17)); (11821863162261759, (-17)); (65571260203104709, (-17)); (27981334451294582, (-17)); (65012169356675198, (-17)); (89116729173473841, (-17)); (66497857265231719, (-18)); (46856100123362587, (-17)); (84476778882384995, (-17)); (53331234573484432, (-17)); (134533463447709, (-15)); (55700729260287185, (-17)); (21806340200388274, (-17)); (18085949447195493, (-17)); (98232110896146196, (-17)); (27887787856604807, (-17)); (41740298603445147, (-17)); (58643737204052915, (-18)); (63423512063746112, (-17)); (56471655637270773, (-18)); (43869403596771239, (-17)); (56289945765874794, (-17)); (52211381139834687, (-18)); (69976180773835472, (-17)); (84602851732103046, (-17)); (33509777577922584, (-17)); (50693416043656958, (-17)); (9860316892540153, (-16))];
  [(65921433258092443, (-17)); (7881672378119432, (-16)); (45192898460156394, (-18)); (28008141459043601, (-17)); (78020742920430808, (-17)); (34091446285698701, (-17)); (6614210687422547, (-16)); (83159857892672773, (-17)); (23995498870512044, (-17)); (17971525792022236, (-17)); (77419213503351469, (-17)); (97491237242847439, (-17)); (61169697347038188, (-17)); (54376466855891725, (-17)); (583922803141671, (-16)); (18699140660828428, (-17)); (39324812848714286, (-17)); (86086628963041456, (-17)); (8943841270510966, (-17)); (10992669473480032, (-16)); (18280555269118626, (-16)); (54751553480808923, (-17)); (51279826548623464, (-17)); (68960898947344074, (-17)); (12129858119423867, (-17)); (46969387330547913, (-17)); (97372775810531809, (-17)); (34471173161598773, (-17))];
  [(15733291419250572, (-17)); (73422691977686394, (-17)); (2339555535010811, (-16)); (48511845150897814, (-17)); (46917376117414733, (-17)); (17241280143993487, (-17)); (39793505227162018, (-17)); (33957138394141062, (-17)); (56257506206187757, (-17)); (8341618792998351, (-16)); (95710177071286795, (-17)); (32543453439078673, (-17)); (15598323056131624, (-18)); (80606540001594529, (-17)); (44942647351298493, (-17)); (41381867970179653, (-17)); (76618141728831612, (-17)); (38035760180301759, (-17)); (73505660328866085, (-17)); (5194304224195484, (-16)); (7355949172978461, (-16)); (26273387869968379, (-17)); (63361733326785097, (-17)); (71547593957098188, (-17)); (43660894988171273, (-17)); (72844125902258727, (-17)); (80681968339467081, (-17)); (60993665579385181, (-17))];
  [(2619027975008873, (-16)); (9993403957579432, (-16)); (30735681575830609, (-17)); (84021945968060185, (-17)); (55010766891502649, (-17)); (79041755358738586, (-19)); (15433793716179689, (-17)); (32727480985809032, (-17)); (89086876600161002, (-17)); (14082386355594656, (-17)); (35525049691447552, (-17)); (46189412661312723, (-17)); (97835929675770172, (-17)); (20650121589727144, (-17)); (10028243994331443, (-17)); (59575943487030436, (-18)); (59103789714186883, (-17)); (82835102432583174, (-17)); (49443293573123304, (-17)); (65228468873413092, (-17)); (8859118848478571, (-16)); (96378015195002908, (-17)); (16683457048006686, (-17)); (28031810282204533, (-17)); (11260328904740746, (-17)); (95793058021086619, (-17)); (11272335843127741, (-16)); (59173913455264648, (-17))];
  [(4033605683112429, (-16)); (28090201624461997, (-17)); (87242513621127404, (-17)); (30784319475353727, (-17)); (98091629971495076, (-17)); (5920180626417848, (-17)); (95555801211214908, (-17)); (90703624222099233, (-17)); (48627958415727968, (-17)); (92940653252049021, (-17)); (99731102546462547, (-17)); (69651802687699382, (-17)); (31534671045115692, (-17)); (48911743733108715, (-17)); (31293399277135481, (-17)); (27732633498441506, (-17)); (90752126558829538, (-17)); (63811430849616035, (-17)); (34311343764524704, (-17)); (69119316892229998, (-17)); (14895162430982682, (-16)); (25900701258605596, (-17)); (46018802453723279, (-17)); (83140689095234721, (-17)); (2056996546376087, (-16)); (68202750659910505, (-17)); (14079072997501658, (-16)); (26013965263219735, (-17))];
  [(19751213512181642, (-17)); (51851409884432598, (-17)); (26845031372894068, (-17)); (97635688641703444, (-17)); (38821608935704799, (-17)); (3748505393921584, (-16)); (28701721077668563, (-17)); (83249364439701645, (-17)); (39826193145911182, (-17)); (36801195351228155, (-17)); (57994727780637934, (-17)); (52794999704022683, (-18)); (47768662092475178, (-17)); (78062200554871863, (-17)); (62264903299521712, (-17)); (30312708769214092, (-17)); (21251096659468693, (-17)); (41721118723044848, (-19)); (88941025965408105, (-17)); (49203489696601355, (-17)); (76852114275693206, (-17)); (42708340583926324, (-17)); (10280391013240684, (-16)); (84842732670619481, (-17)); (57916186738069686, (-17)); (37258906701769262, (-17)); (87365381536126174, (-17)); (43716195363627364, (-17))];
  [(94559936987925142, (-17)); (80240709535758625, (-17)); (14149862699022731, (-17)); (36449712863808859, (-17)); (60629416731443553, (-17)); (73175846123622201, (-17)); (7244252953366711, (-16)); (33264593114752905, (-17)); (68586790094899985, (-19)); (9912738088773837, (-16)); (70186949479338145, (-17)); (21643614664022881, (-17)); (498468227787909, (-15)); (64491322370033866, (-17)); (1288046394664214, (-16)); (23269450516883516, (-17)); (82395886887427161, (-18)); (18419449144983313, (-17)); (59360137943545277, (-17)); (81056983537872496, (-17)); (75683411060073258, (-17)); (54865323071188332, (-17)); (62301469835119416, (-17)); (64424366500872599, (-17)); (4828024410821935, (-16)); (38884742867682465, (-17)); (21295437768243519, (-17)); (11290965778197846, (-17))];
  [(76331795396690283, (-17)); (86794537879833022, (-17)); (26145174662656367, (-17)); (22579015106662237, (-17)); (18867759658696348, (-17)); (21006796169008024, (-17)); (33577443903075177, (-17)); (75637934042870469, (-17)); (28827500865025102, (-17)); (59547315958667901, (-17)); (32706118994258127, (-17)); (5621542737241505, (-16)); (97742750739402073, (-17)); (99685585308067459, (-17)); (33857075352439314, (-17)); (22038895116359314, (-17)); (95693351893008138, (-17)); (61798222977812201, (-17)); (43723865511966897, (-17)); (44069704095893047, (-17)); (82306693441399392, (-17)); (40642371205343159, (-17)); (74853058414327489, (-17)); (87655143877847963, (-17)); (40599090515630232, (-17)); (72365977100808632, (-17)); (91527936843970514, (-17)); (46277574959906648, (-17))];
  [(90805560032869437, (-19)); (97255199402108228, (-17)); (63508179086734706, (-17)); (9438900727976236, (-16)); (18435314451320783, (-17)); (85750839662503331, (-17)); (87809237581735378, (-17)); (67903122507067259, (-17)); (14234431637577871, (-18)); (41698404352880347, (-17)); (62279692311843382, (-17)); (68012166196491897, (-17)); (50187976675776502, (-17)); (79393322298002289, (-17)); (60976269713321152, (-18)); (53041720645660606, (-17)); (56046129885261919, (-17)); (90003739294795604, (-17)); (46497990365618858, (-18)); (12684025522944844, (-16)); (78784221914882124, (-17)); (94337686870994986, (-17)); (82825072804054933, (-17)); (11116882073571146, (-16)); (77641167948577094, (-17)); (10331693211978465, (-16)); (36898563945462487, (-17)); (99490611675148455, (-17))];
  [(45628478458813382, (-17)); (7812034825360199, (-16)); (73501073246546111, (-17)); (22339747685622635, (-18)); (10878749929819687, (-17)); (74790871532690872, (-17)); (80492162639613529, (-17)); (29050281920468912, (-17)); (5342655675370942, (-16)); (31335805032927722, (-17)); (57529801027238181, (-17)); (36437880414829671, (-17)); (24595336039526394, (-17)); (3810823288157219, (-16)); (98544621481661587, (-17)); (47313349406683192, (-17)); (63343810530988531, (-17)); (25157424332235878, (-17)); (15334267763679854, (-17)); (40814498696514645, (-17)); (46824543991683137, (-17)); (84299012942977436, (-17)); (43121190766678907, (-17)); (29811046811955877, (-17)); (10849563141932153, (-16)); (37270650369600722, (-17)); (50198926550690059, (-17)); (79286712385296332, (-17))];
  [(39932606538204229, (-17)); (19923128666292744, (-17)); (55041441381924983, (-17)); (61468008331797197, (-17)); (29508241524559731, (-17)); (24526160168906597, (-17)); (42671720572926586, (-17)); (16990978295211667, (-17)); (53142582859125531, (-17)); (66695590902586877, (-17)); (45847322453404227, (-17)); (66534370219259276, (-17)); (94535314266844195, (-17)); (55695368046787375, (-17)); (96317502389455523, (-17)); (72757159145132355, (-17)); (15921145447969054, (-17)); (15893217187528941, (-17)); (25380160879981795, (-17)); (87855515108039794, (-17)); (38834100908305941, (-17)); (67189255740508824, (-17)); (92423830816666563, (-17)); (4170759549536403, (-16)); (56967474660861239, (-17)); (25629120536748295, (-17)); (11436877172195084, (-17)); (20439830557198593, (-17))];
  [(82072154322160329, (-17)); (85923893593486245, (-17)); (9953609305385841, (-16)); (56569909545450225, (-17)); (84132675810441804, (-17)); (40013135667352284, (-17)); (63834719212306967, (-17)); (68501383875334454, (-17)); (4864614501355492, (-16)); (61222309038066769, (-17)); (78470463305703508, (-18)); (35729038441224104, (-17)); (84024318617411686, (-17)); (46820204190775305, (-17)); (87292348674497533, (-17)); (24253978949847266, (-17)); (96503896159543567, (-17)); (2929987785294893, (-16)); (25393528972255552, (-18)); (61147210153934772, (-17)); (73827046050711609, (-17)); (40332944483101879, (-17)); (61390798004250791, (-17)); (89172749599180634, (-17)); (39354867028625273, (-17)); (97556777237606429, (-17)); (12196394025823614, (-16)); (94870452142224571, (-17))];
  [(71121597383828117, (-17)); (82150979431035542, (-17)); (95441373174827393, (-17)); (22502689798666964, (-17)); (62449926444403414, (-17)); (72392894204084124, (-17)); (45597333305055776, (-17)); (53437651226187355, (-17)); (58564520801420128, (-17)); (40180911311306533, (-17)); (98465075047088624, (-17)); (7787152238579742, (-16)); (14335818611281992, (-17)); (96071182292781965, (-17)); (30484385787449864, (-17)); (31663369739242031, (-17)); (50529985887684326, (-17)); (35382109024494601, (-17)); (28376448492600226, (-17)); (74122474994611176, (-17)); (12589555483766766, (-16)); (1455820854683032, (-15)); (83612138919649781, (-17)); (1207485803274835, (-15)); (13906416361863139, (-16)); (47947672743043435, (-17)); (74678190508229636, (-17)); (85677453970830131, (-17))];
  [(99260104710452213, (-18)); (97592378341745145, (-17)); (4664285192676787, (-17)); (58382819873774139, (-17)); (55672507722551945, (-17)); (95679367666708359, (-17)); (33483418890888728, (-17)); (14183921651279296, (-17)); (79029024488758903, (-17)); (36185127441545828, (-17)); (98130312817643317, (-17)); (82323914179556423, (-17)); (8543248777913387, (-16)); (66575172626197432, (-17)); (29973253821541146, (-17)); (1461818330379957, (-16)); (83117035147571072, (-18)); (66606287738991909, (-17)); (32622744416161165, (-17)); (10005469354084742, (-16)); (13544602925887015, (-16)); (17734192057837821, (-16)); (40147486869484372, (-17)); (81210249703071369, (-17)); (63332706789956139, (-17)); (47440649984882405, (-17)); (25520363668010498, (-17)); (87461098380066993, (-17))];
  [(7318273002399327, (-16)); (43470146382862584, (-17)); (74400780362553276, (-17)); (22747585040144502, (-17)); (70369327816820626, (-17)); (54363149396805532, (-18)); (67997279802173205, (-17)); (9371445233750173, (-16)); (43186945627909179, (-17)); (83239432902697885, (-17)); (17714656069703316, (-17)); (97311990261796377, (-17)); (7008315211052194, (-16)); (27898260101130934, (-17)); (37366475869327642, (-17)); (76754945917331929, (-17)); (32620536620988161, (-17)); (71393580494053943, (-17)); (88441633741996717, (-17)); (21593808373939644, (-17)); (9488918764499884, (-16)); ((-10132440246812641), (-17)); (56125122237093072, (-17)); (10029855177316616, (-16)); (29048364305631869, (-17)); (53986312219879284, (-17)); (12026816987622522, (-16)); (19172727039305593, (-17))];
  [(35286610212688985, (-17)); (8686060955639584, (-16)); (59356437760584291, (-17)); (59735869911071315, (-17)); (34240886422573724, (-18)); (74570446689981484, (-17)); (23097361990876708, (-17)); (20398305185186205, (-17)); (45797612243270203, (-17)); (59605028334219867, (-17)); (29350655216323251, (-17)); (15980672088894943, (-17)); (88456775250281561, (-17)); (5029641970885208, (-16)); (79764485986624478, (-17)); (18300356432503162, (-17)); (60186516346971597, (-17)); (31817113042583156, (-17)); (10986175504793949, (-17)); (43579070662444302, (-17)); (32366186546485337, (-17)); (71752178583156323, (-17)); (59411853799658276, (-17)); (42197444465428162, (-18)); (76787602670185917, (-17)); (49722326668243993, (-17)); (32048392330652004, (-17)); (68823921936753552, (-17))];
  [(31480909189789408, (-19)); (85541637808168502, (-17)); (55065410516985924, (-17)); (80905072480352647, (-17)); (44502624584271466, (-17)); (44416386617919601, (-17)); (51545525417394478, (-17)); (3992803638120197, (-16)); (90732660004642385, (-17)); (66253339987585413, (-17)); (94644208905814919, (-17)); (92670980713415629, (-17)); (54672732795469237, (-17)); (91263540660597198, (-17)); (83936845009332128, (-17)); (12737719501443445, (-17)); (53078149747424386, (-17)); (34180944983356309, (-17)); (71294125786150364, (-17)); (13445090368597692, (-16)); (95324159611073467, (-17)); (11761806627377722, (-16)); (10559000394152256, (-16)); (76905978650794671, (-17)); (77077679750449879, (-17)); (85032885331783259, (-17)); (72802101781647766, (-17)); (10262520252307463, (-16))];
  [(80037463186234525, (-17)); (12290788288156307, (-17)); (25477619413958796, (-17)); (10462277607457993, (-18)); (22344694893277361, (-17)); (46016664974968069, (-17)); (40305073916763301, (-18)); (71371364952429006, (-17)); (46729575887189279, (-17)); (22326944201826637, (-17)); (77786378768241582, (-17)); (80183554624394526, (-17)); (44629579836341515, (-17)); (40841583803082027, (-17)); (87687489557043341, (-17)); (24924159653660072, (-17)); (68315169357266259, (-17)); (11838948382376646, (-18)); (15619009275582085, (-17)); (49300003833661354, (-17)); (60314434645160353, (-17)); (7956565799617864, (-16)); (18331196379000578, (-17)); (41425349577552217, (-17)); (60358121934851472, (-17)); (53910610467357056, (-17)); (22941236518144445, (-17)); (31696850924055348, (-17))];
  [(11928573645817298, (-17)); (73061565473544743, (-17)); (81749292084946035, (-17)); (44330417862013582, (-17)); (75923726927867563, (-17)); (72299706133942088, (-17)); (99221251849492076, (-17)); (96427565051254249, (-17)); (93052294347227082, (-17)); (32807431518445274, (-17)); (38387178109407638, (-17)); (15349423932077344, (-17)); (17263948254067107, (-17)); (1653303678371788, (-16)); (56332313871886186, (-17)); (41560845646186229, (-18)); (80852962167104525, (-17)); (40669675916309411, (-17)); (91316843509109946, (-17)); (32799184817674931, (-17)); (60007470692299392, (-17)); (61177322377165855, (-17)); (29827529395859942, (-17)); (46714062667841527, (-17)); (44230900763446712, (-17)); (12678935919272152, (-16)); (18341303415665235, (-16)); (18350257665157139, (-16))];
  [(5672897327158799, (-16)); (23837994509172722, (-17)); (76658991545072286, (-17)); (48206172669237135, (-17)); (85926713135576605, (-17)); (57038856387018555, (-17)); (55268504047199529, (-17)); (13456172819998857, (-17)); (16097413445771436, (-17)); (35959630130347897, (-17)); (42440231987652233, (-17)); (70009441952748197, (-17)); (52514599100495707, (-17)); (74885352848973863, (-17)); (35783007757755092, (-17)); (47226707378164812, (-18)); (97717316665552967, (-17)); (99518876611290263, (-17)); (86814081612293692, (-17)); (76373873101327105, (-17)); (79805423234877115, (-17)); (65918018854744065, (-17)); (64080956335958172, (-17)); (65767069299602121, (-17)); (78977555264509081, (-17)); (14148469338500576, (-16)); (13472851554702319, (-16)); (12999374225462714, (-16))];
  [(47918736389572192, (-17)); (72424547064589695, (-17)); (12738949624697282, (-17)); (46096021589777891, (-17)); (75874737571238182, (-17)); (7061950716516957, (-16)); (36338121950857727, (-18)); (86153267698496772, (-17)); (67416723148404767, (-17)); (57104067625644972, (-17)); (79983976633540221, (-17)); (87700155463712981, (-17)); (34942465668471134, (-17)); (97905100600507455, (-17)); (396894370635131, (-15)); (72947569320299788, (-17)); (30802976587041231, (-18)); (5097248760177242, (-16)); (93178727118414961, (-17)); (647416872170126, (-15)); (13329678911800558, (-16)); (10872817157067802, (-16)); (71628175494718627, (-17)); (17245502034987872, (-16)); (11789151708736492, (-16)); (11961490073081464, (-17)); (96001987769363795, (-17)); (91099507186660666, (-17))];
  [(61876888328506219, (-17)); (36978867934457593, (-17)); (16856059611414342, (-18)); (43258675498416987, (-17)); (65541172453602226, (-17)); (70487172153550115, (-17)); (73938843114707686, (-17)); (52222024703289771, (-17)); (38135395228798696, (-17)); (11519190360069931, (-17)); (45693295959934621, (-17)); (45502909659547497, (-17)); (21546324886888946, (-17)); (79387295823336435, (-17)); (55205089183644651, (-17)); (39874565864970357, (-17)); (69761753815549077, (-17)); (53363895075213907, (-17)); (24366811455536541, (-18)); (62606559037211484, (-17)); (59170451413794445, (-17)); (44456768595175289, (-17)); (10202335871368911, (-16)); (89561541012073898, (-17)); (61514927918447182, (-17)); (67286867698894182, (-17)); (64629300564723058, (-17)); (45011207939678283, (-17))];
  [(42514943494411384, (-17)); (90926288261989219, (-17)); (148298296171684, (-15)); (53143328744734974, (-17)); (25489256169223051, (-17)); (47731811733747498, (-17)); (64029986404964212, (-17)); (4495802426387806, (-16)); (74688690816741876, (-17)); (74020448094150648, (-17)); (75159200517500313, (-17)); (45525351588605445, (-17)); (39881000377731379, (-17)); (12674026275072214, (-17)); (23884235926383779, (-17)); (76731018189673561, (-17)); (92367827707072858, (-18)); (77121815616155076, (-17)); (70002058577401494, (-17)); (80875967832765716, (-17)); (61956988434095406, (-17)); (73702029808882008, (-17)); (60174903040126204, (-17)); (35032144208375465, (-17)); (68805551270146847, (-17)); (59179237330990531, (-17)); (64800070390380576, (-18)); (75734090484342287, (-17))];
  [(14668553621107394, (-17)); (96646048398263018, (-17)); (46906487153102194, (-17)); (15489463680132787, (-17)); (63665960571278735, (-17)); (33182961511104392, (-17)); (71681480699508904, (-17)); (9397988519577849, (-16)); (57962652692983718, (-17)); (19373376611633508, (-17)); (47802863105287696, (-17)); (87548031345291799, (-17)); (94129326224215226, (-17)); (4041991501850325, (-16)); (41845515503194508, (-17)); (52283951093011449, (-17)); (86484823413027434, (-17)); (13812957825048855, (-17)); (96748370165039144, (-17)); (86614260886850269, (-17)); (17806298793136643, (-16)); (100218326691485, (-14)); (49680019379819634, (-17)); (11078108764012899, (-16)); (61339170014033884, (-17)); (86087911068640777, (-17)); (18960464447055987, (-16)); (10466150125769951, (-16))];
  [(32029863765973632, (-17)); (70076093141971163, (-18)); (53007198385004783, (-17)); (84294847912491555, (-17)); (70680149286603045, (-18)); (21829516273807803, (-18)); (85132036649280252, (-17)); (75622227307089862, (-17)); (61363844947451229, (-17)); (60022311585077281, (-17)); (53197396388306728, (-17)); (79745505659679039, (-17)); (82885316037650492, (-17)); (60504829303792507, (-17)); (2606978996129995, (-16)); (2303142934804987, (-16)); (57018069165909213, (-17)); (43314890735751654, (-17)); (49108086216282709, (-17)); (15099577085234017, (-16)); (6937457793636701, (-16)); (52347990782178699, (-17)); (77824928353545653, (-17)); (23819877072329704, (-17)); (34009397609613801, (-17)); (10631878865341413, (-16)); (43522057847828838, (-17)); (43590355382357188, (-17))];
  [(69076181134363301, (-17)); (80493054312873791, (-17)); (59570518327195532, (-17)); (44411149032043773, (-17)); (39563332576738552, (-17)); (27142849885091591, (-17)); (44594991543460016, (-17)); (43964677538682084, (-17)); (89778128590769501, (-17)); (1886945697590664, (-16)); (11550800832396391, (-17)); (59978415780132299, (-18)); (30436566949470167, (-17)); (75995747944879621, (-18)); (52044898334486267, (-17)); (34274462230779323, (-17)); (99432797941168849, (-17)); (87249086318139546, (-17)); (9022325423545603, (-16)); (24211934735256285, (-17)); (24796336074637276, (-17)); (35601096793987808, (-17)); (37034056848090008, (-17)); (34008327976000441, (-17)); (43664844423763993, (-17)); (14273912583886612, (-16)); (14639379854451082, (-16)); (15775676972966803, (-16))];
  [(77129276990362339, (-17)); (12077380286515604, (-17)); (54603028450107904, (-17)); (16385696256317517, (-17)); (71399272541743986, (-17)); (37837982850511098, (-18)); (43766303922626715, (-17)); (36533912119524103, (-17)); (52476572813253863, (-17)); (6614820780808095, (-17)); (35489281997667654, (-17)); (88206599119583817, (-17)); (81558396552371759, (-17)); (36221773510807231, (-17)); (10502011676957324, (-17)); (32146981334546965, (-17)); (38819416794146067, (-17)); (2323110895005277, (-16)); (65187777156165305, (-18)); (7331690978562736, (-16)); (97885157367852482, (-17)); (62370311822424807, (-17)); (43520000274551462, (-17)); (25217229022039334, (-17)); (36712619555770881, (-17)); (35763008758968762, (-17)); (25256868444697833, (-17)); (24706767367691615, (-17))];
  [(98294009610638744, (-17)); (16775792522097766, (-17)); (65901734677364221, (-17)); (74616132488299491, (-17)); (9505957304083823, (-16)); (19345221150759973, (-17)); (83999948178660633, (-18)); (80393338425290017, (-17)); (49234113057179296, (-17)); (33479307552056636, (-17)); (30313145072070602, (-17)); (45030051417253425, (-17)); (87356307324015892, (-17)); (95054884900247494, (-19)); (85661893673454825, (-17)); (57372550502120045, (-17)); (17548920222468534, (-17)); (1139820551462285, (-16)); (4259526930261649, (-16)); (60102343339684094, (-17)); (12244626482879843, (-16)); (62280531816225104, (-17)); (3863749664486596, (-16)); (11875816543883337, (-16)); (2600147419555795, (-16)); (28523700658621237, (-17)); (52110743545772753, (-17)); (32624265672970365, (-17))];
  [(297110034116982, (-15)); (85476663431131994, (-17)); (34634175436517245, (-17)); (72797167205565139, (-17)); (33637263004577256, (-18)); (30354097229175303, (-17)); (49459978032440743, (-17)); (14671712987797003, (-17)); (97549283618087201, (-17)); (26960190939803841, (-18)); (18389911122140867, (-17)); (71753814240990732, (-17)); (20806549573285649, (-19)); (52925271014378028, (-17)); (37823332227955531, (-18)); (89620256213845451, (-17)); (62992500360244119, (-17)); (97713544304198319, (-18)); (60522692597145489, (-18)); (57566705173579924, (-17)); (1651995403973176, (-16)); (27822713673914645, (-17)); (63805810243390781, (-17)); (58459162006969623, (-17)); (1072929133837218, (-15)); (29970934512044073, (-17)); (54872822713589153, (-17)); (31102088319283672, (-17))];
  [(29037807282214001, (-17)); (14085911858461542, (-17)); (57363182505790267, (-17)); (193309856674313, (-15)); (67063585206806231, (-17)); (42083401337220361, (-17)); (89373622190410229, (-18)); (61821438754698332, (-17)); (85928384538882596, (-17)); (77349068063577897, (-17)); (57909326184822618, (-17)); (18997817141872175, (-17)); (19276318149228022, (-17)); (18319336744305248, (-17)); (36064494910820588, (-17)); (63895897816248226, (-17)); (83562214771933707, (-18)); (75725180769503986, (-17)); (37903000780751528, (-17)); (2034830557560971, (-16)); (52131439582499317, (-17)); (55463514921935619, (-17)); (96623648119392169, (-18)); (63686316156453882, (-17)); (64215087773705692, (-17)); (1363306142039214, (-17)); (57072176122797114, (-17)); (30908763650167886, (-17))];
  [(53459489867419041, (-17)); (79837165145829381, (-17)); (95595377485454924, (-17)); (75857570801399865, (-17)); (97304680727403559, (-17)); (24328610432891229, (-17)); (944219895092543, (-15)); (44922325024852927, (-17)); (53454552005759137, (-17)); (13219405983637444, (-17)); (67402700912363023, (-17)); (19493886775751534, (-17)); (43130781078876801, (-18)); (11984786780399415, (-17)); (98126511095786018, (-17)); (83669507445000013, (-19)); (46153948241822951, (-17)); (37106543472957543, (-17)); (23546616669561016, (-17)); (59815607330832365, (-17)); (80676847585470868, (-17)); (70583563201997412, (-17)); (75211945965390559, (-17)); (95720307468570032, (-17)); (23488741835961477, (-17)); (765942202930464, (-15)); (84910298696559294, (-17)); (62076045186166395, (-17))];
  [(13087304651177301, (-17)); (53051363177531885, (-17)); (83101413746275177, (-17)); (15444918929977902, (-17)); (34409705330416318, (-18)); (20429289086321911, (-17)); (70350025990404108, (-17)); (98835824099066105, (-19)); (11516936832737534, (-17)); (6430242955412202, (-17)); (14353053468597798, (-17)); (54530516934653317, (-17)); (25534796383540204, (-17)); (23761775507745353, (-17)); (27490455281507853, (-17)); (71912948787155273, (-17)); (74063537723919315, (-17)); (82385771710900846, (-17)); (93683996339901443, (-17)); (27926935287452248, (-17)); (78964311611163657, (-18)); (23237461636543436, (-17)); (5793587198813378, (-16)); (1335002960792587, (-16)); (32436186569161973, (-17)); (88319938653788044, (-17)); (40320704137219948, (-17)); (85579132530436886, (-17))];
  [(44494234358999107, (-17)); (41945635005980009, (-17)); (72427987062113952, (-17)); (44784667347817142, (-17)); (61043491263793304, (-17)); (3182061036007513, (-16)); (82086203408165748, (-18)); (45078624295806413, (-17)); (22949866054248091, (-17)); (31691061330587855, (-18)); (31795152102022939, (-17)); (46438105973872812, (-17)); (43691143989788128, (-17)); (24343855308025775, (-17)); (69709339677413074, (-17)); (51339244835695919, (-17)); (86815961407915221, (-17)); (24476550165994404, (-17)); (8138638321284396, (-16)); (38309539465708825, (-17)); (61356341407765602, (-17)); (47068406779204519, (-17)); (45606499596538747, (-17)); (75425099488884639, (-17)); (50221663355648483, (-17)); (57132509289978672, (-17)); (89372811294395693, (-17)); (8962383293573768, (-16))];
  [(40655632508167616, (-18)); (48158077474200034, (-17)); (19812055426842412, (-17)); (73070984423306251, (-17)); (62565664405507149, (-18)); (72459463010723857, (-17)); (28377449811030031, (-17)); (38531748184472903, (-17)); (2808275320778103, (-16)); (61974012642765774, (-17)); (97191801699350755, (-17)); (93648231214310629, (-17)); (41707535799760831, (-18)); (37081206825336788, (-17)); (2729179568629907, (-16)); (53745637399496504, (-17)); (65354723182060959, (-17)); (82502889875663221, (-17)); (18304385170717818, (-17)); (99142012579351402, (-17)); (21815054271745102, (-17)); (10221147608649646, (-16)); (47805831462383902, (-17)); (30349354884416208, (-17)); (49636899302720372, (-17)); (82220764041526484, (-17)); (16173108438814165, (-17)); (8235557275818739, (-16))];
  [(34126111581155627, (-17)); (17405064500251288, (-17)); (33318529241981831, (-17)); (19557127923352491, (-17)); (370021586941921, (-16)); (45860827852967134, (-17)); (87720479073986657, (-17)); (88957297334617513, (-17)); (31710312214707059, (-17)); (15817212126325531, (-17)); (90810954975487312, (-17)); (89440100365851949, (-17)); (45721818623005972, (-17)); (86986067488367236, (-17)); (51602747650678837, (-17)); (89264783278463222, (-17)); (38977518831142377, (-17)); (32475560321627028, (-17)); (70423279502029068, (-17)); (85974099498136836, (-17)); (57626707143577383, (-17)); (86749629076607504, (-17)); (11748973281851092, (-16)); (95336381404877335, (-17)); (83872291947060151, (-17)); (80638148714329638, (-17)); (69869533725543098, (-17)); (50974967073004496, (-17))];
  [(6187078947269703, (-16)); (52497585494212062, (-17)); (26315367717792792, (-17)); (22091281803964991, (-17)); (29966103834472901, (-17)); (4860236772839901, (-16)); (93576315466953197, (-17)); (49473420064834728, (-17)); (20201051356849853, (-17)); (85229996007453124, (-17)); (75961151312010367, (-17)); (48209658181073256, (-17)); (75576414109401324, (-17)); (88028377866379903, (-17)); (29731751854806809, (-19)); (52053741468280013, (-18)); (77449361948730466, (-17)); (61421704215737571, (-17)); (15955743629297625, (-17)); (98846890057791981, (-17)); (71232562058173721, (-17)); (62090959426237025, (-17)); (55266101331933803, (-17)); (52793912817764865, (-17)); (48543743220527569, (-17)); (39677249708554407, (-17)); (39970885508350307, (-17)); (5245881567291647, (-16))];
  [(59756524110800746, (-17)); (22831884557137361, (-18)); (44046493384481045, (-17)); (73584663763318126, (-17)); (40610263926877854, (-17)); (55443706627882339, (-17)); (7607489630773977, (-16)); (53692015721039765, (-18)); (1868222446352491, (-16)); (73936504091368016, (-17)); (20866421258786827, (-17)); (62782367812351048, (-17)); (52757657213996878, (-17)); (68709667796365526, (-17)); (32297914573061137, (-17)); (70365108711526414, (-17)); (52822451031518824, (-17)); (99809286405824738, (-17)); (57447579380373059, (-17)); (68551131847312252, (-17)); (26767660329464138, (-17)); (31529689127372867, (-17)); (12249237413987868, (-16)); (32933568346265268, (-17)); (64822861711724133, (-17)); (10729664722420107, (-16)); (46843963603896938, (-17)); (58924201896460571, (-17))];
  [(85934348876269928, (-17)); (97766099797002237, (-18)); (85810853670976972, (-17)); (42876609503987173, (-17)); (23426732431899411, (-18)); (13408528874605641, (-17)); (85123498776390694, (-18)); (88274842267528275, (-17)); (79910822489258304, (-17)); (78952210959292979, (-17)); (42773355813546332, (-17)); (20348058101909205, (-18)); (86367838328381652, (-17)); (65437720182476278, (-17)); (69852868483526198, (-17)); (2219198495882142, (-16)); (32284475374936628, (-17)); (35669384751544131, (-17)); (79979794898801082, (-17)); (45630031452905984, (-17)); (7978960720963939, (-16)); (97888295988685803, (-17)); (39879196744223783, (-17)); (21486943282870991, (-17)); (27541703699250941, (-17)); (2517913576023203, (-16)); (71474092833829583, (-17)); (68130117383785693, (-17))];
  [(45995042315870538, (-17)); (26472969012813508, (-17)); (20766065277273593, (-17)); (31857415915825305, (-17)); (64247314214693774, (-17)); (87115959017831968, (-17)); (68506187828917653, (-17)); (76103131038263994, (-17)); (18611916230890058, (-17)); (22969998733507224, (-17)); (18070111216916662, (-17)); (75011259320767731, (-17)); (72157394721505952, (-20)); (59479977921429972, (-17)); (98522385036238724, (-17)); (79861206210638724, (-17)); (2266085950595691, (-16)); (4386017297139776, (-16)); (31955287892689865, (-18)); (24866716045215687, (-17)); (49761907042846815, (-17)); (67335332757388078, (-17)); (10590815863314118, (-16)); (14050725786067941, (-16)); (11760494649433326, (-16)); (2299445397961106, (-16)); (36383384112956285, (-17)); (44803578354567003, (-17))];
  [(66905153571340537, (-17)); (5126506369375996, (-16)); (38483082019447745, (-17)); (25946235131672868, (-17)); (12301657873633209, (-17)); (31163351471570344, (-18)); (25601049147264532, (-17)); (74145387575085231, (-17)); (86164193112578835, (-17)); (10700555712512827, (-18)); (24504184812279561, (-17)); (17583158333945426, (-17)); (80715334292818608, (-17)); (90214984258856379, (-17)); (27913664350337886, (-17)); (86756859072706638, (-17)); (47920278565392271, (-18)); (52962227013025998, (-18)); (46875701396531178, (-17)); (41561655260417685, (-17)); (74506762569271245, (-17)); (79460827721142813, (-17)); (89858445674396059, (-17)); (11397160795461545, (-16)); (11025383931221231, (-16)); (16556081295087219, (-17)); (37841407058441201, (-17)); (42378911933882085, (-17))];
  [(2607242521139429, (-16)); (59692744564111133, (-17)); (27464893267369084, (-17)); (43156517883820666, (-17)); (67037955236127511, (-17)); (24573029262876089, (-17)); (33187948381902477, (-17)); (33602446759391746, (-17)); (32078149195233274, (-17)); (79538625710969901, (-17)); (60870922362157165, (-17)); (22568282004810181, (-17)); (26122218992258484, (-17)); (70696037292129443, (-17)); (28807601793157234, (-17)); (18869688989846256, (-17)); (84227401807672453, (-17)); (85385865995326249, (-17)); (91085521275910519, (-17)); (41154908136118901, (-17)); (64324404401869528, (-17)); (30219854650042233, (-17)); (44292355885843226, (-17)); (70964730282737221, (-17)); (31355966193534862, (-17)); (81457054784451888, (-17)); (10979522126067995, (-16)); (58132684479386942, (-17))];
  [(26559271634964332, (-17)); (68816007932377843, (-17)); (8236683392921903, (-16)); (17669903539262399, (-17)); (15700459482602547, (-17)); (56891200900641037, (-18)); (74213003390400545, (-17)); (396362323407632, (-15)); (48133697998693059, (-17)); (2984173200760345, (-16)); (75383854422037555, (-17)); (38799770554340196, (-17)); (31080092228636091, (-17)); (30600632897755575, (-17)); (98656358437781422, (-17)); (39524153818729324, (-17)); (80236203994640265, (-18)); (80489542244518997, (-17)); (14482059190076424, (-17)); (49641386533270959, (-17)); (63354492018295971, (-17)); (68281810338194893, (-17)); (47648200713914257, (-17)); (32050173753214983, (-17)); (25100577102057708, (-17)); (20509938199824956, (-17)); (71817147538290299, (-18)); ((-16933137680095717), (-18))];
  [(60133966941761097, (-19)); (18605781934297938, (-17)); (33887464786069144, (-17)); (9086378154921444, (-16)); (33020401253735621, (-17)); (10196630015239161, (-17)); (97316096085705517, (-17)); (53573809513952697, (-17)); (77638395199073995, (-17)); (49416229159381997, (-17)); (60968403468009136, (-17)); (33002444585239876, (-17)); (67380193300165747, (-17)); (57535067947356522, (-17)); (23124687558093726, (-17)); (18545713393370644, (-17)); (74684026019289362, (-20)); (44948442509055719, (-18)); (13323987389366132, (-17)); (11847524589187404, (-16)); (62314689067709184, (-17)); (7110858641303206, (-16)); (61580241532348423, (-17)); (33052318052480095, (-17)); (32704868716367963, (-17)); (1658172527377054, (-16)); (80720980297018338, (-18)); (10051474662151574, (-17))];
  [(5676216465337246, (-16)); (22412719595030839, (-17)); (96434593908134758, (-17)); (92060186717876469, (-17)); (5073863306079307, (-16)); (1490982511761777, (-16)); (94834689995630539, (-17)); (1027297859757742, (-16)); (71153498760206901, (-17)); (17223588879683138, (-17)); (70572886122036926, (-17)); (26963550465989439, (-17)); (59771581169852117, (-17)); (32932818263465469, (-17)); (58281169592818316, (-17)); (11575824217202402, (-17)); (87419312252208092, (-17)); (77767726260709513, (-17)); (85502820691294157, (-17)); (12911737159399812, (-16)); (40303304765844733, (-17)); (11088698704007127, (-16)); (81780937156878386, (-17)); (38219736118032938, (-17)); (39295505031281791, (-17)); (20673448269438204, (-16)); (7157593422878622, (-16)); (14469763377331057, (-16))];
  [(80014659264219257, (-17)); (57462202223664516, (-17)); (8033961116653896, (-16)); (28554923676803889, (-17)); (81171225271425806, (-17)); (65016230842219236, (-17)); (91103131050657371, (-18)); (49227660635403736, (-18)); (3384309503284223, (-16)); (54008741475107835, (-17)); (23308931982700687, (-17)); (88973720278005441, (-17)); (25336100818570073, (-17)); (84977088105843124, (-17)); (88757934883646272, (-17)); (1007284268814671, (-16)); (95061810865303831, (-17)); (3604838460587243, (-16)); (30824544432794609, (-17)); (69090311576919944, (-18)); (58115281953386155, (-17)); (45285245275146796, (-17)); (5692951602367341, (-16)); (11340926653554269, (-16)); (10319749346927984, (-16)); (75999727260346106, (-17)); (10248950351705495, (-16)); (11292403465583347, (-16))];
  [(8175287010194765, (-17)); (511130299873924, (-15)); (89886143931614138, (-17)); (22744397657877868, (-17)); (67257909194131815, (-17)); (22406188286313955, (-17)); (22745253397398968, (-18)); (91011693651503178, (-17)); (8291286145512835, (-16)); (2322448091162822, (-16)); (70324355823258611, (-17)); (50331733404592482, (-17)); (68702418319562741, (-17)); (9720346617995258, (-16)); (96426129316743847, (-17)); (1675156759123877, (-16)); (23027080645417086, (-17)); (22673244082929389, (-17)); (24761772722112041, (-17)); (21032175290940511, (-17)); (13541552870701103, (-16)); (12266636849910482, (-16)); (32731175058136863, (-17)); (13041210770261009, (-16)); (10500504682483578, (-16)); (81924593302746498, (-18)); (49727386288101855, (-17)); (42113749247163723, (-17))];
  [(24111656213369448, (-17)); (70672512032555412, (-17)); (92160965268260153, (-17)); (74996217237072071, (-17)); (92117911265253205, (-17)); (63975563749878595, (-17)); (88059183702804733, (-17)); (58530014983626844, (-17)); (76911529751514573, (-17)); (61286963730927935, (-17)); (87681057476650148, (-17)); (51465589238679721, (-17)); (30784202155427376, (-17)); (24195689115005503, (-17)); (14008131634966836, (-17)); (12447235232315446, (-17)); (84476590491310144, (-17)); (39206237767129626, (-17)); (49325200120126234, (-17)); (10666137757437544, (-16)); (13302563526303084, (-16)); (12169362698456467, (-16)); (32821654101186404, (-17)); (38954589629067538, (-17)); (36622589876353584, (-17)); (11515358593005249, (-16)); (13607314661570935, (-16)); (13244220479312045, (-16))];
  [(49300517815765621, (-17)); (11856194151850008, (-17)); (59085407676703805, (-17)); (90907746449099935, (-18)); (5066057830619719, (-17)); (41982323534455857, (-18)); (52447061199386302, (-17)); (96099891849763497, (-17)); (5338539364452034, (-16)); (50777751147801287, (-17)); (57202391814030706, (-17)); (43611102358226217, (-17)); (58784846567087712, (-18)); (47617920091406918, (-17)); (63540675440402672, (-17)); (86859015234909909, (-17)); (53625051540389235, (-17)); (94791176610793904, (-17)); (44985199080057492, (-17)); (23264499602925606, (-17)); (1240106525440538, (-16)); (22910438023282131, (-17)); (57989445566500253, (-17)); (88727528029716474, (-17)); (56003517535174674, (-17)); (33872460382090369, (-17)); (48839016254913342, (-17)); (29041479368849515, (-17))];
  [(77179763617776664, (-17)); (76397249215520968, (-17)); (72526811497216515, (-18)); (95929511178841498, (-17)); (90728174791775318, (-17)); (25718170687296493, (-17)); (5603874514539392, (-16)); (6717226652863707, (-16)); (61607871888487697, (-17)); (71916903595017734, (-17)); (63786622315906483, (-18)); (19840200761301074, (-17)); (19448286276918159, (-17)); (17139745473644608, (-18)); (9690418525361868, (-16)); (5701797139231144, (-16)); (98399805409371088, (-17)); (17720979738640663, (-17)); (3641377882897936, (-16)); (22865311959600704, (-17)); (24100356448335097, (-17)); (16301401876070931, (-17)); (54700174936514612, (-17)); (57686898238529771, (-17)); (49631742256697009, (-17)); (14350624896008422, (-16)); (14300736156604359, (-16)); (47056197148298018, (-17))];
  [(37017152847186596, (-17)); (79584758468481409, (-17)); (89814833693868668, (-17)); (26425908685059696, (-17)); (92512597974017741, (-17)); (25269632228945449, (-17)); (41564554490445293, (-17)); (80272974043712741, (-17)); (24811080071963965, (-17)); (29704645013411846, (-17)); (85922042237302265, (-17)); (24775275997210944, (-17)); (69205139102813562, (-18)); (44139477778200131, (-17)); (88131109134187757, (-18)); (37474805640291653, (-17)); (66459247090006424, (-17)); (18321253111765623, (-17)); (95687044069830807, (-17)); (43511337679319295, (-17)); (11035280385904762, (-16)); (81336585720307231, (-17)); (35886003047846443, (-17)); (81367390185874799, (-17)); (50282888091465627, (-17)); (7108073550002203, (-16)); (15732122488089186, (-16)); (85343248370203562, (-17))];
  [(24655168436922303, (-17)); (20427420861752255, (-17)); (90090315644246477, (-17)); (7516938315010705, (-16)); (26020323827063074, (-17)); (65638718857813472, (-17)); (21520961337172206, (-17)); (22255170964934634, (-17)); (43140780112571231, (-17)); (3186756253460854, (-17)); (99886764148794227, (-17)); (8835326775504474, (-16)); (98873308585755049, (-18)); (42837250029934359, (-17)); (51614208670532058, (-17)); (40965614344527901, (-17)); (99516215845204536, (-17)); (92563321225065665, (-17)); (58464891192969459, (-17)); (94821753763333583, (-17)); (45825573445816964, (-17)); (15172545826597692, (-16)); (58771324567859606, (-17)); (31305646283966398, (-17)); (89521532036511664, (-17)); (10830591560138962, (-16)); (57625377146948897, (-17)); (17498196214480646, (-16))];
  [(37529098720078713, (-17)); (30897741391086941, (-17)); (46684517407787551, (-17)); (99069326664323454, (-17)); (57004435834074174, (-17)); (50801579584439571, (-17)); (15496829051928485, (-17)); (35876873978300783, (-17)); (35801416285670662, (-17)); (1471939404585344, (-16)); (49491081973056372, (-17)); (58538208823400439, (-17)); (77067476228954979, (-17)); (86049190512508245, (-17)); (72541187068512492, (-17)); (49767824219195933, (-17)); (27791935066752482, (-17)); (70291365303222564, (-17)); (96106616102352049, (-18)); (91650964009394587, (-17)); (77269190181821279, (-17)); (79542228989509989, (-17)); (11925567607658187, (-16)); (88966281781424816, (-17)); (95452870566684545, (-17)); (80859972659154666, (-17)); (50716373904388246, (-17)); (48855891425546555, (-17))];
  [(11334216572681965, (-17)); (44883797687560778, (-17)); (8526895821046393, (-16)); (25900816580817576, (-17)); (33490333841391917, (-17)); (80245468011161569, (-17)); (56306677108325187, (-17)); (97293350099613529, (-17)); (35918566459279144, (-17)); (73243182129961992, (-17)); (23386945589318264, (-17)); (70652111825878261, (-17)); (12620369450011959, (-17)); (40853205310168861, (-17)); (63258460103076231, (-17)); (76235404860339351, (-17)); (16222438513718007, (-17)); (48961932189571933, (-17)); (35669218779753242, (-17)); (2137941408920605, (-16)); (21710012750993685, (-17)); (33781407752706993, (-17)); (60832400514821405, (-17)); (93721639055515293, (-17)); (76881219828367486, (-17)); (2997948876675493, (-16)); (41248145297416944, (-17)); (3309887338401265, (-16))];
  [(6736937961127597, (-16)); (31610081236925613, (-17)); (53424051402198158, (-17)); (65929326606909566, (-17)); (97499426642024345, (-17)); (79410101030443114, (-17)); (5597324239260808, (-16)); (1714210662030311, (-16)); (76914483713126391, (-17)); (95359980897714824, (-17)); (85380499797573239, (-17)); (32787935601967577, (-17)); (50373585662973741, (-17)); (55049253962907074, (-17)); (19463779375773871, (-17)); (68264710996778666, (-17)); (38120163956945829, (-17)); (25308594062517853, (-17)); (37781731589145773, (-18)); (10188814294742126, (-16)); (10219139335552239, (-16)); (12121937652460455, (-16)); (86004649151727208, (-17)); (71508842439033327, (-17)); (10564116049395174, (-16)); (33225783866826214, (-17)); (45688321193839238, (-17)); (39983931547787083, (-17))];
  [(95038231684566843, (-17)); (42687888771737603, (-17)); (85584044814657412, (-17)); (27069490233551685, (-17)); (28544922184024368, (-17)); (95453733963918475, (-17)); (81332768254826271, (-18)); (86718361844736169, (-17)); (57626766925628647, (-17)); (38916621057953682, (-17)); (45058011641502449, (-17)); (24036024049139981, (-17)); (62104093491975676, (-17)); (57710070875535002, (-17)); (97669453305773313, (-17)); (74024643899591436, (-17)); (157314561514595, (-15)); (5285659911162266, (-16)); (21850570680012815, (-17)); (46651901538226226, (-17)); (78986746956362153, (-17)); (10120885598843534, (-16)); (51936268835034716, (-17)); (10321227934259483, (-16)); (16379892978106274, (-16)); (11404352794253349, (-17)); (32264290241867899, (-17)); (60263433993736515, (-17))];
  [(84158231811373674, (-17)); (18983229536798873, (-18)); (43689555017720105, (-17)); (95064170531531422, (-17)); (5968511613093096, (-16)); (44612937948737741, (-17)); (3564602684686099, (-16)); (46718901946095304, (-17)); (87994927790718158, (-18)); (50998977092523656, (-18)); (39554177633296428, (-17)); (55946973546632928, (-17)); (2773341660817048, (-16)); (31041845879398, (-14)); (68100438530062091, (-18)); (5800450769583062, (-16)); (39247435754465265, (-17)); (7749041472290179, (-16)); (43732479984960759, (-17)); (95763684430885831, (-17)); (48204558072956372, (-17)); (44279638281312955, (-17)); (54444251227543472, (-17)); (32684752201560635, (-17)); (22237016426065254, (-17)); (12072326292204403, (-16)); (6848465895975071, (-16)); (54665518480421937, (-17))];
  [(36005724453328203, (-17)); (69903870351861619, (-17)); (73678202655696701, (-17)); (13659769521174714, (-17)); (56404606268271862, (-17)); (40477953741468298, (-17)); (78652021447331166, (-17)); (92119062870284796, (-17)); (30906531833254536, (-18)); (26357812920232193, (-17)); (16269389430867753, (-18)); (47468707228427742, (-17)); (12633723069272185, (-17)); (57861141626247703, (-17)); (64228506465878044, (-17)); (75122293650640881, (-17)); (74852162366985997, (-18)); (68461074561156543, (-17)); (15280725740321977, (-17)); (1236736794774717, (-16)); (30179767566138416, (-17)); (11158078804529523, (-17)); (83703536112586552, (-17)); (14003424652482588, (-16)); (62353818413783058, (-17)); (17493466713381012, (-17)); (45041286253156376, (-17)); (20199056630221598, (-17))];
  [(81756630632804916, (-17)); (32084141686297585, (-18)); (91431473796825591, (-18)); (47460405806090167, (-17)); (83557601448898577, (-17)); (36189627002359293, (-17)); (6806204000971896, (-16)); (61412967067374857, (-17)); (75998345955357804, (-17)); (99638856973345324, (-17)); (2080808212223636, (-16)); (68787097383001017, (-17)); (29447394661353954, (-17)); (35507409645482546, (-17)); (31677276915252339, (-17)); (5921574082276494, (-16)); (58288167458893936, (-17)); (40379865189913078, (-17)); (49986889668812817, (-18)); (81019929735343305, (-18)); (62420218429731522, (-17)); (37980865617652027, (-17)); (56650469542048465, (-17)); (7542104390272184, (-16)); (61351961189491955, (-17)); (35216519565418525, (-17)); (6221863886416843, (-16)); (29244000775687518, (-17))];
  [(71789798065239474, (-17)); (8341423278554202, (-16)); (16809963500890712, (-17)); (71897781750214584, (-17)); (50786054389095903, (-17)); (24660304154738577, (-17)); (74002858411806594, (-17)); (41911278832111587, (-17)); (9575443280546706, (-16)); (6906268399261305, (-16)); (36901678272022531, (-17)); (38078443359678449, (-17)); (88431060455108124, (-17)); (44027071857892097, (-17)); (10961115645929798, (-17)); (61642108959786979, (-17)); (51747420372698705, (-17)); (94838220587491351, (-17)); (52013885036317931, (-17)); (10645364385416478, (-16)); (67402031888819303, (-17)); (98416176085017804, (-17)); (91207794014105237, (-17)); (66854484196102759, (-17)); (72556189463766729, (-17)); (10001913911686628, (-16)); (58548007679432668, (-17)); (72512593355313504, (-17))];
  [(51358329669132341, (-17)); (36060620774902696, (-17)); (20630892419193225, (-17)); (56241877226557313, (-17)); (22260363678743933, (-17)); (56720589048252867, (-17)); (12695480961267791, (-17)); (84886947551514003, (-17)); (26431451060331734, (-17)); (28810933796704075, (-18)); (95165992446055392, (-18)); (38541014093648984, (-17)); (69221400299921876, (-17)); (10310308342584518, (-17)); (33312184935343381, (-17)); (19571971237783869, (-17)); (28151890312941485, (-17)); (29169001206876244, (-17)); (88700152358379836, (-17)); (34924700308632806, (-17)); (70426726558914254, (-17)); (42036824904135894, (-17)); (26179580473059005, (-17)); (27462872635211466, (-17)); (26156894209456139, (-17)); (42136193066398991, (-17)); (91810334578849206, (-17)); (46074908117203378, (-17))];
  [(8946749364144001, (-16)); (28483299677671481, (-17)); (67567980309452869, (-17)); (22416892481557571, (-17)); (66618290989756734, (-17)); (62167272183344024, (-17)); (31475746053967502, (-17)); (32740740505841048, (-17)); (21115014677621224, (-17)); (58244793832793906, (-17)); (51231467826850297, (-17)); (7001777857573358, (-16)); (9024803113450296, (-16)); (2438940103574514, (-16)); (46345706769137418, (-17)); (32858261441858416, (-17)); (23877584521968398, (-17)); (72902175678444747, (-17)); (54811857563692168, (-17)); (51651359441809674, (-17)); (88491459159921226, (-17)); (75811273698063131, (-17)); (17440566560482895, (-17)); (44019651973471574, (-17)); (35876546874791132, (-17)); (15807343873834168, (-17)); (61511779137180356, (-17)); (43965286893000211, (-17))];
  [(551191165375572, (-15)); (47082564150712913, (-17)); (14295502178350228, (-17)); (77589724740283894, (-17)); (10349754004404355, (-17)); (83833504688835214, (-18)); (65625311962936417, (-18)); (77215997777820111, (-17)); (90563347069091105, (-17)); (16551636948274162, (-17)); (72415149824009617, (-17)); (25133680249470935, (-17)); (62013454047313621, (-18)); (97301677434323164, (-17)); (33646257260661183, (-17)); (73027115594306258, (-17)); (25351806056393356, (-17)); (67973341624963579, (-17)); (47319424829064816, (-18)); (65985595946477615, (-17)); (40268235972905458, (-17)); (18313277019858781, (-17)); (92823818900388333, (-17)); (10405851313188255, (-16)); (83189095758635145, (-17)); (63180718579304929, (-17)); (17525241540165259, (-17)); (1222977104139565, (-16))];
  [(48753509854706101, (-17)); (48891163194821008, (-18)); (61359561680104591, (-18)); (51561119554100876, (-17)); (46359996271241322, (-19)); (9817530906552393, (-16)); (48177220072673821, (-17)); (67465143976371111, (-17)); (36966905948227702, (-17)); (97720474380810973, (-17)); (39123101095201285, (-17)); (41294486787828799, (-17)); (66905072970880819, (-17)); (2111924880895899, (-17)); (21158141628129534, (-17)); (55704678823860532, (-17)); (90261259341623445, (-17)); (2867290010565724, (-16)); (89057562732526163, (-17)); (54844265129793324, (-17)); (44791356994974513, (-17)); (7849021105041244, (-16)); (25866845430877877, (-17)); (36844486888909089, (-17)); (32926005247116941, (-17)); (10277968818166459, (-16)); (61810351007798481, (-17)); (12376224936914479, (-16))];
  [(99872061890509678, (-18)); (69417586655574348, (-17)); (12670549391056452, (-17)); (31456503212987286, (-17)); (612283595593482, (-15)); (57918190191329122, (-17)); (43280892595130027, (-17)); (27158420968788888, (-17)); (97694258721146676, (-17)); (8225584963943029, (-16)); (2135526514478433, (-16)); (76907530716660732, (-17)); (41870501416448014, (-17)); (30162990714771765, (-17)); (83446896153348848, (-17)); (14550719171797488, (-17)); (46267221947975934, (-17)); (84578321705623349, (-17)); (61863895698458116, (-17)); (35326255139751606, (-17)); (23950009696436719, (-17)); (74974128035094667, (-17)); (27051883584582403, (-17)); (24039606631828836, (-17)); (54751752161024214, (-17)); (52495710593828226, (-17)); (51617089553385809, (-17)); (10953888347347349, (-16))];
  [(75562331334133692, (-17)); (42450297819495675, (-17)); (29805303036490882, (-17)); (97945425356630833, (-17)); (44969343387697869, (-18)); (21099803586942978, (-17)); (27567331351017832, (-17)); (52063437013012781, (-17)); (35248970688752101, (-17)); (40538782804077422, (-17)); (37839553296457062, (-17)); (87615047002809188, (-17)); (34771711362053825, (-17)); (16907969180295679, (-17)); (51543836521977027, (-18)); (19943474272066009, (-17)); (22311012904018224, (-17)); (88562450709445906, (-17)); (63991156754766554, (-17)); (10322741191689719, (-16)); (22488230101586695, (-17)); (32459049144710717, (-17)); (2687281595062796, (-16)); (16628951801633962, (-17)); (13461388362843185, (-17)); (95071886273643658, (-17)); (31248391104419937, (-17)); (37285571682605689, (-17))];
  [(56472701456321883, (-18)); (63822823242042459, (-17)); (14306417961387241, (-17)); (54626655714069672, (-17)); (78342518337468425, (-17)); (12521615660068819, (-18)); (71495572660467999, (-17)); (62936489884338775, (-17)); (54189653406913263, (-17)); (69488317400983113, (-17)); (18641774020908963, (-17)); (18914946107233366, (-17)); (70238881793650898, (-18)); (38142814341448006, (-17)); (23070885889957571, (-17)); (39027834095531788, (-18)); (40283089044256626, (-17)); (83016912629260142, (-17)); (6538517770253035, (-16)); (19603607124228187, (-17)); (26563500117312749, (-17)); (44535124714622801, (-18)); (26632566529671031, (-17)); (4474416751952956, (-16)); (47208234800917265, (-18)); (94417131920056663, (-17)); (97138454324353884, (-17)); (33375592765204909, (-17))];
  [(35078518416050264, (-17)); (35302640573739852, (-17)); (28459620966266885, (-17)); (2194764042246069, (-16)); (34877407307633645, (-17)); (68251774869317428, (-17)); (98062215197249658, (-17)); (54242437997355919, (-17)); (30028943971503963, (-17)); (52416014031505598, (-17)); (92385789909636118, (-17)); (41062213050187779, (-17)); (11557954702964035, (-17)); (74746394250375148, (-17)); (3122029429436286, (-16)); (23164623894248848, (-17)); (44689728944945728, (-17)); (21621815366488217, (-19)); (3321570550971038, (-16)); (50132010438600083, (-17)); (55775432478249098, (-17)); (76205900773319679, (-17)); (54077065105396682, (-17)); (52368116948648136, (-17)); (64906075253572115, (-17)); (51055959010181295, (-17)); (39503531714694345, (-17)); (36347877525086125, (-17))];
  [(49307838565881446, (-17)); (16596268425021077, (-17)); (99801511164477208, (-17)); (79822984279766906, (-17)); (88473887001693097, (-17)); (23619600587741485, (-17)); (87401084466270196, (-17)); (64575013960616912, (-17)); (32318895225616373, (-17)); (25618460239311114, (-17)); (49686180171098715, (-18)); (16211160391909174, (-17)); (36787105401376696, (-17)); (18600167801187562, (-17)); (406724823826633, (-15)); (23991736232606298, (-17)); (15427451565179706, (-17)); (72896502381795469, (-17)); (11437588857494241, (-18)); (46019726290674717, (-17)); (3885968072290984, (-16)); (16587908868607451, (-17)); (59927943957799967, (-17)); (55748446208934244, (-17)); (25832046576730905, (-17)); (58660064473838769, (-17)); (65997973594337711, (-17)); (14408564802656973, (-17))];
  [(79906017997653189, (-17)); (45314048129135553, (-17)); (18998560680731202, (-17)); (29162301174182137, (-17)); (92309722882528022, (-17)); (14058901136367774, (-17)); (38233422962160035, (-17)); (57516803402734606, (-17)); (11002540303808739, (-17)); (76523026986605591, (-17)); (58777169512533223, (-17)); (52305097266034584, (-17)); (61310752361286702, (-17)); (39648694340575852, (-17)); (73647707412606989, (-17)); (62201793084294499, (-17)); (15393399684201903, (-17)); (65679733130870332, (-17)); (80445047622409049, (-17)); (51237586553191472, (-17)); (1104617214634193, (-15)); (18943591077704763, (-17)); (29365913650976816, (-17)); (10000113729117572, (-16)); (13913043605959202, (-17)); (20197328399482256, (-17)); (84253786955828547, (-17)); (10475313492189606, (-17))];
  [(67666511751566005, (-17)); (65707075104538359, (-17)); (91215699143502305, (-17)); (21214140698351247, (-17)); (66947596184995484, (-17)); (10911134108089171, (-17)); (71857988628115954, (-17)); (26575451038716003, (-17)); (57017293269852887, (-17)); (79164262818025188, (-17)); (81353879742392643, (-17)); (80772210604144856, (-18)); (85569649837640815, (-17)); (58093548086160252, (-17)); (61165778140211569, (-17)); (42713140660595239, (-17)); (77265737800838041, (-17)); (71420964476961724, (-17)); (69210032412805467, (-17)); (10976539064839756, (-16)); (99077795300847071, (-17)); (10262635032277962, (-16)); (46752988716522703, (-17)); (66023924399958522, (-17)); (31091619996961761, (-17)); (74394242594611715, (-17)); (91079888213835458, (-17)); (54106868781953321, (-17))];
  [(67030750077875134, (-17)); (38261681179448159, (-17)); (99772949502529518, (-17)); (17654812072622672, (-17)); (31326180628588229, (-17)); (80088979014031692, (-17)); (41559300422657475, (-17)); (36300983846123636, (-17)); (65151796600021172, (-17)); (16772454443782836, (-18)); (94531111583266692, (-17)); (31930344770687702, (-17)); (47234888214476434, (-17)); (75897668906410021, (-17)); (91834637498107052, (-17)); (80681580660223473, (-17)); (47104498603841172, (-17)); (92155893620773466, (-17)); (27486272139336188, (-17)); (88543879874085007, (-17)); (63603743153394166, (-17)); (15138213773357612, (-16)); (99801586133999187, (-17)); (86897531561326324, (-17)); (20130202367944365, (-16)); (58364265503352697, (-17)); (56519194217022051, (-17)); (1377856914014931, (-15))];
  [(63270548046874941, (-17)); (71551013322652424, (-17)); (63966772386255999, (-17)); (29378577756549884, (-17)); (63855978997195217, (-17)); (55116988476505546, (-17)); (97588557617394878, (-17)); (5675991742288764, (-16)); (4336717453165404, (-16)); (33166705994913848, (-17)); (78440485617594879, (-17)); (24010050312200693, (-17)); (37404346859887538, (-17)); (62522766713834366, (-17)); (94897302128928696, (-17)); (41549274480631082, (-17)); (63085452988952073, (-17)); (77817918409333076, (-17)); (61076122615825845, (-17)); (92653917803637809, (-17)); (99509137228117728, (-17)); (85251746173029164, (-17)); (90740207559801567, (-17)); (11406667293392996, (-16)); (96741958627354829, (-17)); (10896111436344809, (-16)); (11931515767195111, (-16)); (1003083347673549, (-15))];
  [(62145930380560543, (-17)); (21441940150026551, (-17)); (20414411126449827, (-17)); (13193180312137232, (-18)); (92864643246391776, (-17)); (63674149455832829, (-18)); (66145525347696987, (-17)); (49957449888424854, (-17)); (9753563589731119, (-16)); (811938687286617, (-15)); (775127982228215, (-15)); (20115299527346264, (-17)); (14423644060913177, (-17)); (96751922951962921, (-17)); (23611210235573921, (-17)); (44378067073465477, (-17)); (69523470754310757, (-18)); (63197438187269128, (-17)); (93734159514820559, (-17)); (34540524853982019, (-17)); (80597597111861496, (-17)); (26439395849766456, (-17)); (61220558712998763, (-17)); (11305478451601916, (-16)); (58882382234266295, (-17)); (37115637947150792, (-17)); (83087882832852267, (-17)); (86129407896953902, (-17))];
  [(31192570371227135, (-17)); (82556705429879118, (-17)); (31310642205526906, (-17)); (95872937911023848, (-17)); (95591566491260893, (-17)); (17328760327923709, (-17)); (82673780039218991, (-17)); (24785579309612771, (-17)); (325492746638536, (-16)); (74379878204128613, (-18)); (76011171315367021, (-17)); (23612067283106164, (-18)); (77705859633913321, (-17)); (95265361212343236, (-17)); (42901954917362373, (-18)); (68840230672318803, (-17)); (82151693650030611, (-18)); (28035639189067041, (-17)); (64825050652212624, (-17)); (9550479473612723, (-16)); (89344158169321597, (-17)); (27594962410751461, (-17)); (97335820801265327, (-17)); (10608667441816415, (-16)); (33854738354264746, (-17)); (82888461240035183, (-17)); (48419903138535925, (-17)); (89733884716045931, (-18))];
  [(80747083791203977, (-17)); (55353503311309371, (-17)); (62134057433098777, (-17)); (63347478638548216, (-17)); (86214721332669086, (-17)); (89315133064953423, (-17)); (50114905655568831, (-17)); (65482065814534063, (-17)); (16408893105430322, (-17)); (26103600603938382, (-17)); (45361040225553839, (-17)); (47452877297122698, (-17)); (91769700776488672, (-17)); (66795620501902975, (-17)); (43020941755219544, (-17)); (26795986532996974, (-17)); (4465415409719613, (-16)); (33652577169695996, (-17)); (51188780842965309, (-17)); (10794616838047384, (-16)); (12719046783429282, (-16)); (86081657019659197, (-17)); (93821594298769195, (-17)); (97818069460285573, (-17)); (9011438240973122, (-16)); (81371963048905449, (-17)); (90558572631403522, (-17)); (69140268576465103, (-17))];
  [(81273710657723519, (-17)); (26104138192394366, (-17)); (64717755486365014, (-17)); (77537609685278741, (-17)); (31641458526028243, (-17)); (63757449822086931, (-17)); (54848186470889548, (-17)); (34765240202656589, (-19)); (28331877065858535, (-17)); (46255752271613926, (-17)); (38727248163315608, (-17)); (10108333443927375, (-17)); (51480122989530774, (-17)); (45919917406116217, (-17)); (6930491389202551, (-16)); (41029389651219117, (-17)); (32137810470731221, (-17)); (92169935215548282, (-18)); (45761047097029273, (-17)); (73151215386385271, (-17)); (16379003661495017, (-17)); (5088149442297768, (-16)); (94746430205782306, (-17)); (28905248292918706, (-17)); (70813113827511809, (-17)); (62646518342415081, (-17)); (13740794675382367, (-17)); (43318856084786023, (-17))];
  [(84207958972663177, (-17)); (82053057555463804, (-17)); (84544445144638225, (-17)); (837873048717244, (-15)); (16524175612284675, (-17)); (58134122535019928, (-17)); (46279334131874572, (-18)); (3167341633993549, (-16)); (93075042100064154, (-17)); (22240033909455159, (-17)); (45381196162495963, (-17)); (2682745952929575, (-16)); (82860426886473881, (-17)); (4286696706947557, (-16)); (48343254493974297, (-17)); (66930648430750539, (-17)); (99303021505535627, (-17)); (86428970497616586, (-17)); (83821800767433785, (-17)); (66436541764605217, (-17)); (63686764858147749, (-17)); (13057279473877048, (-16)); (76756814059454403, (-17)); (56111123820920372, (-17)); (12153813651917695, (-16)); (15837276412331747, (-16)); (10793046332337102, (-16)); (20552785651887402, (-16))];
  [(95775811574390668, (-17)); (68595982955417978, (-17)); (64830414041927731, (-17)); (24959374712443561, (-17)); (8932711833230732, (-16)); (89024780336594178, (-17)); (24926046390384526, (-17)); (92793477557215609, (-17)); (56404662490864921, (-17)); (48113792493761887, (-17)); (23620039161895279, (-17)); (27783750487617809, (-17)); (29334880622282955, (-17)); (35663301099932543, (-18)); (50337337757839684, (-17)); (76544606899021084, (-17)); (69949916442010363, (-17)); (45742639553315012, (-17)); (99483285637681729, (-17)); (23926810408389426, (-17)); (64528886456995638, (-17)); (53442483635423932, (-17)); (11345396368447661, (-17)); (98551511441660888, (-17)); (71316098193220945, (-17)); (82112123144687099, (-17)); (18546670463746204, (-16)); (14750761579152873, (-16))];
  [(26288448221776839, (-17)); (44204437668961261, (-17)); (1902385036831592, (-16)); (63196693991806385, (-17)); (17456284361807672, (-17)); (37314029537531002, (-17)); (31638439317737777, (-17)); (65374680760438542, (-17)); (53563193509012841, (-18)); (94920896097314789, (-17)); (19198057171057703, (-17)); (26886961144490318, (-17)); (47661625690375753, (-17)); (20671395423179739, (-17)); (72580471768663013, (-17)); (40878255999742363, (-17)); (27268940582334122, (-17)); (57002577645019037, (-18)); (5326809392039743, (-16)); (32030125793510644, (-17)); (31895885526300061, (-17)); (12187386236185999, (-17)); (37916866583375675, (-17)); (16273960650851144, (-17)); (15296166908239375, (-17)); (35916895695004319, (-17)); (4424402742069713, (-16)); (14503049689031872, (-17))];
  [(32311080896702271, (-17)); (66170628139070731, (-17)); (93795219539416297, (-17)); (129183648749297, (-16)); (81118511798723814, (-17)); (61068143035139, (-14)); (73731472178011115, (-17)); (62843130354148269, (-17)); (23701551811317656, (-17)); (35317758698463164, (-17)); (37335691419438166, (-17)); (72429082626016572, (-17)); (19428258164308643, (-17)); (52351105147399268, (-17)); (4303465702042778, (-16)); (71442486232790292, (-17)); (66942557252741774, (-17)); (50118805060416116, (-17)); (92764454317468337, (-17)); (1859394033226103, (-16)); (84415221998865575, (-17)); (6335226701616723, (-16)); (64492848396465063, (-17)); (1149929987819633, (-15)); (84759964903294771, (-17)); (83996864514450487, (-17)); (14531619193762821, (-16)); (10749791335341625, (-16))];
  [(50190509661165672, (-18)); (35260408648230146, (-17)); (54437173581455245, (-17)); (16198027965899864, (-17)); (28012656929835544, (-17)); (68903411282591676, (-17)); (37671246185646801, (-17)); (67377745944270928, (-17)); (91804802662755491, (-17)); (51709414316993385, (-17)); (71402000902097451, (-17)); (62851711313584013, (-17)); (22771652615798077, (-17)); (48485323357353827, (-17)); (9543151432650514, (-16)); (99827486300533019, (-17)); (35275851905190736, (-17)); (45569925014056878, (-17)); (65722094690162769, (-17)); (24701342517285454, (-17)); (5146471740002958, (-16)); (99745202597016724, (-17)); (54673298378282964, (-17)); (95439799793573621, (-17)); (16258189605137359, (-16)); (34407810976781528, (-17)); (63132362754258187, (-17)); (10407512728788213, (-16))];
  [(61700103839869347, (-18)); (13533156623589204, (-17)); (69971898344480477, (-18)); (75605932330463677, (-17)); (86283585232468718, (-17)); (13371865264612692, (-17)); (75741982804926455, (-17)); (86906258903832778, (-17)); (34225045961146716, (-17)); (68398644414410847, (-17)); (59940296149780958, (-17)); (54873655645981778, (-17)); (81450796620010524, (-17)); (35325849415110877, (-17)); (99923070626869404, (-17)); (44696055651572664, (-17)); (92853766126680271, (-17)); (20955898413492802, (-17)); (84118474364655071, (-17)); (12321111885960416, (-16)); (14175759833582833, (-16)); (3945284436064469, (-16)); (10707803268010225, (-16)); (12008784132894292, (-16)); (2613590195713385, (-16)); (12397672943864468, (-16)); (14569117811025571, (-16)); (42916282435104769, (-17))];
  [(5050043943485869, (-16)); (26151017935520049, (-17)); (32560552442780888, (-17)); (10776189037868356, (-17)); (14192771939173143, (-17)); (78986031274577173, (-17)); (47087366581609413, (-17)); (84233201937889424, (-17)); (32650281643395074, (-17)); (24521852973509062, (-18)); (80344661577596355, (-17)); (4045850386129014, (-16)); (3810428415902497, (-16)); (48306164668888307, (-17)); (48023427641412741, (-17)); (62253555380552095, (-17)); (74148813863166363, (-17)); (71622334497962459, (-17)); (47273669249058625, (-18)); (62574404405702189, (-17)); (58861720601636636, (-17)); (71773935844214798, (-17)); (58407582408145142, (-17)); (71740900213860281, (-17)); (74522520278687066, (-17)); (46685112950128349, (-17)); (33327779892100518, (-17)); (83098359759953955, (-17))];
  [(96801736145857076, (-18)); (57974919897392663, (-17)); (60900905056852339, (-17)); (40727430007664467, (-17)); (31417927801467427, (-17)); (61322132967787413, (-17)); (9515783182254558, (-16)); (45365722208199721, (-17)); (51598216747983683, (-17)); (31225587164076996, (-17)); (95251132266737226, (-17)); (3732996511463661, (-16)); (76323298645927651, (-17)); (64068438246581394, (-17)); (11946513965622407, (-18)); (93109964757076846, (-17)); (14939342702529157, (-17)); (4723288888032563, (-16)); (22263983717194846, (-17)); (10667796610519389, (-16)); (10088204847077373, (-16)); (12732950241672318, (-16)); (10294701153682251, (-16)); (83915638766480516, (-17)); (9771774236969355, (-16)); (41333209427759088, (-17)); (25494076470419519, (-17)); (41687132194483284, (-17))];
  [(78760747009115106, (-17)); (5131869784404961, (-16)); (19047364999729732, (-17)); (30504134911337666, (-17)); (75702599748876642, (-17)); (37937592872734571, (-17)); (70293746074401853, (-17)); (5617495807556856, (-16)); (49961054934858773, (-17)); (24896849149946654, (-17)); (12139044539901467, (-17)); (85120763288768597, (-17)); (84211239333468746, (-17)); (99087913192761923, (-17)); (50002815197745987, (-17)); (23629175791233481, (-17)); (43732611367104424, (-17)); (1900196540710164, (-18)); (76524502565273822, (-17)); (78019047558206545, (-17)); (10729565343060645, (-16)); (72750527520244379, (-17)); (1047723291793621, (-15)); (1114031194076005, (-15)); (55397980022636362, (-17)); (90480455495127754, (-17)); (73011659249971039, (-17)); (50454591343235877, (-17))];
  [(32553443586255104, (-17)); (19362824846535398, (-17)); (9471546098180964, (-16)); (43400169323194371, (-17)); (2794764041623069, (-16)); (37652692499268547, (-17)); (45767617544387851, (-18)); (4962282872292928, (-16)); (98389522384233818, (-18)); (35473375544433972, (-17)); (30502408751495569, (-18)); (18934166181990353, (-17)); (63566290331863462, (-17)); (84952184643419193, (-17)); (74659426313057808, (-17)); (91471380078380482, (-17)); (95467099766967034, (-17)); (31844716201737766, (-17)); (13657641151234501, (-17)); (98651474569317332, (-18)); (36082101939354821, (-17)); (9818638994286677, (-17)); (64868783795520668, (-17)); (83607517955925081, (-17)); (97362483224316798, (-17)); (53518743594011764, (-17)); (39582879164794438, (-17)); (99389001806163468, (-17))];
  [(50105750126532089, (-17)); (5093968078021871, (-16)); (26542524129192713, (-17)); (70805530954547269, (-17)); (92170966772006357, (-17)); (12141863738734004, (-17)); (14199699318067494, (-17)); (68829728906590881, (-17)); (34065651285319887, (-17)); (85078718488363869, (-17)); (63573369071072228, (-17)); (36648778481048727, (-17)); (22491447267660247, (-17)); (432083061330368, (-15)); (39768225429889992, (-17)); (42391727432025361, (-17)); (62630549292535664, (-17)); (63220662530722516, (-17)); (69356514313462259, (-17)); (61344408824003993, (-17)); (89125944704141746, (-17)); (20212601641121408, (-17)); (46882414176180587, (-17)); (82572266417743634, (-17)); (2119578711311737, (-16)); (6958226806917629, (-16)); (12638648360407612, (-16)); (32751497334585972, (-17))];
  [(7194603107711397, (-16)); (93779386717464486, (-17)); (53013983483397553, (-17)); (97206602936510211, (-17)); (47046421611626787, (-17)); (91618748768003144, (-17)); (14573398672401239, (-17)); (19060292143228996, (-17)); (1042405290341063, (-16)); (44425556440134595, (-17)); (39629082523352965, (-17)); (52965598424130811, (-17)); (92934787359896653, (-17)); (82516337339160095, (-17)); (97068261437504699, (-17)); (56288531807377562, (-17)); (17948876173553963, (-17)); (88948346386436594, (-17)); (20678408929307501, (-18)); (85954618813421579, (-17)); (60434836608991016, (-17)); (76009697447341684, (-17)); (15146412820696433, (-16)); (99396111684521771, (-17)); (13604186251448409, (-16)); (70026693562099629, (-17)); (21156107403119609, (-17)); (69191237030873398, (-17))];
  [(14599959341070612, (-18)); (2711043883634926, (-16)); (37887497177725993, (-17)); (14315053863019644, (-17)); (59109958058603973, (-18)); (91208134532749408, (-17)); (99037992038996303, (-17)); (81500435652218417, (-17)); (6707325251700369, (-18)); (10072886242793511, (-17)); (46618413816546078, (-18)); (43435068946841882, (-17)); (50181364118985539, (-17)); (62239197008685521, (-18)); (83992947991129374, (-17)); (89122902631476997, (-17)); (77427919572317727, (-17)); (57317074623560793, (-17)); (48909227327757043, (-18)); (55955907694009577, (-17)); (4355348922695228, (-16)); (40282125497041099, (-17)); (10028491021951946, (-16)); (77001175975366398, (-17)); (76534778338905007, (-17)); (15162392548427139, (-17)); (27139269343211631, (-17)); (86150227736462426, (-17))];
  [(20325093380886949, (-18)); (77503740649396025, (-17)); (32467288691749951, (-17)); (50799143694652682, (-17)); (33632040044932254, (-18)); (29628391654903496, (-18)); (82528412566889253, (-18)); (15876953413148132, (-17)); (86498886024865773, (-17)); (47074554982588102, (-17)); (36483237115415856, (-17)); (88797787016425977, (-17)); (16979491917192502, (-18)); (95231268483704978, (-17)); (57140863464248259, (-17)); (44400128182666043, (-17)); (72475018692725213, (-18)); (27466314428925631, (-17)); (89012188721015528, (-17)); (48590235781001001, (-17)); ((-25260738642925308), (-18)); (17844895033202687, (-18)); (52673659324629984, (-17)); (55908422102745403, (-17)); (60335824262255211, (-17)); (21328973226281234, (-17)); (10417437023704876, (-17)); (75869765982052917, (-17))];
  [(33647105517905207, (-17)); (37681282245354886, (-17)); (70074272465826237, (-17)); (23677717099869655, (-18)); (17620579191703856, (-17)); (5376479821529444, (-16)); (35336795376067598, (-18)); (78083756086957412, (-17)); (67828064971358892, (-17)); (44211192687493561, (-17)); (93104542263593026, (-17)); (17639251337302253, (-17)); (88052695508336642, (-17)); (36322079970731747, (-17)); (56822208248691075, (-17)); (22792083238606176, (-17)); (66270688806711719, (-17)); (4034518271664046, (-16)); (7909213253299584, (-16)); (30207764429592115, (-17)); (10744922537744208, (-16)); (14339416470842696, (-16)); (52556043429726515, (-18)); (3279476224893495, (-16)); (57396802300782712, (-17)); (18675802546248479, (-17)); (89245953336959771, (-17)); (11837457720601572, (-16))];
  [(82193327426622664, (-18)); (72010055703600528, (-18)); (1653482247167215, (-17)); (49294778780463555, (-17)); (22915880953783385, (-18)); (83353002678776422, (-17)); (38776728917129599, (-17)); (37646555975762963, (-17)); (16315376610950605, (-17)); (3687420030474825, (-16)); (83863201364383211, (-17)); (31820322352468122, (-18)); (61208210457993784, (-17)); (59497441850016242, (-17)); (36304381063586144, (-17)); (45848833560899072, (-17)); (4461660598483036, (-16)); (12699111245845551, (-17)); (15992175718049029, (-17)); (46433817098742158, (-17)); (29353969112624279, (-17)); (3893068919978333, (-16)); (48529371491671858, (-17)); (21582096613579357, (-17)); (54283779517546227, (-17)); (23012359093964385, (-17)); (93277503307051104, (-18)); (26499803664728838, (-17))];
  [(59084457846920102, (-17)); (57722397464588981, (-17)); (46272546469898357, (-17)); (47486997373070083, (-17)); (64785388977417457, (-17)); (29317223542421422, (-17)); (84313619075755608, (-17)); (77245802129686558, (-17)); (54274130859936198, (-17)); (50109132133776524, (-17)); (83901043182266655, (-18)); (78109683486414083, (-17)); (92434048697692694, (-17)); (83688092149911686, (-17)); (1150585433900565, (-16)); (52283922409503902, (-17)); (70891625555763149, (-17)); (84774311761503773, (-17)); (25585065832292841, (-17)); (94558049537707145, (-17)); (10098360910343558, (-16)); (57476058096891935, (-17)); (10806730956666126, (-16)); (11214750963183628, (-16)); (74527523641049642, (-17)); (85725805949914879, (-17)); (10237801135947826, (-16)); (55594432102304203, (-17))];
  [(73033653046610481, (-17)); (55708581912084409, (-17)); (90235272962076174, (-17)); (54940437418517396, (-17)); (7344820271780137, (-16)); (66415334506935864, (-17)); (47343458641568081, (-18)); (89008527966306639, (-17)); (28874521869239889, (-18)); (62392802970315231, (-17)); (55662648352234534, (-17)); (3549792363970572, (-16)); (44766001888648133, (-17)); (40389814070386953, (-17)); (28076809424487481, (-17)); (98851205216059146, (-17)); (6062955234241395, (-16)); (68880589660277047, (-17)); (68524584838417746, (-17)); (53660800509625739, (-17)); (98504066703250914, (-17)); (64074958998557219, (-17)); (42123878883923788, (-17)); (13117723184636321, (-16)); (48437744371862324, (-17)); (59965151195891642, (-17)); (13306267526020632, (-16)); (70720958183106697, (-17))];
  [(86023619091184278, (-18)); (64328133230416507, (-17)); (41860527234583067, (-17)); (21801196669282563, (-17)); (97962497224383105, (-17)); (20667633200941515, (-17)); (19809428134491924, (-17)); (85092987317918956, (-17)); (70691957510745562, (-17)); (1209873042032652, (-16)); (32521409692689518, (-17)); (86682661376934378, (-17)); (860982796484004, (-15)); (57442661306366161, (-17)); (53099701640411123, (-17)); (8602089977908044, (-16)); (21386274950088846, (-17)); (95070694584411486, (-17)); (6802359393991636, (-16)); (38548191081588612, (-17)); (17544198621590386, (-16)); (88594771268779493, (-17)); (34397449570762795, (-17)); (16418598460473373, (-16)); (9432424787382907, (-16)); (35452060874710506, (-17)); (15914031039712366, (-16)); (72209663310642447, (-17))];
  [(75286650550125012, (-17)); (7929719703580228, (-16)); (87646700073490014, (-17)); (42044450557648061, (-17)); (53294927111076063, (-17)); (99431734769372471, (-17)); (91018105946943184, (-17)); (69560770859144661, (-17)); (17511633385046077, (-17)); (20582739249617754, (-17)); (26992489130890573, (-17)); (28192008441212435, (-17)); (79532902978205156, (-17)); (5067054742629139, (-16)); (6692593022560841, (-16)); (72314296454555071, (-17)); (33742395230003441, (-18)); (68240782661372157, (-17)); (34213876637720475, (-17)); (1018666931184673, (-15)); (89355104245981176, (-17)); (6496155108366628, (-16)); (12476300870309043, (-16)); (11922263505380435, (-16)); (11958666414181356, (-16)); (51503226486985765, (-17)); (51327909516006165, (-17)); (63768900319337174, (-17))];
  [(53316372452747407, (-17)); (88753384930795987, (-17)); (64367667558405384, (-17)); (9828962357015647, (-17)); (20801738773878542, (-17)); (9328163530454181, (-18)); (44200898837752589, (-17)); (29800720948498483, (-17)); (68420404336537677, (-17)); (1951794693975013, (-16)); (34542137908125647, (-17)); (14900708475378144, (-17)); (17851397620141207, (-17)); (30605517863540921, (-17)); (55352811505948507, (-18)); (99707561709489645, (-17)); (64894620965622007, (-17)); (15873503391788513, (-17)); (56187263715628488, (-17)); (26511872110415829, (-17)); (3726450167170724, (-16)); (32364506404144822, (-17)); (60624347307010962, (-17)); (57772762472338901, (-17)); (86961346237444415, (-17)); (5990405250542673, (-16)); (76371822570936254, (-17)); (77702664955687006, (-17))];
  [(46568445376538392, (-17)); (6292978029844144, (-16)); (21941824927232956, (-19)); (2895196761243346, (-16)); (16197297297264801, (-17)); (8942973366884599, (-17)); (17501209051833999, (-17)); (58773396735328354, (-17)); (43016392071596021, (-17)); (76723928203419189, (-17)); (63362148895230763, (-17)); (93871883063789829, (-17)); (25873972683359214, (-17)); (85797878306149111, (-17)); (64678834783570593, (-17)); (88225621429477319, (-18)); (56637363716917222, (-17)); (34704286564717102, (-17)); (87568096465848866, (-17)); (27720803597584692, (-17)); (20972281860367387, (-17)); (2106345327243514, (-16)); (40119105021822743, (-17)); (32984841105067492, (-17)); (13321931201447204, (-17)); (41707715399108186, (-17)); (72377185688546775, (-17)); (43455210832582597, (-17))];
  [(87858828952986012, (-17)); (48535543188539432, (-17)); (69268193249401433, (-17)); (16681276908470766, (-18)); (99218084311645993, (-17)); (39321437272300752, (-18)); (17531280503342772, (-17)); (69702779884358734, (-17)); (29731839341936173, (-17)); (49149538750091515, (-17)); (94299938810393202, (-17)); (92027469581390853, (-17)); (73745877201375931, (-18)); (20572830007328236, (-19)); (25473494690473075, (-17)); (99286384046866794, (-17)); (54400405803956964, (-17)); (41968491394601937, (-17)); (26418474876288667, (-17)); (38273535696286914, (-17)); (14906759945049761, (-16)); (34636227571088102, (-17)); (73793179605883247, (-18)); (8583729639622617, (-16)); (22204728698026138, (-17)); (30412865512176029, (-17)); (94263691602458388, (-17)); (29821000751348381, (-17))];
  [(42117142317895551, (-17)); (34933168737827336, (-17)); (99872648960500165, (-17)); (42959447001409989, (-17)); (27031083853943372, (-17)); (98433333947579915, (-17)); (5243798475931839, (-16)); (99500863975425036, (-17)); (71978066810649799, (-17)); (79668355242349231, (-17)); (16469007390282819, (-17)); (36385458961351047, (-17)); (80307550272278905, (-17)); (21395976648177606, (-17)); (59058755350536329, (-17)); (71865197700492134, (-17)); (26799668197986271, (-17)); (47105566948978783, (-17)); (79206303431755831, (-20)); (51989279722836723, (-17)); (84898950641430215, (-17)); (7994781108168969, (-16)); (50507505853938806, (-17)); (77275333645130795, (-17)); (80189397387721617, (-17)); (16125261167693777, (-17)); (89386998183627442, (-18)); (36406169267846783, (-17))];
  [(55894887578126484, (-17)); (73020186050722413, (-17)); (25769110030342979, (-17)); (39259582655684155, (-17)); (69802487433116156, (-17)); (34170698347335626, (-17)); (55967676243022346, (-17)); (66101357980841702, (-17)); (23926655962094934, (-17)); (99740510720466979, (-17)); (7873893390812684, (-16)); (37499202576218726, (-17)); (28893958761182292, (-17)); (30826973804304314, (-17)); (56997113862284265, (-17)); (55104429467629867, (-17)); (61697730308073606, (-17)); (34322127000279679, (-17)); (12652718241511229, (-17)); (56393735659633837, (-17)); (87658123058504123, (-17)); (39356566156105838, (-17)); (3573083236387633, (-16)); (53332480907889934, (-17)); (24570125129471238, (-17)); (37331508627219667, (-17)); (60925111626119555, (-17)); (28295375936199946, (-17))];
  [(40310112151790056, (-17)); (5620364957895686, (-16)); (94099347946772738, (-17)); (14013970780668683, (-17)); (41189131188993144, (-18)); (13358588551292028, (-17)); (80490416953151356, (-17)); (69792515732447202, (-17)); (95763259956320435, (-17)); (41757934049828849, (-17)); (68526718299973388, (-17)); (41885839728662788, (-17)); (44287179439406388, (-17)); (99645859066448728, (-17)); (23320408513566449, (-17)); (76495249220198025, (-17)); (13183246683235295, (-17)); (96202084383390563, (-17)); (80623009537746448, (-17)); (63309285965025008, (-17)); (59288731384017135, (-17)); (94195828400300918, (-17)); (10312541984351513, (-16)); (10180729551303935, (-16)); (15830989577398542, (-16)); (67097037554127315, (-17)); (44956173355214074, (-17)); (64295269183564974, (-17))];
  [(75937846576520962, (-17)); (36247891214624151, (-17)); (72749324455320719, (-17)); (41250106619626603, (-17)); (46328144725911413, (-17)); (50713949858920226, (-17)); (20994850175000912, (-18)); (52808566653440758, (-17)); (73861187423602925, (-18)); (52683390007923658, (-18)); (45907302931942662, (-17)); (16867535806799661, (-17)); (1087922774675425, (-16)); (32312628486571793, (-17)); (77876201742449558, (-17)); (36185853795825051, (-17)); (37662561056138766, (-17)); (28655471628323104, (-17)); (8875823286780149, (-17)); (42311972755650984, (-17)); (30964068298878022, (-17)); (4327658988716665, (-16)); (5493040037357021, (-16)); (66135981682954348, (-17)); (63466193916189251, (-17)); (40223039400530297, (-17)); (31949111550164117, (-17)); (42437012738880597, (-17))];
  [(83473352576576587, (-17)); (37763434671483687, (-17)); (31916304965967368, (-17)); (3250120061103754, (-16)); (97030216596943142, (-17)); (16782726655625069, (-17)); (46060543159522005, (-17)); (75781060266493638, (-17)); (70601360709753036, (-17)); (76902530251562906, (-17)); (95743705892574749, (-19)); (33813183901307242, (-17)); (28065096668096035, (-17)); (43493686206537874, (-17)); (32489111425619477, (-17)); (54051797274756552, (-17)); (53906244026103556, (-18)); (98890179378385368, (-17)); (51079133021814704, (-17)); (19860531349114613, (-18)); (36870063487526389, (-17)); (16718420410112569, (-17)); (49543832802871163, (-17)); (96233086794607614, (-17)); (49919684517424578, (-17)); ((-63310483708375942), (-18)); (86789078870246872, (-17)); (27904691550663219, (-17))];
  [(44945463323644941, (-17)); (38865088660296376, (-17)); (90329921231657784, (-17)); (38751817451994008, (-17)); (21644385721447668, (-19)); (12937186256677502, (-17)); (7277399415489878, (-16)); (39210025076504174, (-18)); (13751434964173825, (-17)); (69699163042250067, (-17)); (98219779087993508, (-19)); (84479068827308978, (-17)); (70132010912714127, (-17)); (5959755963768788, (-16)); (81035955310441388, (-18)); (58551406456810773, (-17)); (25676297458823527, (-17)); (23758427371110036, (-17)); (88309510123197699, (-17)); (52349637965331119, (-17)); ((-17891719936639514), (-17)); ((-3019807496964777), (-16)); (78044398538055249, (-17)); (18130944488412107, (-17)); (50385042600228591, (-17)); (79707284863615224, (-17)); (52622152959375258, (-18)); (20640999799075943, (-17))];
  [(16269535450082606, (-17)); (25735971341867481, (-17)); (46787593934337468, (-17)); (58513717364771389, (-17)); (56056764920374269, (-17)); (43674302915255525, (-17)); (63497727656617431, (-17)); (23086446376827907, (-17)); (30980190021153198, (-17)); (57893082139819507, (-17)); (24943059906018972, (-17)); (20737185287442927, (-17)); (63925337183969355, (-17)); (62513195477114758, (-17)); (66639116917064867, (-17)); (97310826412181273, (-17)); (78225942743355947, (-17)); (13437628514534128, (-17)); (15139955756402146, (-18)); (60284286288756561, (-17)); (34591857209510757, (-17)); (37805535742446972, (-17)); (11702391061494715, (-16)); (76990497409210845, (-17)); (76869982095831879, (-17)); (42043593237838889, (-17)); (45606375450839892, (-17)); (51270082616326085, (-17))];
  [(44584394680914285, (-17)); (63994877085274782, (-17)); (92995318479934452, (-17)); (63410773914479546, (-17)); (70366729072162093, (-17)); (52781410169058474, (-17)); (5127935074205956, (-16)); (56942412805993992, (-18)); (76955655420092306, (-17)); (13530392259725721, (-17)); (90875806664076797, (-17)); (44989736616440368, (-17)); (20257335245371155, (-17)); (86984089293853717, (-17)); (32921904973953053, (-17)); (28818822980128644, (-17)); (49277682500467812, (-17)); (99725463683955551, (-17)); (9183572598805303, (-16)); (83868975976605542, (-17)); (94888442786511162, (-17)); (12368271019051345, (-16)); (79350529618068066, (-17)); (85166432076435961, (-17)); (12161060623276372, (-16)); (12973830928841885, (-16)); (10207721829902878, (-16)); (1592339369959527, (-15))];
  [(58289220888309079, (-17)); (22067188571259411, (-17)); (81551992857537536, (-17)); (10983293771865887, (-17)); (82337330317035429, (-17)); (9075742354887113, (-16)); (60255330465751178, (-17)); (52753108910447966, (-17)); (85636409932202118, (-17)); (66891439258400553, (-17)); (38119490702054737, (-17)); (38538729878412081, (-17)); (5199613795220559, (-17)); (88780104338451027, (-17)); (15072416381925968, (-17)); (92257647546613242, (-17)); (62354173208936581, (-17)); (88832493972172, (-14)); (30487151856228278, (-17)); (12550515764474135, (-17)); (48425492917381258, (-17)); (58243703292252169, (-17)); (98084541817729387, (-17)); (11704252998690248, (-16)); (18888096089177067, (-16)); (26673914834932216, (-17)); (10393901733968685, (-16)); (11941679530923976, (-16))];
  [(45948367942400148, (-17)); (75961866922189625, (-17)); (2654604782264115, (-16)); (88129431229012933, (-17)); (79371735222466322, (-18)); (72173846877920167, (-18)); (68084250987819306, (-17)); (46693706760421516, (-17)); (34554899751730528, (-17)); (31447015786536214, (-17)); (64105292852913898, (-17)); (33016474071519786, (-17)); (20567925524923025, (-17)); (39782068358579814, (-17)); (42729201361780411, (-17)); (95444046691841389, (-17)); (93845837774383278, (-17)); (41135594716669355, (-17)); (86815307380141105, (-17)); (82467066308376058, (-17)); (52219844195102971, (-17)); (24276301052288815, (-17)); (1229470501785773, (-15)); (67465838969369951, (-17)); (43335570938450418, (-17)); (15432390991354441, (-16)); (10407210969133758, (-16)); (55230316656775635, (-17))];
  [(16686333721826185, (-17)); (35175644812801887, (-18)); (46041473891925366, (-18)); (28342664814811858, (-17)); (32675690596327256, (-17)); (95364233988855074, (-17)); (39100024966540403, (-17)); (27545711857391386, (-17)); (14967780956289356, (-17)); (31381304452899694, (-17)); (43538181527144604, (-17)); (89144707523157174, (-18)); (2920281331452006, (-16)); (10009089374694968, (-17)); (12480280782507092, (-17)); (20157553277763074, (-17)); (44877916819784069, (-17)); (23490660208890635, (-17)); (14267152322335785, (-17)); (24081644812858433, (-17)); (16566143901133917, (-17)); (27053697588536907, (-17)); (13067547286071554, (-17)); (10640345817968599, (-17)); (17545028247708244, (-17)); (21750369702144837, (-17)); (17003963774260769, (-17)); (38285676838529731, (-17))];
  [(29930021454432143, (-17)); (74135857680207584, (-17)); (42808887749329583, (-17)); (76227397333217628, (-17)); (17163446809372396, (-17)); (21546065843539686, (-17)); (4976424943416129, (-16)); (69811732550501848, (-17)); (80750953846909701, (-17)); (52531340234516022, (-17)); (78749160885718927, (-18)); (73097026924145647, (-17)); (9701165709240257, (-16)); (23668905499726356, (-17)); (98370108959364833, (-17)); (65349687266913259, (-18)); (29864903699008727, (-17)); (47682725720214458, (-17)); (98641146686592629, (-18)); (90562234031128019, (-17)); (5713266355558192, (-16)); (80038862112539488, (-17)); (68538603282453825, (-17)); ((-18416826536436989), (-19)); (13819728665110201, (-17)); (48348137807150821, (-17)); (17965215238695381, (-17)); (20905277174934767, (-17))];
  [(89344571169586684, (-17)); (54890681422469212, (-17)); (32904104535396606, (-18)); (8878044215755051, (-16)); (50519815557910153, (-17)); (37054354995834704, (-17)); (10712580259749549, (-17)); (53611231910891655, (-17)); (56121963367964878, (-17)); (13540975910515873, (-17)); (81397052897776179, (-17)); (8918123788766481, (-16)); (54366136952288491, (-17)); (4624202985874013, (-16)); (37423155782746043, (-17)); (71568851253285437, (-17)); (42005727657197289, (-17)); (30090430828280912, (-17)); (73374140137470123, (-18)); (155332036080934, (-14)); (11700144189057564, (-16)); (69583668512950847, (-17)); (82552178019939604, (-17)); (82632833878848388, (-17)); (57560330156211204, (-17)); (65847332452036211, (-17)); (42477393678723208, (-17)); (18502711884750994, (-17))];
  [(48308478069841732, (-19)); (21102331842579503, (-17)); (39366514730088986, (-17)); (94957792058683821, (-17)); (60576356014844024, (-17)); (32966677027503888, (-18)); (50078973931329263, (-17)); (11826285692253202, (-17)); (74364687589382061, (-17)); (42029678413092575, (-18)); (16280401009957246, (-17)); (86095770223580026, (-17)); (19893128781175995, (-17)); (24448839853812465, (-17)); (83528708075348646, (-17)); (25677271319391937, (-17)); (61913367838531519, (-17)); (29251712113289563, (-17)); (19544668545189547, (-17)); (92355388285206075, (-17)); (57543749307165826, (-17)); (22631077159257212, (-17)); (93182411522644015, (-17)); (58627016724819381, (-17)); (30114449632376095, (-17)); (40303174940441278, (-17)); (34385496480319583, (-17)); (39451337953015447, (-17))];
  [(50675936756890305, (-17)); (81556199025510523, (-17)); (85538562032197418, (-17)); (67237392252632, (-14)); (66884755282590558, (-17)); (5420611786946028, (-16)); (87758921575370152, (-17)); (85617272665208688, (-18)); (45518783976916477, (-17)); (91011881876681922, (-17)); (80491756378190193, (-17)); (57628317239621984, (-17)); (62402054001943108, (-17)); (86236622603256929, (-18)); (51316891110121265, (-17)); (95583349522344896, (-17)); (735938122144006, (-15)); (8333009401932705, (-16)); (89093281697769444, (-17)); (12324562895625397, (-16)); (74677974833070426, (-17)); (85353456441057451, (-17)); (91783214940568125, (-17)); (50707298174379717, (-18)); (34136781044881626, (-17)); (1411831390807964, (-15)); (63866534882216386, (-17)); (82120444620087907, (-17))];
  [(98236708851310972, (-17)); (13008774339545415, (-17)); (93784532460944736, (-17)); (94151044182598842, (-17)); (6069820841554191, (-16)); (56174906320887141, (-17)); (26803669256235485, (-17)); (9249700288238949, (-16)); (18314108983783195, (-17)); (10562108378400881, (-17)); (28508943897527528, (-17)); (97177102416228311, (-17)); (17131115449284373, (-17)); (33398601091176805, (-17)); (96092759182501586, (-17)); (81229487404376843, (-17)); (32566614075239253, (-17)); (61828417241580624, (-17)); (42252535349380782, (-17)); (11619086076047092, (-16)); (78681401597035705, (-17)); (76090583405102763, (-17)); (13773065656039634, (-16)); (13827627033688856, (-16)); (92180869936841936, (-17)); (97856217294700376, (-17)); (81850866462545913, (-17)); (68464480715383369, (-17))];
  [(40249952912643627, (-17)); (18817272665622298, (-17)); (94535866876886865, (-18)); (34234783551790338, (-17)); (44756386270781845, (-17)); (7238833208782034, (-16)); (48321704890648098, (-17)); (72425172249327296, (-17)); (29819015392084569, (-17)); (77097595592227974, (-17)); (16624368962247904, (-17)); (98382096458971002, (-20)); (54389260197129929, (-17)); (67969801747884728, (-17)); (56586230051659625, (-17)); (9917713253829008, (-17)); (53978845342585569, (-18)); (22435959427017371, (-19)); (29671082625319212, (-17)); (3504350064318138, (-16)); (46838657798330957, (-17)); (25775930655486212, (-17)); (38652407091569801, (-17)); (48299324767576768, (-17)); (67503256824463986, (-17)); (1717574432623229, (-16)); (23943934340389383, (-17)); (12038170947403366, (-17))];
  [(39885221261151271, (-17)); (23214949231690096, (-18)); (89571115342972008, (-17)); (31767240122435458, (-17)); (73906027194625179, (-17)); (67334036950313625, (-17)); (79449207906052466, (-17)); (132938260169851, (-15)); (15826458254067044, (-17)); (47773412624532274, (-17)); (91695308380557394, (-17)); (72104925254481289, (-17)); (71222801357360255, (-17)); (37233528192021859, (-18)); (3696351817809741, (-16)); (51442882004868051, (-17)); (12740497077298274, (-17)); (17332817309684379, (-17)); (94883550871755462, (-17)); (10957533545364324, (-16)); (89070224532164388, (-17)); (12601710136996787, (-16)); (46382834252550603, (-17)); (32045825606183587, (-17)); (19136047766480407, (-17)); (83468886733585035, (-17)); (28396259004975677, (-17)); (32321252118082799, (-17))];
  [(36223838104971073, (-17)); (94899224327366771, (-17)); (18818233043802512, (-17)); (87139684775852022, (-17)); (92696162282294936, (-18)); (69179652676934811, (-17)); (25373726167864374, (-18)); (39643378957783226, (-17)); (4244613137375205, (-16)); (80063577796880026, (-17)); (77432246111871361, (-17)); (71490885943011029, (-17)); (94550533352898425, (-18)); (43774549949348429, (-17)); (47094177404076287, (-17)); (79183079999930461, (-18)); (77285843983829916, (-17)); (181970834768857, (-15)); (71187791191762817, (-17)); (92987525854827191, (-17)); (15978167381018582, (-17)); (77387009483159208, (-17)); (54949050518287179, (-17)); (59347273011155707, (-18)); (47155819687510048, (-17)); (75948661551433205, (-17)); (73208037618586175, (-17)); (85027369710479128, (-17))];
  [(762012476758545, (-15)); (23308754395357667, (-17)); (77419244791982189, (-17)); (61797509020242247, (-17)); (36644960482982869, (-17)); (76044992575938297, (-17)); (76478113215408539, (-18)); (37042723068440675, (-17)); (80974080823047989, (-17)); (71688366460253605, (-17)); (64002446862924955, (-17)); (40773000320822572, (-17)); (12961515525473233, (-17)); (18367165974508837, (-17)); (69351192532666472, (-17)); (77408236470169034, (-17)); (16631739446572302, (-17)); (93264532142682433, (-17)); (17111294001638944, (-17)); (62325334010485767, (-17)); (36476715234992918, (-17)); (82461516108003319, (-17)); (21514816364185974, (-17)); (44861134115508705, (-17)); (87057124184578782, (-17)); (14369518944681817, (-17)); (24746528904989668, (-17)); (37896993876549578, (-17))];
  [(15338505024780291, (-18)); (22322812239896517, (-18)); (78585004301248673, (-17)); (59038171580044829, (-17)); (87166348377497005, (-17)); (10839020849427494, (-17)); (93458138665586787, (-17)); (4576646881715507, (-16)); (86685251265548124, (-17)); (61306938450146342, (-18)); (2546903272250034, (-16)); (76903818760135922, (-17)); (29935967304241884, (-17)); (59473239797152022, (-19)); (10465820869834475, (-17)); (8664086353732523, (-16)); (77152610924594223, (-17)); (50333995989125202, (-17)); (44202131600712091, (-17)); (74533821919384002, (-17)); (82431429441268567, (-17)); (50713649643625835, (-17)); (87160941897352484, (-17)); (48788698283047383, (-17)); (76203646453601337, (-17)); (74895564010371807, (-17)); (69792199414057388, (-17)); (10236755707426552, (-16))];
  [(91720604414192164, (-17)); (70843544367157441, (-17)); (10842935639773232, (-19)); (83461573256624955, (-17)); (87002205872762017, (-17)); (12015920539600566, (-17)); (9962706520592165, (-16)); (91403043298270703, (-17)); (32034482943187981, (-17)); (92207315845114957, (-17)); (21700881229103863, (-17)); (13154523491294767, (-17)); (32116118167393015, (-18)); (44987376844653726, (-17)); (46959410551605685, (-17)); (3206610775077734, (-16)); (54929860079508763, (-17)); (9067829233978304, (-16)); (52208902836703031, (-17)); (26676471098726257, (-17)); (26757198630058021, (-17)); (40644962219868574, (-18)); (76153375117355471, (-17)); (77927828588500769, (-17)); (17977720509711476, (-17)); (98435004220036881, (-17)); (10578763659908508, (-16)); (28524927006232143, (-17))];
  [(6444619145695315, (-16)); (4386018546957382, (-16)); (9642400859681014, (-16)); (98698133136798616, (-17)); (89528083469280828, (-17)); (72099148270095359, (-17)); (42423611403467054, (-17)); (84676063187583994, (-17)); (56953219920661646, (-17)); (73669109864797555, (-17)); (12571345832009018, (-17)); (23533641253525794, (-17)); (3347781281541119, (-16)); (82929728539960768, (-17)); (1015948041170045, (-16)); (39075277080529569, (-17)); (69641413170589062, (-17)); (69382070705831489, (-17)); (50724693310739355, (-17)); (35554256169425125, (-17)); (48664449814135369, (-17)); (31457037065350724, (-17)); (1141821944142416, (-15)); (11365327031903039, (-16)); (12049824042201804, (-16)); (12162260766018409, (-16)); (13302897749649838, (-16)); (10446721049514807, (-16))];
  [(96968981171868684, (-17)); (94023385639498158, (-17)); (74438280998702588, (-17)); (75578499002950772, (-18)); (67175670217183969, (-17)); (30450051114846721, (-17)); (65609490288694505, (-17)); (47304229907782136, (-17)); (11549171697085259, (-17)); (52583686319539114, (-17)); (61700910918305096, (-18)); (81278154756933596, (-17)); (20193903170007288, (-17)); (42191965528988851, (-17)); (11040988001900676, (-18)); (95873330149972047, (-17)); (47685009474103868, (-17)); (37289581823860407, (-17)); (89406149033618143, (-17)); ((-1558898914978423), (-16)); (25515359866872545, (-17)); ((-17148085841396255), (-18)); (99423293270444457, (-17)); (94009849888632169, (-17)); (44563473364659728, (-17)); (84748610222407805, (-17)); (10121639552360582, (-16)); (44202500272514184, (-17))];
  [(77194009729400526, (-17)); (77027883373551354, (-17)); (74585986672128457, (-18)); (51687379964337898, (-17)); (94116730534265802, (-17)); (8755474446545024, (-16)); (96731382884651995, (-18)); (17165750257672685, (-17)); (38656434607771972, (-17)); (94178800443794375, (-17)); (17410142756871672, (-17)); (56421187004957163, (-17)); (17453556642412682, (-17)); (84318168936518001, (-19)); (51013036814691792, (-17)); (89059564385954648, (-17)); (5685762251935258, (-16)); (5620025443199399, (-16)); (64330392016785809, (-18)); ((-11884766437757599), (-18)); (202356774581297, (-15)); (45497900706988931, (-17)); ((-6979084569325715), (-17)); (12785185309269684, (-17)); (58262511201917389, (-17)); (32218980593388169, (-17)); (66257384628965466, (-17)); (70796251589424863, (-17))];
  [(66526955624397666, (-17)); (56875350306038064, (-17)); (74875879680262003, (-17)); (18589877153924161, (-17)); (47867444009738291, (-17)); (81028614804884358, (-17)); (34938802369665312, (-17)); (72232000710688538, (-17)); (93534399530194079, (-17)); (29777809141146327, (-17)); (14447590562777135, (-17)); (24692648942837381, (-17)); (73364292168676515, (-17)); (81273291439490358, (-18)); (76834947518264662, (-17)); (71381102956474496, (-17)); (73706863868559591, (-17)); (61872665627851986, (-18)); (21719738660228383, (-17)); (35177760559561144, (-17)); (70056114902533495, (-17)); (96100235736654804, (-17)); (29209554950556627, (-17)); (79459259306758978, (-17)); (11715462163671422, (-16)); (58377591758222835, (-17)); (67915104539711613, (-17)); (9403158461178438, (-16))];
  [(58123763248678517, (-18)); (45381310228049832, (-17)); (65750880182899762, (-18)); (25466830859167899, (-17)); (6204726706097885, (-17)); (47705184266066769, (-17)); (36479797319287799, (-17)); (347136991354838, (-15)); (98932538973229656, (-17)); (5793623459551398, (-16)); (30593913557385477, (-17)); (85148284084968784, (-17)); (70630979414873574, (-17)); (88305707191713856, (-17)); (5725862554772424, (-16)); (91911661796824407, (-17)); (36959885832947481, (-17)); (78702881261504776, (-17)); (36222247897818749, (-17)); (46956047772317011, (-17)); (20441397364687258, (-17)); (11047714810251781, (-16)); (60516848574928805, (-17)); (57186942440383937, (-17)); (13964962312686484, (-16)); (34432572860046529, (-17)); (12397381854530121, (-17)); (76107651853218372, (-17))];
  [(11978832129350037, (-17)); (1929842630063916, (-16)); (89447011249878805, (-17)); (59101184083791858, (-17)); (69791688214455294, (-17)); (73941083529308504, (-18)); (87517214587681413, (-17)); (11849506756817429, (-17)); (59863275819331063, (-17)); (46864940379919373, (-17)); (62909425510774009, (-17)); (58710514278456294, (-17)); (53673013260302382, (-18)); (75872434144149015, (-17)); (34797755551614951, (-17)); (1067839773889051, (-16)); (44461135271731766, (-17)); (75257844905593707, (-17)); (34929465385671932, (-17)); (55995005614473614, (-17)); (62738306488041129, (-17)); (35670617804788946, (-17)); (54173892862653494, (-17)); (56880713569126473, (-17)); (57711427886437416, (-17)); (82800516461712825, (-17)); (66110429631496204, (-17)); (32435342985676291, (-17))];
  [(82551568928116159, (-17)); (67472998567995257, (-17)); (54497135704634925, (-17)); (65734807512285776, (-18)); (46886449088755611, (-17)); (11698648780919363, (-17)); (39963840051797006, (-17)); (45361662229710842, (-17)); (48214284982331068, (-17)); (45715013191262754, (-17)); (86053488105137277, (-17)); (51031460696508479, (-17)); (23478960675792515, (-17)); (52511773712656773, (-17)); (54673344153007175, (-17)); (74272716553993212, (-17)); (23419529419194396, (-17)); (61240436161892142, (-17)); (77125208795021383, (-18)); (60039182390535051, (-17)); (86831788019141176, (-17)); (5092633532538613, (-16)); (53406989612206524, (-17)); (83071036207321536, (-17)); (56788199550544016, (-17)); (24073482190788982, (-18)); (30050823864381709, (-17)); (80777111737409923, (-18))];
  [(2092902564273118, (-16)); (27862586539499001, (-17)); (14850586196321947, (-17)); (36180979410426994, (-17)); (80980730116031829, (-17)); (95057383415367902, (-17)); (83288559540696383, (-17)); (27193258235221962, (-17)); (16872776071591478, (-17)); (56736089636442666, (-17)); (59551223143667853, (-17)); (91347576990534785, (-17)); (27166879073912775, (-17)); (63415740398525078, (-17)); (34961149717609841, (-17)); (66528361372207689, (-17)); (9739474355282669, (-16)); (85597427948191529, (-17)); (53385780039601505, (-17)); (62314675154328725, (-17)); (96002769087211659, (-17)); (10840099913478307, (-16)); (85669058772811202, (-17)); (79231490254313974, (-17)); (76799021877402729, (-17)); (9708189242599119, (-16)); (12542814259956121, (-16)); (13274589479603016, (-16))];
  [(69337422165786899, (-17)); (59505227529754734, (-18)); (49120524049451864, (-17)); (80751235385126108, (-17)); (29878849774938987, (-17)); (97608176519024936, (-17)); (21155174089722495, (-17)); (19011745830996873, (-17)); (1957637847852518, (-16)); (92722167929543353, (-18)); (26280998332337469, (-17)); (58483721734608141, (-18)); (15175720434906714, (-17)); (53219144308201405, (-18)); (13394899134710936, (-17)); (89184213165102799, (-17)); (58143541314906888, (-17)); (97351870578191002, (-17)); (96582640245830387, (-17)); (27646578475213218, (-17)); (68770608685146076, (-18)); (23617888256747446, (-17)); (32849349091530516, (-17)); (21329275935642544, (-17)); (32952077366838217, (-17)); (13694674762379782, (-16)); (51841853164161023, (-17)); (14278742205488208, (-16))];
  [(61309741867380141, (-18)); (32486887530843389, (-18)); (15404306840076676, (-17)); (38996599878624794, (-17)); (81422848101859735, (-17)); (32728170881411101, (-17)); (57994624799004024, (-17)); (53930487911840153, (-17)); (29454404913704446, (-17)); (82938394258341608, (-17)); (75406459520142122, (-17)); (21604916934636142, (-17)); (30396740507155284, (-17)); (96746740606748549, (-17)); (8245816318598439, (-16)); (56918493596905551, (-17)); (7809233691424482, (-16)); (91419943011035865, (-17)); (70666262298270666, (-18)); (47150849767649622, (-17)); (7469183837388611, (-16)); (37319639659291992, (-17)); (8282767595302718, (-16)); (13428185642826069, (-16)); (59039005673555311, (-17)); (49733695180409837, (-17)); (1004982732038564, (-15)); (38874726963015582, (-17))];
  [(6294702130231733, (-16)); (87597689924292943, (-17)); (90096296534986064, (-17)); (64936502895111747, (-17)); (46400072812815452, (-17)); (15042545382866235, (-17)); (43642650652551473, (-17)); (56801424917377497, (-18)); (66552941008047872, (-18)); (85166904905859708, (-17)); (44065945959790964, (-17)); (1336197544842842, (-16)); (60573291530633977, (-17)); (91130299667728309, (-17)); (64384978679206795, (-17)); (6723564357156091, (-16)); (14049201719614124, (-17)); (73221295185542667, (-17)); (33609208444979222, (-17)); (65624423770467655, (-17)); (39529349978914208, (-17)); (27437667394065618, (-17)); (10870228884102529, (-16)); (65463334817416152, (-17)); (31608911407773144, (-17)); (24000543774038421, (-17)); ((-10957191436951634), (-17)); ((-30213962448070142), (-17))];
  [(64102212714450346, (-17)); (80438729308838519, (-17)); (40170190316201448, (-17)); (20647919685757687, (-17)); (39602256912341971, (-17)); (42974042056590644, (-17)); (1729803582552728, (-16)); (23590612176477344, (-17)); (32611965112123609, (-18)); (64643431820659403, (-17)); (69860652743651974, (-17)); (3110120772968098, (-16)); (22564300184582675, (-17)); (93973777205391484, (-17)); (64228077295321351, (-17)); (23451836341163468, (-17)); (89552045551733128, (-18)); (20764495067587474, (-17)); (28376255895269376, (-19)); (41456076681029053, (-17)); (61607282985436818, (-17)); (44363900795215627, (-17)); (49616106824460121, (-17)); (77472973937005918, (-17)); (61714707926461654, (-17)); (11500110723274387, (-18)); (44564899377551127, (-18)); (729754284359906, (-16))];
  [(14137481888471048, (-17)); (38753890369726973, (-17)); (13968351077605834, (-17)); (9856144767695959, (-16)); (84978988237934672, (-17)); (92577061345593958, (-18)); (73736822361762822, (-18)); (37955891826954036, (-17)); (1621444949245765, (-17)); (99615666729968422, (-17)); (505277315596247, (-15)); (93820420383325009, (-17)); (93622380903492286, (-17)); (10955033244494849, (-17)); (61323520528019804, (-17)); (76441603442938277, (-17)); (24688744026291076, (-17)); (85532342092000668, (-18)); (39983411159321158, (-17)); (91715653991842172, (-17)); (95035166821676265, (-17)); (30012344748562514, (-18)); (41116276629778675, (-17)); (47512270591314393, (-17)); ((-11819002727061075), (-18)); (28837783767308461, (-17)); (39155375462007547, (-17)); (38687871074478838, (-18))];
  [(8240966048271241, (-16)); (69409287255449026, (-17)); (14920845820075979, (-17)); (57985482025860069, (-18)); (83186967752507857, (-17)); (94224983171349797, (-17)); (73611516239615893, (-17)); (279687899950818, (-15)); (97586216851206331, (-17)); (86651470490583771, (-17)); (69006064534761835, (-17)); (30897661255554931, (-18)); (422828931226226, (-15)); (84798714664271357, (-17)); (46760944364164003, (-17)); (8579887247447755, (-16)); (75211996632271294, (-17)); (64871936676007058, (-17)); (49242386014657091, (-17)); (69171015963187465, (-17)); (86614615548821283, (-17)); (99013665193641009, (-17)); (84541514826666209, (-17)); (11631710396642334, (-16)); (17602292768670438, (-16)); (4139852714742514, (-16)); (95881962162708967, (-17)); (14152879283248621, (-16))];
  [(55879110717382907, (-17)); (13087857086541532, (-17)); (23746517749637441, (-17)); (2988131126888508, (-16)); (94891178684076372, (-17)); (7967748703791605, (-16)); (43537291298925851, (-17)); (63336484509257329, (-18)); (17264362538727274, (-17)); (14163221651375935, (-17)); (41323589025278551, (-18)); (70884915430974649, (-17)); (40422389878324938, (-17)); (20141336048835756, (-17)); (40567671224102286, (-17)); (54925047507880187, (-17)); (21800952625935255, (-17)); (56079441096486937, (-17)); (31455559886087625, (-17)); (35437077723389332, (-17)); (6892959123891208, (-16)); (61952605577999298, (-17)); (44705403173796809, (-17)); (46146527403018811, (-17)); (47122572883738756, (-17)); (38840683384064839, (-17)); (59382727701504745, (-17)); (55363203205757094, (-17))];
  [(89240018237383245, (-17)); (27259978345770652, (-18)); (87684087905822594, (-17)); (90851403522003371, (-17)); (82879797022438795, (-17)); (7157652657584902, (-16)); (59581229766029353, (-17)); (24377176710793236, (-17)); (68529870580404895, (-17)); (24470322159509683, (-17)); (54048480610214877, (-17)); (49871127814825467, (-17)); (33589222658130058, (-17)); (26915149057146248, (-17)); (39121352557006372, (-17)); (60736246824740547, (-18)); (86558121460417059, (-17)); (69892489684174042, (-17)); (46939175187330007, (-17)); (11188183969178362, (-16)); (60242436690460366, (-17)); (10240957458941773, (-16)); (58871832714693839, (-17)); (38796167068119264, (-17)); (50583695635355452, (-17)); (16845792614206656, (-16)); (86851351773361907, (-17)); (15450278475149148, (-16))];
  [(80370830767446866, (-17)); (47488017256806037, (-17)); (67385666216906526, (-17)); (6203956597526894, (-16)); (3447979020949572, (-16)); (88160616134174286, (-17)); (57809942048133867, (-17)); (19624128068933311, (-17)); (17581554527655419, (-18)); (88373703726452624, (-17)); (63361473945080182, (-18)); (16596582199635468, (-17)); (32802109586167527, (-17)); (27853043087383111, (-17)); (89111795373764902, (-17)); (91658675229495923, (-17)); (67480592781060678, (-17)); (94231532895897219, (-17)); (58042044842043361, (-17)); (21450140210333316, (-17)); (75709478441176051, (-18)); (82374874982044169, (-18)); (60240454378279362, (-17)); (2057327958999722, (-16)); (35904668334145318, (-17)); (78847684911598737, (-17)); (35715606822996115, (-17)); (79455679774028554, (-17))];
  [(67451299956707089, (-17)); (63111280913379464, (-17)); (63781763950808079, (-17)); (27182192901606694, (-17)); (57859536595482119, (-17)); (75700057184795211, (-17)); (12970898395517982, (-17)); (28268417970245263, (-19)); (619545484089009, (-15)); (21269972369175671, (-17)); (13469088212825886, (-17)); (15360223567283748, (-17)); (55131843364814914, (-18)); (49419974863019367, (-17)); (97830328594973315, (-18)); (25243413495602973, (-17)); (79411945831656872, (-17)); (38019045323042933, (-17)); (92273716254779092, (-17)); (12262346596403814, (-17)); (16610334738080065, (-17)); (23262802292959661, (-17)); (39899614743396522, (-17)); (40823770962519734, (-17)); (60269123629570964, (-17)); (73570809714030916, (-17)); (75385512703595059, (-17)); (14237976305054445, (-16))];
  [(88645158771254562, (-18)); (92120197354922839, (-17)); (19382245800036169, (-17)); (81525785455207123, (-17)); (10924211507943515, (-17)); (19042571422155241, (-17)); (52919058904710348, (-17)); (89385164557455199, (-17)); (30768036688882017, (-17)); (4530636269033107, (-16)); (96168701465240547, (-17)); (19913775611769935, (-17)); (79382355219000733, (-17)); (18370681992396776, (-19)); (19840184414138728, (-17)); (39432403927051252, (-17)); (93034942010430555, (-17)); (43219071725131619, (-17)); (26730288733131202, (-17)); (97815866528823203, (-17)); (14913361707136203, (-16)); (50919519150486348, (-17)); (34720606880583527, (-17)); (29356210872304889, (-17)); (13893566385778883, (-17)); (84763468397310127, (-17)); (92216714151678802, (-17)); (35925145149411525, (-17))];
  [(32206079742784288, (-17)); (5486519362411727, (-16)); (56318417920023311, (-17)); (84848093886343046, (-17)); (76413582748311137, (-17)); (50878654355802233, (-17)); (53782592788541739, (-17)); (83378526442175593, (-17)); (81523993501010383, (-17)); (34237556088126631, (-17)); (10626656450818328, (-17)); (61524515149613557, (-17)); (74979672271388043, (-17)); (65987078009879485, (-17)); (63443816165882128, (-17)); (30774335215195359, (-17)); (4881851412560041, (-16)); (43930403948187702, (-17)); (74718685569589638, (-17)); (89097137693168116, (-17)); (10368688289940384, (-16)); (86432247523220107, (-17)); (99213205732294396, (-17)); (11066995760224845, (-16)); (89776030101089721, (-17)); (99262704363791299, (-17)); (12358167070869235, (-16)); (10789831867898516, (-16))];
  [(46235992696741279, (-17)); (43285173020143608, (-17)); (16118954941876318, (-17)); (7816878846132822, (-16)); (92605300971034743, (-17)); (59044971985425654, (-17)); (96883532890048008, (-17)); (758602105959024, (-15)); (78293160951148355, (-17)); (83872193248705118, (-17)); (76786099171338795, (-17)); (64772318603158807, (-17)); (25009537181437613, (-17)); (66673313793401134, (-17)); (79831545614036514, (-17)); (85152944658688745, (-17)); (69259344272469658, (-17)); (31541617604374805, (-17)); (45287436002668602, (-17)); (10417286137369821, (-16)); (11331746475603504, (-16)); (79373700942107439, (-17)); (15612636583643509, (-16)); (1535240734969096, (-15)); (12506895639995337, (-16)); (11118177929923203, (-16)); (11146758542802113, (-16)); (82002514395149184, (-17))];
  [(834306043440042, (-15)); (77915187379855144, (-17)); (44912509276199419, (-17)); (26795664164338984, (-18)); (87945865023746139, (-17)); (9618661695340901, (-16)); (16410577178820218, (-17)); (31006691276809217, (-19)); (96103536037246418, (-17)); (88625158780495739, (-17)); (88315309155635779, (-17)); (92111111042649418, (-17)); (10936182981543396, (-17)); (98061175605832085, (-17)); (89392375700439841, (-17)); (20563011608672943, (-17)); (43455509017031713, (-17)); (39458282107725706, (-17)); (54491398434520588, (-17)); ((-77560298894821939), (-18)); (99339123892447134, (-17)); (12537374013987881, (-16)); (87869005840355771, (-19)); (1109397655658342, (-15)); (14394787625546874, (-16)); (79343201709168296, (-18)); (49310718637853418, (-17)); (10736033053418998, (-16))];
  [(33198037496536326, (-17)); (68132536971564051, (-17)); (32789778143461257, (-17)); (42130369206225726, (-17)); (27945144179151615, (-17)); (4072232334275423, (-16)); (24864079167514663, (-17)); (85075162640060209, (-17)); (16434388423874657, (-17)); (66791813927087229, (-17)); (55076342811135681, (-17)); (71186721376888928, (-17)); (88542292158038483, (-17)); (13663614384024669, (-17)); (75345066740845013, (-17)); (685516032679645, (-16)); (30213419562580279, (-17)); (48918059811253689, (-17)); (79300913039642174, (-17)); (5965139832782379, (-16)); (99900346482816293, (-17)); (50923761750070851, (-17)); (18261140721929875, (-17)); (24243081890698501, (-19)); (16877912953022689, (-17)); (41598569522813, (-14)); (78946553977881762, (-17)); (34136336208320717, (-17))];
  [(69751377864539599, (-17)); (2746699128983684, (-16)); (39701388794298353, (-17)); (54656949042497516, (-18)); (46631523835550714, (-17)); (77991399705036513, (-17)); (42118041070555079, (-17)); (90776864641006783, (-17)); (4450816566063629, (-16)); (25745334688837951, (-17)); (24887106913252155, (-17)); (47841656991201531, (-17)); (44211767898610854, (-17)); (82817145360961086, (-17)); (52965004118604941, (-18)); (25633152457244457, (-17)); (97142053198370759, (-17)); (8895301585014056, (-16)); (45472585919444042, (-17)); (2978646437891489, (-16)); (67927566167472531, (-17)); (65421267930097426, (-17)); (67150230335021566, (-17)); (57117743696945877, (-17)); (63109887808550613, (-17)); (7493238291278479, (-16)); (11250711348877989, (-16)); (13492236972327925, (-16))];
  [(96275352821510429, (-17)); (7416029044459469, (-16)); (50538158388730703, (-17)); (16600812226389128, (-17)); (5261396851238983, (-16)); (35681689709945819, (-17)); (62428065059684135, (-17)); (59461148424160026, (-17)); (10245385390085948, (-17)); (10172162519007244, (-17)); (68885053270716701, (-18)); (7439323457108834, (-16)); (11688999880020146, (-17)); (83779529931574226, (-17)); (43724677627443154, (-17)); (71241536253968052, (-17)); (77399260053605357, (-17)); (27021231555048197, (-17)); (60180550299448166, (-17)); (19024048995937692, (-17)); (45737149567580671, (-17)); (2750022077244445, (-16)); (12907555205679111, (-16)); (12824073880192022, (-16)); (6573347650331296, (-16)); (1148263846394701, (-15)); (10913066898188057, (-16)); (56089205293248068, (-17))];
  [(31769435365277598, (-17)); (70205789687897524, (-17)); (27705407775741953, (-17)); (47176556214907728, (-17)); (85834520160110561, (-17)); (32177886114920173, (-17)); (49605213931876535, (-17)); (1556201842826298, (-16)); (37932667255245978, (-17)); (59842945273890891, (-17)); (33232439679925307, (-17)); (83814588414794533, (-17)); (99773753954083078, (-17)); (48286762765026037, (-17)); (40970997594189329, (-17)); (62121448769662968, (-17)); (75227556426981979, (-17)); (4339373848460194, (-16)); (28003219694022385, (-17)); (84717162401355606, (-17)); (77163965452364347, (-17)); (60679601621803181, (-17)); (64960241182928857, (-17)); (73877025562037979, (-17)); (47868555722913814, (-17)); (62778113752511233, (-17)); (97981744235371337, (-17)); (46243171625770535, (-17))];
  [(34837651890068388, (-17)); (75941055780617406, (-17)); (66885129572382951, (-17)); (6498633551357913, (-16)); (37672677156294854, (-18)); (21054820518620487, (-17)); (46127207396994829, (-17)); (98731918629985704, (-17)); (10854133738758542, (-18)); (63322131104621748, (-17)); (69788947377124189, (-17)); (58962032305731971, (-17)); (46542187634944776, (-19)); (90977145660065284, (-17)); (35493090290685514, (-17)); (35497612967803072, (-18)); (97310987584355635, (-17)); (61620359988841866, (-17)); (35654100594381999, (-17)); (65384942430142301, (-17)); (20033135463004148, (-17)); (32999772885227019, (-17)); (734494545480321, (-15)); (46355377878508403, (-17)); (52402726135987876, (-17)); (10077394946256484, (-16)); (71123718470050479, (-17)); (51049044626584761, (-17))];
  [(94184948891475639, (-17)); (88406479606596111, (-17)); (61509770621141657, (-17)); (94498263077854006, (-17)); (36895122965788674, (-18)); (33330218408487844, (-17)); (3058910559612944, (-16)); (56229845401479905, (-18)); (30743522439886872, (-17)); (27206263934848751, (-17)); (60496563938234194, (-17)); (52115482844608496, (-17)); (91892383784691212, (-17)); (58897397763496573, (-17)); (30892625157247744, (-17)); (44536394309537919, (-17)); (36356888486143368, (-17)); (35478499551026665, (-18)); (4989934739167079, (-17)); (13260090086875156, (-16)); (46753872453547413, (-17)); (77629145756385487, (-17)); (10231204416418171, (-16)); (47001016166956677, (-17)); (58673996801127215, (-17)); (46073278666110901, (-17)); (30883905456480815, (-17)); (26883460715221952, (-17))];
  [(38401014454726579, (-17)); (32984806350441365, (-17)); (53032182358300428, (-17)); (37774019769567757, (-17)); (2519269827004772, (-16)); (4717234868339526, (-16)); (20800568781455631, (-17)); (65133664464125762, (-17)); (27726656892215051, (-17)); (85070607282498389, (-17)); (60855545427323621, (-17)); (19259806253881651, (-17)); (59544025097494602, (-17)); (34046695634938862, (-17)); (51451650488733036, (-17)); (91460210565045874, (-17)); (14474118620990051, (-17)); (61660145154388513, (-17)); (54238538864393127, (-17)); (44314934586963073, (-17)); (61969593916458887, (-17)); (5768553425637416, (-16)); (35277897042151629, (-17)); (6921493998126923, (-16)); (44832697829165757, (-17)); (16617149389735775, (-17)); (3617159339592681, (-16)); (19832511394627195, (-17))];
  [(93854337771629204, (-17)); (82916718084561114, (-17)); (96117569913780165, (-17)); (31130003023667141, (-17)); (9047982327772186, (-17)); (25157836498851394, (-17)); (81534159989886668, (-19)); (84153832162851394, (-17)); (13501820962509203, (-17)); (54361425411524378, (-17)); (18503266460045831, (-17)); (33446479620076286, (-17)); (82790972800349405, (-17)); (11141401611835411, (-17)); (41542542492489676, (-18)); (32082427452634033, (-17)); (32732625092865175, (-17)); (55417628256064366, (-17)); (45642945800839418, (-17)); (11191555527079866, (-17)); (71914058662718439, (-17)); (19380590335331263, (-17)); (10094944515709062, (-17)); (33966414255237776, (-17)); (13775758808783314, (-17)); (19797366403114344, (-17)); (43694748125403904, (-17)); (21729500849743358, (-17))];
  [(52276048834913014, (-17)); (32055159017201862, (-17)); (93940780668393442, (-17)); (69214392801908631, (-17)); (38350722769317735, (-17)); (38816370107108455, (-17)); (13035061740334131, (-17)); (61410068029834552, (-17)); (92162716946933454, (-18)); (69913533993416177, (-17)); (69051361468509986, (-17)); (14023305725955793, (-17)); (44907169250060752, (-17)); (79705143335750439, (-17)); (38969495500731732, (-17)); (90643497235368087, (-17)); (49190544533833891, (-17)); (52473732430233233, (-17)); (7462569770151436, (-16)); (66951589920910626, (-17)); (62785158034295807, (-17)); (66725952661950905, (-17)); (86744803119822378, (-17)); (9829159753935951, (-16)); (7359281248127707, (-16)); (61466054834542649, (-17)); (74615195173923499, (-17)); (38401172012693313, (-17))];
  [(72688126279559484, (-17)); (61602533462584474, (-17)); (52311472986950147, (-17)); (861938607310198, (-15)); (69968533483527429, (-17)); (59476508979693921, (-17)); (49052004971170216, (-17)); (69936856623288957, (-17)); (20591872917326115, (-18)); (35148780236903909, (-17)); (74626205419888458, (-17)); (65722086610132679, (-19)); (21905179928719931, (-17)); (48089517227814704, (-17)); (3738819420264109, (-16)); (15616046262708805, (-17)); (12085151419791651, (-17)); (52445027078722883, (-17)); (32323168484302656, (-17)); (84186433699836705, (-17)); (76750448900968338, (-17)); (52632587741701942, (-17)); (75648565529188483, (-17)); (66949982551317022, (-17)); (47931206441905361, (-17)); (57004655400355775, (-17)); (55834935809872011, (-17)); (28915492446668833, (-17))];
  [(39606141833862796, (-18)); (30211141796587004, (-17)); (94718837328502237, (-17)); (66560116086235999, (-17)); (36775202100463855, (-17)); (30991155625288058, (-17)); (76544265235444497, (-17)); (38085999231200529, (-17)); (40411918023617055, (-17)); (93907837193128119, (-17)); (61235169281432633, (-17)); (22951535741826057, (-17)); (7880099238476137, (-16)); (62010654589341396, (-17)); (95629207542914596, (-18)); (21085911403260027, (-17)); (32362439115744313, (-17)); (9965355381849279, (-16)); (54023083457997989, (-17)); (10293000694749939, (-16)); (58498934311326733, (-17)); (68068080285337751, (-17)); (54352534896607352, (-17)); (37242727297496814, (-17)); (53155920675532276, (-17)); (95476467311505164, (-17)); (33298803996481874, (-17)); ((-99092787292677481), (-18))];
  [(2672132063812267, (-16)); (11497851799039838, (-18)); (33088527101780607, (-17)); (25253683623922851, (-17)); (65525037858549184, (-17)); (84486939586179666, (-17)); (66509658242340719, (-17)); (37237092533617011, (-17)); (22408259599330549, (-17)); (73415026710652476, (-17)); (86742191556530845, (-17)); (13415278091022342, (-17)); (33828327179719664, (-17)); (84345954070553986, (-17)); (9993772820916802, (-16)); (3853653646394205, (-16)); (45254160536992394, (-17)); (33872566056991071, (-18)); (84164743709015344, (-17)); (54496270386495371, (-17)); (57838642125448159, (-17)); (83427417945173321, (-17)); (57479073349948273, (-17)); (99942522824703661, (-17)); (11762687887069372, (-16)); (72640322617889519, (-17)); (53214551161977486, (-17)); (56965240819617968, (-17))];
  [(86578451438475312, (-18)); (92673038814725106, (-18)); (24299188411669292, (-17)); (81140538751421465, (-18)); (91927653059871051, (-18)); (73930592880203705, (-17)); (92010286589018553, (-17)); (98707918089859725, (-17)); (19126296841365509, (-17)); (27159996459384816, (-17)); (61241341650299852, (-17)); (93573303110147665, (-17)); (2011723328199011, (-17)); (55466631559002999, (-17)); (37180073521010082, (-17)); (72983400956017208, (-17)); (53961765017135122, (-18)); (1833692234271076, (-16)); (22834533026084891, (-17)); (13432770916962172, (-17)); (14923684495538053, (-17)); (874102850915358, (-15)); (75028458410765231, (-17)); (8072836043760292, (-16)); (62000061872373025, (-17)); (2258507019320814, (-16)); (24322311426421039, (-17)); (18565116628670073, (-17))];
  [(84116101114827013, (-17)); (42094523444627729, (-17)); (56004739678227, (-14)); (54308378753626962, (-17)); (43321001177861085, (-17)); (21314193686509775, (-17)); (46561330400945666, (-17)); (64675955806058649, (-17)); (40366710961334196, (-17)); (47150407018182738, (-19)); (46008493672541273, (-17)); (47670024622100837, (-17)); (66099021393058077, (-17)); (54480480313664881, (-17)); (55565911750174701, (-17)); (19149989254440192, (-17)); (82489376760478972, (-17)); (71276648448440494, (-17)); (23596841057252971, (-17)); (95293982351507778, (-17)); (8276727997519302, (-16)); (62529377954140486, (-17)); (84838572620972907, (-17)); (59390920139606695, (-17)); (49992849060674149, (-17)); (11901037809999333, (-16)); (8088904594040609, (-16)); (70809273411145013, (-17))];
  [(99514111044083253, (-18)); (97642169688930536, (-17)); (67106362748033055, (-17)); (79294400979663338, (-17)); (5565191732463215, (-17)); (50717390888557312, (-17)); (34636049391649915, (-17)); (91966912247223431, (-17)); (93964426383082478, (-17)); (25160616632198818, (-17)); (53412308698558064, (-18)); (51065978215228236, (-17)); (38627309149627653, (-17)); (56773050053334306, (-17)); (15321471010018906, (-18)); (191128192234303, (-15)); (11048807798228777, (-17)); (76360212340622258, (-17)); (5916149769665312, (-16)); (52900532075128115, (-17)); (30988249460784401, (-17)); (56994168349930008, (-17)); (24438090254453304, (-17)); (71763216555538856, (-17)); (62523137087719194, (-17)); (80488334719133281, (-17)); (50564096414394288, (-17)); (88918021476751119, (-17))];
  [(29071637241075954, (-17)); (47924800727365668, (-17)); (2130776295161011, (-16)); (85440172577715501, (-17)); (38787190163977114, (-17)); (32962778464820097, (-17)); (29853239076879923, (-17)); (96034285479417258, (-17)); (88047369113425156, (-17)); (58374177378918757, (-17)); (98589555208562296, (-17)); (2003113778774166, (-16)); (33269559660917647, (-17)); (28683485633690164, (-17)); (25318253050282291, (-17)); (17532048067385841, (-18)); (59314982717818143, (-17)); (85760238846608394, (-17)); (69238677206230415, (-17)); (91344625405979896, (-17)); (93642912603006634, (-17)); (67889748707909869, (-17)); (3498159367704422, (-16)); (20792242307369765, (-17)); (15844737679070631, (-17)); (11038879242935069, (-16)); (10799546604230659, (-16)); (95800956898897149, (-17))];
  [(85878654450405612, (-17)); (28016706583191442, (-17)); (49129913867108066, (-17)); (99581176992775411, (-17)); (28447351776761132, (-17)); (81363721424460644, (-17)); (1308839825093232, (-16)); (2679786478362074, (-16)); (16581882285658445, (-17)); (61608097458104494, (-17)); (6701502469785634, (-16)); (20756240402383663, (-18)); (1076363992899283, (-16)); (38817005502998614, (-17)); (27444512196115178, (-17)); (5688699243084725, (-16)); (42431010965705485, (-17)); (51396174162137143, (-17)); (78989912799097217, (-17)); (8759824905905319, (-16)); (2936979651897792, (-16)); (60952437805836757, (-17)); (65674361422496264, (-17)); (32429905141084181, (-17)); (53680667424049333, (-17)); (8076033894487421, (-16)); (41456801994477122, (-17)); (69599385927344948, (-17))];
  [(16950876657019398, (-17)); (55180112866230469, (-17)); (56158988558849354, (-17)); (92886905375417728, (-17)); (82108313540474043, (-17)); (412736381478221, (-15)); (85686498205784545, (-17)); (14143461220047926, (-17)); (38054549774071378, (-17)); (76770320527174007, (-17)); (79242885720936074, (-18)); (40789312827672031, (-17)); (91412446335823239, (-18)); (52080801277666111, (-17)); (90195992361269361, (-17)); (31449017806827584, (-17)); (17456993053911241, (-18)); (60456363348642328, (-17)); (95450318103086795, (-18)); (36370010882214132, (-17)); (17423852362800435, (-17)); (51566390077143615, (-18)); (11655859896531986, (-16)); (73544300716505151, (-17)); (39547767919818266, (-17)); (42805546530983851, (-17)); (15586751480763042, (-17)); ((-78728734637066311), (-19))];
  [(41164324397884822, (-17)); (12831995053855105, (-17)); (84851321956118686, (-17)); (79847602300660048, (-17)); (13316856726635939, (-17)); (48043467341498514, (-17)); (91169779361805026, (-17)); (68160884323726878, (-17)); (67846495703238874, (-17)); (26869674469000282, (-17)); (16808607740966108, (-17)); (75753538537294351, (-17)); (65345111984895465, (-17)); (99081606259253463, (-17)); (79084097513803597, (-17)); (46648716411377877, (-17)); (26787397500757981, (-17)); (52457465678982684, (-17)); (52130827599643714, (-17)); (11984741372104701, (-16)); (54358933878711413, (-17)); (78253280285448856, (-17)); (15509368964844699, (-16)); (55016499429949595, (-17)); (14415906959004108, (-16)); (98487470359981377, (-17)); (44741883373207014, (-17)); (73180912445523894, (-17))];
  [(19598895591239462, (-17)); (94107384545277228, (-18)); (20098271409157686, (-17)); (13155563455857666, (-17)); (66658769469170942, (-17)); (6002981761280296, (-16)); (14041655212724169, (-17)); (66433393711407884, (-18)); (72639759223170108, (-17)); (45790918326800545, (-17)); (41273805945553355, (-17)); (85809209697331423, (-17)); (1613233014831098, (-16)); (45855608734868059, (-17)); (50570800826471618, (-17)); (65970887764624631, (-17)); (55306814714716135, (-17)); (49698848677678087, (-17)); (89430009719778325, (-18)); (14612535407185281, (-17)); (64455088771712032, (-17)); (68692587429630803, (-17)); (21577516797611074, (-17)); (49899392528142666, (-17)); (91093706858167645, (-17)); (15753671095695726, (-17)); (49208646269127143, (-17)); (53488713188417347, (-17))];
  [(61344914999764999, (-17)); (65258613743963667, (-17)); (6641760745554206, (-16)); (21771255419534985, (-17)); (81005175744725255, (-17)); (63064016122554256, (-17)); (84366802882234748, (-18)); (24607442720501405, (-17)); (40326624418393786, (-17)); (24772100496905736, (-17)); (71632371112203996, (-17)); (82828875750301156, (-17)); (23742524578872715, (-17)); (42254348230571392, (-17)); (55913008739962977, (-17)); (64589481943721005, (-17)); (1323915065150405, (-16)); (93838006326589318, (-17)); (59901971533885534, (-17)); (53452095333214877, (-17)); (11718337570948796, (-16)); (10392699890123476, (-16)); (36225685045277067, (-17)); (85982391317912465, (-17)); (84867186990200927, (-17)); (193255434860863, (-15)); (84423981728751829, (-17)); (76818070558389562, (-17))];
  [(67163941061757049, (-17)); (61295418511581268, (-18)); (21186663849324761, (-17)); (92811889498200295, (-17)); (46661237151140211, (-17)); (58406683193434639, (-17)); (52331501555393034, (-17)); (65130365647462396, (-17)); (52430528035160373, (-17)); (14685192996635443, (-17)); (22018662134682609, (-17)); (20962832115126451, (-17)); (11968562748740474, (-17)); (62891082520236763, (-17)); (10133220999055048, (-17)); (93339293911223498, (-17)); (21785502894853981, (-17)); (18484624612559108, (-17)); (68489880045816021, (-18)); (41069451485995534, (-17)); (2012186945689643, (-16)); (24233814689157737, (-17)); (10748010649915147, (-16)); (73486183679632178, (-17)); (73034907381949221, (-17)); (36171960333879866, (-17)); (15635725758625937, (-17)); (20125769297960427, (-17))];
  [(49407050405807473, (-17)); (86476826837919007, (-17)); (77431063205230721, (-17)); (77401854603896836, (-17)); (44994629758734128, (-17)); (43432585489764142, (-18)); (62360265677537718, (-17)); (97402504341505181, (-17)); (87941070078097527, (-17)); (39771446503321495, (-17)); (89112048367980956, (-17)); (98688039040555309, (-17)); (10687609032251, (-14)); (9719597752214616, (-16)); (93866401673431032, (-17)); (65225841716761279, (-17)); (722397054077767, (-15)); (91020419743912317, (-17)); (14983463729522695, (-17)); (12551006989885667, (-16)); (10487045173605005, (-16)); (48867855042205333, (-17)); (16310792372095864, (-16)); (16546071915929628, (-16)); (10398919781678453, (-16)); (1114410073907, (-12)); (9204995677285116, (-16)); (4230959944941125, (-16))];
  [(76401450316867969, (-17)); (96336579541149792, (-17)); (36309107350088821, (-17)); (68075259363479479, (-17)); (48724393324322801, (-17)); (69927831392652284, (-17)); (88554398223781383, (-17)); (96400488441387244, (-17)); (39622965978845515, (-17)); (27171548184766336, (-17)); (95551260917966807, (-17)); (62045616035850748, (-17)); (3116026546025934, (-16)); (78020413705198988, (-17)); (98173986475009234, (-17)); (29146206479529113, (-17)); (10536548256794653, (-17)); (71253186390198331, (-17)); (35759020355816162, (-17)); (14334121348435782, (-16)); (14428758671102557, (-16)); (99449342448183886, (-17)); (14173635419336117, (-16)); (13140095377478929, (-16)); (11004571004207515, (-16)); (73461754024320869, (-17)); (60649146447703595, (-17)); (60885918756042623, (-17))];
  [(10793026946422035, (-17)); (2492440328595269, (-16)); (42409907978574757, (-17)); (39963850779103349, (-17)); (46780289936867969, (-17)); (40449955670486926, (-18)); (50676505820528628, (-18)); (26067229318813134, (-17)); (13580060721604437, (-17)); (87544288941993931, (-17)); (47520641419147469, (-17)); (48026376241369617, (-17)); (42655304301693864, (-17)); (68836133256371823, (-17)); (91795088932901781, (-18)); (10069889203001914, (-17)); (90703177564222626, (-17)); (15117041653003316, (-18)); (19268410381359702, (-17)); (28345581097126082, (-17)); (40978619717596765, (-17)); (57855117462091217, (-18)); (27982185207844779, (-17)); (39336433743147664, (-17)); (1945707835203426, (-16)); (35342582688950425, (-17)); (5224981168289804, (-16)); (2962491867103641, (-16))];
  [(67468852827805537, (-17)); (8346750405480633, (-16)); (80193681328151067, (-17)); (63043153655864592, (-17)); (49789456561618373, (-17)); (17012198317440941, (-19)); (30721411213473537, (-17)); (34238238935234921, (-17)); (88433759083052166, (-17)); (67441082321459955, (-18)); (18625028314364167, (-17)); (50994516343040486, (-17)); (16480411525922356, (-17)); (2940804155021115, (-17)); (9311785576595818, (-16)); (15638988848597279, (-17)); (67173854086507245, (-17)); (20378777802568659, (-17)); (26259216706048372, (-17)); (48148709967867809, (-17)); (44241833632600147, (-17)); (26809209122490318, (-17)); (61246242704810827, (-17)); (489219406591612, (-15)); (11309193089223726, (-17)); (6803111880621342, (-16)); (7616260085453942, (-16)); (75909709815082294, (-17))];
  [(43117856088323125, (-17)); (57524392327655494, (-18)); (32526263038995951, (-17)); (13296251146688898, (-17)); (98539480945049196, (-17)); (87519086556099634, (-18)); (55602784347591938, (-17)); (80929298956714268, (-17)); (90362930971375355, (-17)); (29557888632998697, (-17)); (85936443384540584, (-17)); (43431327327375291, (-17)); (9256411536081518, (-16)); (89255066954909335, (-17)); (47863295430307085, (-17)); (85525624747873974, (-17)); (83498573420170807, (-17)); (1310028759977373, (-16)); (74889085596194571, (-17)); (90313052413737394, (-17)); (14452098648401819, (-16)); (11209547827059776, (-16)); (87903932435664012, (-17)); (14406356684876869, (-16)); (10680365494766269, (-16)); (79336816418505829, (-17)); (10129911644929117, (-16)); (95637438535501584, (-17))];
  [(60160603383061473, (-17)); (10276008074504128, (-17)); (15671630087846389, (-17)); (37002207385318076, (-17)); (3382840371054836, (-16)); (22866802743757297, (-18)); (41282373609108569, (-17)); (54549366164935975, (-17)); (18755703586567074, (-17)); (79162583194310543, (-17)); (30020581846227801, (-17)); (47926956251046848, (-17)); (59303495422879426, (-17)); (75141793640220611, (-17)); (83805504251413909, (-17)); (56035216466614357, (-18)); (55847603190859618, (-17)); (93744009920792326, (-17)); (83132482221348825, (-17)); (37023190922015392, (-17)); (49631558407063525, (-17)); (10343263100302832, (-17)); (39779571203869668, (-17)); (4036226336822864, (-16)); (25503757838586497, (-18)); (56879358181878992, (-17)); (78252567472994206, (-17)); (13704355981647992, (-17))];
  [(12501144521001262, (-18)); (10329240711297871, (-17)); (38565574918224665, (-17)); (53398383184738152, (-17)); (72577170767778565, (-17)); (91493125551555521, (-17)); (68788841977226745, (-17)); (46236284572146491, (-17)); (64793435834622737, (-17)); (63305514931571483, (-17)); (49497441049262625, (-17)); (20868770826981564, (-17)); (65035293021281837, (-17)); (12524097778045162, (-17)); (73966549782793711, (-17)); (47903595135500165, (-17)); (96074367809708938, (-17)); (94567739529584538, (-17)); (46017393153570807, (-17)); (6970254134740963, (-16)); (66380588300379051, (-17)); (94952961193016172, (-17)); (68331381932101065, (-17)); (67329696389009142, (-17)); (79396095882148832, (-17)); (10298704025610255, (-16)); (12008527170248207, (-16)); (15987208426366266, (-16))];
  [(28112437517899391, (-17)); (10820696210856284, (-17)); (49380943308879666, (-17)); (13541489082919578, (-17)); (17225057405230604, (-17)); (4871422983497633, (-16)); (71810511280186562, (-18)); (32914687918748464, (-17)); (64043279955980215, (-17)); (7933151119995091, (-16)); (29232974896847286, (-17)); (51208737936456461, (-17)); (8835562670094288, (-16)); (12601099298037544, (-17)); (6510267614219527, (-16)); (33975847464231568, (-17)); (62511039369061927, (-17)); (5863788872543062, (-16)); (62583488739555526, (-17)); (95355710390610471, (-18)); (37128119789942315, (-17)); (76338586812995435, (-17)); ((-71833951903264096), (-19)); (16532364276318251, (-17)); (29834683350701202, (-17)); (16676313797216946, (-17)); (35581271648933288, (-17)); (82838396977375206, (-17))];
  [(33561767168741352, (-17)); (51571625029049883, (-17)); (91584740225545491, (-17)); (24019684677871722, (-17)); (27062651590483533, (-17)); (66151538515579067, (-17)); (88169717444460416, (-17)); (90907491574948862, (-17)); (44622379011992663, (-17)); (82847062416413964, (-17)); (40041386515855382, (-17)); (27381063555329677, (-17)); (5307993638186026, (-17)); (68150506133048461, (-17)); (32197312007083845, (-17)); (97834781642730362, (-17)); (7045950653916988, (-17)); (39651896824827826, (-17)); (79983248797490014, (-17)); (18526126529480569, (-17)); (21373632081558536, (-17)); (40443118441175224, (-17)); (11105032573876847, (-16)); (1199434091261506, (-15)); (11173926387391073, (-16)); (69998599630742397, (-17)); (68757467243916792, (-17)); (34458651151539721, (-17))];
  [(23945967171877436, (-17)); (39750864711316458, (-17)); (91327897322733498, (-17)); (21442172128581227, (-17)); (63190818595825726, (-17)); (21684752752795378, (-17)); (59924985391535834, (-17)); (47294116930926078, (-17)); (24158130195643068, (-17)); (24098953842389259, (-17)); (19243350627489642, (-17)); (30561193085724703, (-17)); (92411345679729651, (-17)); (31398030904013496, (-18)); (59044751284705654, (-17)); (62627341037022266, (-17)); (39990448792721545, (-17)); (5462515309779038, (-16)); (65607580778674324, (-17)); (65454138394410732, (-17)); (69890067727549865, (-17)); (401617431219919, (-15)); (47340424093320105, (-17)); (61935639896623906, (-17)); (17640673333901621, (-17)); (58913704082897933, (-17)); (80835053600323981, (-17)); (52982808245354129, (-17))];
  [(61171208505820551, (-17)); (58483857047541865, (-17)); (81052901719917081, (-18)); (2088757315469465, (-16)); (96762179417109817, (-17)); (68480062300684297, (-17)); (17703767512973734, (-17)); (93803921529273671, (-17)); (29936414249160004, (-17)); (81918269461364202, (-17)); (6348804142376544, (-16)); (36653224664182527, (-17)); (52161309447858395, (-17)); (12745607178287333, (-17)); (4130150164448475, (-16)); (89053823477444061, (-19)); (63464469326746753, (-17)); (57560172509457308, (-17)); (48692349734278051, (-17)); (34288104444962036, (-17)); (12772047573463368, (-16)); (65860835130782713, (-17)); ((-51410822378868973), (-18)); (24576639201940381, (-17)); (24215348140898388, (-17)); (27298848326163783, (-17)); (12932077219675699, (-16)); (73347198719786943, (-17))];
  [(88853725219913415, (-18)); (57342136131474963, (-17)); (13201423575841664, (-17)); (77042133704111371, (-17)); (57068421206472786, (-17)); (87320908615589787, (-17)); (30424356474990966, (-17)); (51898471835769255, (-17)); (38276583900531924, (-17)); (86480775001314902, (-17)); (60508912237787593, (-17)); (86075975312571928, (-17)); (64586680384092654, (-17)); (35523397272107349, (-17)); (75268199338640374, (-18)); (9508702936124761, (-16)); (12986536458548215, (-17)); (79028970676984012, (-17)); (96792748311539478, (-17)); (95816768676765829, (-17)); (76617931577142584, (-17)); (11022864804113117, (-16)); (55056937470088019, (-17)); (77493739479986323, (-17)); (66551430165810666, (-17)); (71969001800236065, (-17)); (554808475065934, (-15)); (83623434220978776, (-17))];
  [(1170211977203951, (-16)); (43552674275488468, (-17)); (73031512267077381, (-17)); (18132747706872099, (-17)); (65447196628647841, (-17)); (62927768248450533, (-17)); (77852190790979436, (-17)); (40397355375883659, (-17)); (73601430801613077, (-17)); (23052315760033726, (-17)); (11633955184434541, (-17)); (82381280715012584, (-17)); (9024997554678944, (-16)); (13977742841087448, (-17)); (70726879213086769, (-17)); (70110810282034919, (-17)); (58853067129708792, (-17)); (52539844919685252, (-17)); (48558507885288871, (-17)); (84409134900134752, (-17)); (87423242911771726, (-17)); (11309232703459664, (-16)); (67348728466507968, (-17)); (74365863270382926, (-17)); (95077918499897618, (-17)); (54817175293151665, (-17)); (81619070538093319, (-17)); (10946642099713981, (-16))];
  [(82209142464867524, (-17)); (55851389782490624, (-17)); (47909619803022263, (-17)); (54042839100422846, (-17)); (97705458884058838, (-17)); (53683993284599529, (-17)); (55762862128506452, (-18)); (75184127990711513, (-17)); (52775627290068627, (-17)); (21692785482927512, (-17)); (41390991589891535, (-17)); (12790044137466383, (-17)); (20447454540020149, (-17)); (50745081748641341, (-17)); (66630294043661409, (-17)); (28893081481878458, (-17)); (64345422052657919, (-18)); (57744748181714822, (-17)); (65129708368477135, (-17)); (43671411051544451, (-17)); (57319290825524383, (-17)); (40325702277264103, (-17)); (71628508890237919, (-17)); (11563798126830718, (-16)); (72914617263053416, (-17)); (29804277577724103, (-17)); (10198591565446864, (-16)); (62445343396015218, (-17))];
  [(41153054685036927, (-17)); (21149859673780103, (-17)); (43409127904378475, (-17)); (85186316071129087, (-17)); (66196751850967184, (-17)); (62244079849684242, (-17)); (57395561527660055, (-17)); (51014091922094806, (-17)); (73025802317360389, (-17)); (30107072140441171, (-17)); (6644277362476867, (-16)); (25692347916500469, (-17)); (70055636083125916, (-17)); (57426116249617709, (-17)); (31827089826587251, (-17)); (5367579522301531, (-16)); (31478598868219143, (-17)); (10764710724339699, (-17)); (53713967164519583, (-17)); (10087302201794235, (-16)); (76832655891437895, (-17)); (10293296493382065, (-16)); (89892494571371362, (-17)); (68378983551440897, (-17)); (88426209902667274, (-17)); (58596977040479881, (-17)); (46069429185948324, (-17)); (63098636655141616, (-17))];
  [(12487867556675547, (-17)); (74812032453280852, (-17)); (91116846975824317, (-17)); (48076699964994862, (-17)); (23432104189741021, (-17)); (52195632246403645, (-17)); (63198775906209037, (-17)); (10758430358599158, (-17)); (37014573078480817, (-17)); (23673863451290744, (-17)); (68966062380517046, (-17)); (1135568799211214, (-16)); (75963147952648868, (-17)); (7630521540890145, (-16)); (92264263241117228, (-17)); (45561722845526242, (-17)); (19889736142312786, (-17)); (14116615672994504, (-17)); (51917496975115374, (-17)); (69130865708199907, (-17)); (62712579018827386, (-17)); (10098212740660397, (-16)); (87079568841957655, (-17)); (69416251849847554, (-17)); (12089100806016742, (-16)); (43652489617884127, (-17)); (21882124083746052, (-17)); (43415311525943612, (-17))];
  [(56448472460621679, (-18)); (23014405915033231, (-18)); (32488571415445033, (-18)); (89356106911089883, (-17)); (15198822301965631, (-17)); (23403179043516298, (-17)); (82000256760889179, (-18)); (27482645096309599, (-18)); (12598033302142297, (-17)); (14263500924731132, (-17)); (20947352604551273, (-18)); (23152507586712656, (-17)); (26224926985847985, (-17)); (43812789966365562, (-17)); (75595303950916914, (-17)); (81516758613981743, (-17)); (19340884532724667, (-17)); (8228869196954447, (-17)); (22209788227509542, (-17)); (22825877170389039, (-17)); (42211366058388163, (-18)); (86973491441691947, (-18)); (80954060171462905, (-17)); (15310579375069683, (-17)); (30298954630459746, (-17)); (12570886158101621, (-17)); (26799193354364519, (-18)); (59316633212662354, (-18))];
  [(35774137893834512, (-17)); (72806092105291154, (-17)); (43075014486291929, (-17)); (20621442337877738, (-17)); (22642284175209337, (-17)); (52847768943715379, (-17)); (5510398596011834, (-17)); (35286009834011578, (-17)); (92870439762413459, (-17)); (22086076672857413, (-17)); (9529119115933895, (-16)); (71256500228858721, (-17)); (15860876320361794, (-17)); (18585833494138326, (-17)); (22619110265469444, (-17)); (14745541394471284, (-17)); (54923070802566709, (-17)); (38411771181988197, (-17)); (2980164948175329, (-16)); (47193143180784441, (-17)); (82392954911561156, (-17)); (95830563855264916, (-17)); (10917993166245099, (-17)); (20717361237221751, (-17)); (33186271680015011, (-17)); (28012652825844581, (-17)); (54615660186557458, (-17)); (73300968937947264, (-17))];
  [(19092666984394402, (-17)); (4809401815692792, (-16)); (28596231889917445, (-18)); (83132384727034481, (-17)); (67154742887048768, (-17)); (75591511281545587, (-17)); (99362065402323585, (-17)); (13179669654704096, (-17)); (60250712035673393, (-17)); (27372233709477278, (-17)); (63162510467488164, (-17)); (7059835741310877, (-16)); (73130577523295404, (-17)); (41079552199355551, (-17)); (25211456934000287, (-17)); (96619042352659934, (-17)); (96310764169623231, (-17)); (71072776351529532, (-18)); (90567064771617134, (-18)); (1513299605862539, (-15)); (86817681523813284, (-17)); (10954096211390625, (-16)); (13166273862413176, (-16)); (5223529312370141, (-16)); (85892052791803286, (-17)); (53667379938858872, (-17)); (66943498556800662, (-17)); (32905699568356733, (-17))];
  [(12104776884071355, (-17)); (10430789251176764, (-17)); (13976278962596156, (-17)); (66966712301671072, (-17)); (21591295112699049, (-17)); (47402694007898261, (-17)); (4078907892477428, (-16)); (46146179591388958, (-17)); (91046501921763068, (-17)); (89110476136883499, (-17)); (66088696349440124, (-17)); (97168722605890057, (-17)); (50961686576180598, (-17)); (97928719632273731, (-17)); (19841498541290759, (-17)); (740095060139904, (-15)); (68004979406647514, (-18)); (50128407503665307, (-17)); (23642546067007864, (-17)); (91989366179410115, (-17)); (44252125830442623, (-17)); (94959365739872337, (-17)); (95128051825547832, (-17)); (58101284019479471, (-17)); (11584550076892457, (-16)); (30083679953664844, (-17)); (15234287801312321, (-17)); (34117062982278984, (-17))];
  [(92690389789912542, (-17)); (19891243517428858, (-17)); (46322133758813244, (-17)); (1885226518418881, (-17)); (56010081043000381, (-17)); (66117377249807197, (-17)); (2296143909866768, (-16)); (60875145417527665, (-17)); (33425662925410848, (-17)); (55473751319618803, (-17)); (19858500748674013, (-19)); (50253747236229784, (-17)); (18363332857259995, (-18)); (99111598715713001, (-17)); (53653829422848909, (-17)); (55258691487231837, (-18)); (3086551197074231, (-16)); (7788437947660618, (-16)); (34758429521841094, (-17)); ((-23149423738076727), (-17)); (19871068485358231, (-17)); (16743623074154171, (-17)); (55008421990798373, (-17)); (69285150444281429, (-17)); (92452632053366712, (-17)); ((-41699317651534729), (-18)); (64405206975100937, (-17)); (59290723678386725, (-17))];
  [(42560233602444919, (-17)); (87755261928561057, (-17)); (86468290023566718, (-17)); (63464422885248395, (-17)); (39594860089722361, (-17)); (60452498356907336, (-17)); (68122433226918166, (-17)); (34745264052398994, (-17)); (79804086442328914, (-17)); (27007400243910751, (-17)); (54912834591109394, (-17)); (38311664253829325, (-17)); (59927564064314798, (-17)); (48836479519574705, (-17)); (98871988152554413, (-17)); (26466811760982201, (-18)); (12363981987072181, (-17)); (2398185750663121, (-16)); (11970472201585591, (-17)); (91728629808924755, (-17)); (78714634181627552, (-17)); (11592482143629179, (-16)); (79350577526350563, (-17)); (61961676630431328, (-17)); (85480519561576929, (-17)); (27264556233397436, (-17)); (19458472396375331, (-17)); (30289989901603021, (-17))];
  [(19326997167156745, (-17)); (74712915874083974, (-17)); (23494726644102604, (-17)); (67796647750650085, (-17)); (91568621298774877, (-17)); (41555565688109086, (-17)); (32656157572392708, (-19)); (51430699171539629, (-17)); (19523049044141194, (-17)); (80911251822214814, (-17)); (41299522935519373, (-17)); (65876465344908919, (-17)); (36633035912510958, (-17)); (87132334560488744, (-18)); (69788454529758648, (-17)); (87343967201415729, (-17)); (57729219214960825, (-17)); (58286028458308448, (-17)); (34699749860955431, (-17)); (47500292960155971, (-17)); (73515978827013773, (-17)); (33960524889990085, (-17)); (28614936910994687, (-17)); (61558136523342077, (-17)); (29234289431610883, (-17)); (55256414820647037, (-17)); (91187709722679355, (-17)); (40301658157725984, (-17))];
  [(97471623064929958, (-18)); (12646384569160052, (-17)); (54176130625598673, (-18)); (47677637667590222, (-17)); (22022748820058546, (-17)); (29367932962959842, (-17)); (32840694817150939, (-17)); (39310316585249949, (-17)); (72458624650854719, (-17)); (70014616999845469, (-17)); (53832142040024533, (-17)); (63760911991683478, (-17)); (18649117297104634, (-17)); (86819206764991441, (-17)); (37831415708886462, (-17)); (98561094097131885, (-17)); (24210435141837716, (-17)); (12250634228699109, (-17)); (81582009095450092, (-17)); (45918183093450932, (-17)); (25719024852763894, (-17)); (38024059407604649, (-17)); (76928609695371064, (-17)); (6274962790234635, (-16)); (98617492068144808, (-17)); (39731609187293532, (-17)); (38912045783119509, (-17)); (67021258284166674, (-17))];
  [(25547968065533355, (-17)); (64203855832817835, (-17)); (97578044645576067, (-17)); (35943633859834234, (-18)); (26867854722615514, (-17)); (63867906479540126, (-17)); (53756049675854689, (-17)); (95516858369824065, (-17)); (12639808713322953, (-17)); (55458900999244798, (-17)); (98145869251453466, (-17)); (59684619619907886, (-17)); (55713573034080144, (-17)); (75583666329062615, (-17)); (21548418780803857, (-17)); (89407855139575265, (-17)); (3827885031687186, (-16)); (31800408683912362, (-17)); (6671682723691883, (-16)); (46917284471460818, (-17)); (11412422613300914, (-16)); (12320317592885051, (-16)); (63668034973164067, (-17)); (1349841023266501, (-15)); (10004766523815347, (-16)); (41596017790726236, (-17)); (86546536600308244, (-17)); (53986121586096569, (-17))];
  [(25295027243722779, (-17)); (43055744468960133, (-17)); (33006033981488125, (-17)); (21925024033877938, (-17)); (482957386710544, (-15)); (46341914413191765, (-17)); (50325848703571485, (-17)); (94581629342598439, (-17)); (96156187833064977, (-17)); (68683583982826701, (-18)); (1181456019451077, (-17)); (37963947680168386, (-17)); (63001872765600153, (-17)); (42630715315694045, (-17)); (65401763885090813, (-17)); (35533368511903107, (-17)); (80235866372357934, (-17)); (52212243270860925, (-17)); (78761598890584272, (-17)); (39667079562072727, (-17)); (77304785554766031, (-17)); (77698589999562839, (-17)); (42452138776172665, (-17)); (82911971449194644, (-17)); (78316397699669227, (-17)); (71606745863865084, (-17)); (13523214712311422, (-16)); (12766262743703347, (-16))];
  [(86415272580043967, (-17)); (11456780021555546, (-17)); (79479832797828087, (-17)); (76459995570160821, (-17)); (88273927066085778, (-17)); (13768252704514339, (-17)); (26759407984546013, (-18)); (38863640530214927, (-17)); (94426928445919966, (-17)); (41193729560365433, (-17)); (42269942335455357, (-17)); (97661223625445492, (-18)); (60298626048362114, (-18)); (6402145756822808, (-17)); (99291927466606678, (-17)); (77842330775864443, (-17)); (99038010701526269, (-17)); (42257237670179226, (-17)); (44735062152111382, (-17)); (5003718181841228, (-16)); (29172584615346703, (-17)); (36933964507201267, (-17)); (44325917592376896, (-17)); (1089493678770491, (-15)); (59449730532956124, (-17)); (12492695207343201, (-16)); (95029938618536181, (-17)); (11171603850826823, (-16))];
  [(29966545362471875, (-17)); (54204065386070854, (-17)); (21899009875268072, (-17)); (31941509053417227, (-17)); (20746755185114263, (-18)); (35070504432729266, (-17)); (76146013729633033, (-18)); (65882752604181871, (-17)); (65370607820449778, (-17)); (84544741336444029, (-17)); (26236177670982708, (-17)); (30240645905973151, (-17)); (45318912749166607, (-17)); (59652502640880822, (-17)); (49351649255916352, (-17)); (13895768563380961, (-17)); (57824391973640754, (-18)); (21868873163589808, (-17)); (47781502512032725, (-17)); (14564284212966028, (-17)); (27849710925515059, (-17)); (42402054659443955, (-17)); (26565713780716343, (-17)); (12193911514289647, (-17)); (36799052390896592, (-17)); (59002830885862778, (-18)); (25079987175128693, (-17)); (35096981820755579, (-17))];
  [(98686979223630744, (-17)); (18992345109645392, (-17)); (75891347670515941, (-17)); (48311183725045193, (-17)); (3146791039400858, (-16)); (96160161871765959, (-17)); (75183618650073003, (-17)); (48514434785506466, (-17)); (65422959199071451, (-17)); (27786594900513162, (-18)); (58846525124806226, (-17)); (64971898190612065, (-17)); (88570322228583021, (-17)); (7522160954262801, (-16)); (74706583653186809, (-17)); (90383395844553371, (-17)); (67790227290525917, (-17)); (6481055614469553, (-16)); (65352832806181083, (-17)); (15502683193873987, (-16)); (74750464238668601, (-17)); (16524270094761238, (-16)); (17719781424558232, (-16)); (81892794796073121, (-17)); (18844084320833858, (-16)); (14644049824203407, (-16)); (65212885946728738, (-17)); (15692526499770092, (-16))];
  [(48734685598420857, (-17)); (27434364353592822, (-17)); (95105234246578341, (-17)); (9855576043330061, (-16)); (91837313860160485, (-17)); (30801989728300549, (-17)); (77404531711782032, (-17)); (1222072680745836, (-16)); (69626892912514105, (-17)); (17003676959679226, (-17)); (3836206943922319, (-16)); (88475776003689288, (-17)); (99607914698314348, (-17)); (59093100010577448, (-17)); (8267728422982924, (-16)); (20012211257817814, (-17)); (69988933768996908, (-17)); (16863408971352223, (-17)); (93228871199668084, (-17)); (18056889587707827, (-16)); (10448168748982447, (-16)); (11993197684826606, (-16)); (12721898295854179, (-16)); (98602449217607924, (-17)); (84197367455347494, (-17)); (13244222362642839, (-16)); (55674735340678927, (-17)); (13656901160759243, (-16))];
  [(74339985772751038, (-17)); (50503817368822901, (-17)); (72832940303333749, (-17)); (71426219589254536, (-17)); (35473599578920101, (-17)); (18520634923787516, (-17)); (94185469936850519, (-17)); (20966396966197498, (-17)); (50694243995631871, (-17)); (89274466836587285, (-17)); (40605446057621009, (-17)); (91010983847628368, (-17)); (24830285147330289, (-17)); (22569793985289499, (-17)); (62750517992228982, (-17)); (36359135635132001, (-17)); (97887753321269577, (-17)); (36337855543423336, (-17)); (37191899505763137, (-17)); (52994051319517488, (-17)); (13742660994258632, (-17)); ((-40544662654923236), (-18)); (49109388504546841, (-17)); (10290522544407954, (-17)); (36954582280618126, (-18)); (13037040927144694, (-16)); (59645026805724, (-14)); (61304702328910166, (-17))];
  [(73295437320120349, (-17)); (99598805961865056, (-17)); (320422374698349, (-15)); (78802893180051481, (-17)); (61548068599352845, (-17)); (29155994408411678, (-17)); (37977376298649523, (-17)); (35300129997582497, (-17)); (79144439625953689, (-17)); (93737844981962426, (-17)); (32017720469815036, (-17)); (7255007217599786, (-16)); (97429626179728157, (-17)); (12992674261894888, (-17)); (17338427995966599, (-17)); (57191962170730404, (-17)); (93373725146291797, (-17)); (1137928812474811, (-16)); (48699575116229221, (-17)); (62207807283574934, (-17)); (37340513948653126, (-17)); (84490062250809883, (-17)); (33453421801216815, (-17)); (26691441748952915, (-17)); (49296015780655428, (-17)); (11689620300871266, (-16)); (11356911467605335, (-16)); (77219925505154041, (-17))];
  [(17387869432837466, (-17)); (45816053057492201, (-17)); (19869187817489586, (-17)); (42323399544672835, (-17)); (49763101940467591, (-17)); (65795806492086495, (-18)); (84357135047996379, (-17)); (42528659004861868, (-17)); (23291120046847502, (-17)); (80172641818768897, (-17)); (8685188108337063, (-16)); (1586219414074056, (-16)); (4628665782058361, (-16)); (63176882592038286, (-17)); (33941375936355511, (-17)); (95212107039507887, (-18)); (17847643020299353, (-17)); (48848529243075878, (-17)); (68421660207675083, (-17)); (78649169766588212, (-17)); (78683019139098953, (-17)); (25349549892431805, (-17)); (4063462755223079, (-16)); (47342860402118681, (-17)); (10641746477123172, (-17)); (73579714715756239, (-17)); (4199174460971562, (-16)); (14507295110007395, (-17))];
  [(43404840841105985, (-17)); (90866059071601035, (-17)); (30882514280473194, (-17)); (63651163332144267, (-17)); (78530270671317703, (-17)); (46012118701560567, (-17)); (60848278527303634, (-17)); (37058213054945577, (-17)); (77362397629562074, (-17)); (42005592701848993, (-17)); (21207478532649415, (-17)); (52435354316968952, (-17)); (81861448019916605, (-17)); (40200065526093354, (-17)); (55587400779852247, (-17)); (51576432637312308, (-17)); (77500044160278359, (-17)); (29205061508139407, (-17)); (33715464525813754, (-18)); (84913744884917297, (-17)); (72890683156027214, (-17)); (88714805905175997, (-17)); (8021686816024155, (-16)); (84599697440653521, (-17)); (75132164757985254, (-17)); (64686892143192953, (-17)); (10048720342650332, (-16)); (47595423386154873, (-17))];
  [(6935376891725602, (-16)); (5790333290815094, (-16)); (67033684758749801, (-17)); (79109755747312294, (-17)); (83970962287329032, (-17)); (61541959046496886, (-17)); (27904797732371112, (-17)); (30800423625688689, (-17)); (77028144323015624, (-17)); (72989788826964153, (-17)); (52068281477354095, (-17)); (21827075625767911, (-18)); (71210906567423948, (-17)); (13703847524079538, (-17)); (7148905295826169, (-17)); (18357812698834031, (-17)); (15960617439090785, (-17)); (14104921408163418, (-17)); (89229053526653435, (-17)); (74526349924937896, (-17)); (7407866021669085, (-16)); (10225593042547076, (-16)); (2034307716302666, (-16)); (20954266025669241, (-17)); (26693465542005301, (-17)); (43360617394902795, (-17)); (46687643734958101, (-17)); (83418861227214292, (-17))];
  [(24285941667706301, (-17)); (28016994187600808, (-17)); (52282243041829513, (-17)); (42754232028912009, (-17)); (87396692380991092, (-17)); (29036266002689393, (-17)); (37838204355785943, (-17)); (56815504044235354, (-17)); (93740948272160363, (-17)); (20054714120639128, (-17)); (6244914184629754, (-16)); (39140203483994729, (-17)); (5991632797573947, (-16)); (83343157368056453, (-17)); (57819147035131202, (-17)); (23854354174905779, (-18)); (7658419737428811, (-16)); (26288873774699995, (-17)); (97655758379760138, (-17)); (57357517404237779, (-17)); (93396988189895125, (-17)); (98834401964873886, (-17)); (49263299677414707, (-17)); (85039795188488154, (-17)); (60187436813661743, (-17)); (71442703871460367, (-17)); (11089130261088123, (-16)); (13995300596574158, (-16))];
  [(67967250629886666, (-17)); (38972423826139579, (-17)); (55933319018666017, (-17)); (23478769825272761, (-17)); (89525516362698121, (-18)); (55407546351517201, (-17)); (10966395577832222, (-17)); (5291746167763044, (-16)); (77535151610203645, (-17)); (66777163165822884, (-17)); (51727066499479124, (-17)); (60410754648945042, (-17)); (49141923324510517, (-17)); (6188589552577366, (-16)); (14611299082189311, (-17)); (9642269631155338, (-16)); (15388486412365143, (-17)); (61618773411451222, (-17)); (28118384354494552, (-17)); (26226910471599651, (-17)); (3436900058948108, (-16)); (839266217028242, (-15)); (4914308456608536, (-16)); (70894064860054828, (-17)); (12447054901116292, (-16)); ((-1040801217659771), (-17)); (9902667340294595, (-17)); (39305658056760434, (-17))];
  [(50898331430993782, (-17)); (99365794768008364, (-17)); (65011190107084615, (-17)); (79177462937876419, (-17)); (86418859191699482, (-17)); (73944462840127334, (-17)); (57283421015378133, (-17)); (52114526932932392, (-18)); (94678216975846907, (-17)); (61529058529156166, (-17)); (61581427816386014, (-17)); (84500524115634013, (-17)); (2149365904470919, (-16)); (56917000859985301, (-17)); (6279328750623584, (-16)); (36438688181159362, (-18)); (46060940964439134, (-17)); (60202903688386844, (-17)); (64276810808792983, (-17)); (9586168561411984, (-16)); (92974250737921615, (-17)); (98641915097284794, (-17)); (73908333272807913, (-17)); (8306357010747405, (-16)); (72312860130866785, (-17)); (9825359301777099, (-16)); (7165709973866381, (-16)); (11873017086836775, (-16))];
  [(71637403423265966, (-17)); (19188469224485483, (-17)); (54049616264489841, (-17)); (27829649874691376, (-17)); (90944864798344027, (-17)); (49980090809534228, (-17)); (48852818062033165, (-17)); (55323969040664744, (-17)); (87497810975090595, (-17)); (48855940763129035, (-17)); (70919028724000932, (-17)); (31276803879585735, (-17)); (67073073344569867, (-17)); (86113324103776812, (-18)); (16403564758563838, (-17)); (81672473663028544, (-17)); (89858347027841157, (-17)); (81994151981391605, (-17)); (61253909142512819, (-17)); (84061044307687838, (-17)); (10169583224555396, (-16)); (11503991660706996, (-16)); (4498690978386371, (-16)); (62014885278982523, (-17)); (80669625541694878, (-17)); (91082773070444945, (-17)); (14593073658176905, (-16)); (13294703023602099, (-16))];
  [(50240582213510387, (-17)); (48104631148315613, (-17)); (6368432789159284, (-16)); (31596272697056194, (-17)); (88417827566911533, (-17)); (68190888231947955, (-17)); (28998850221615657, (-17)); (35931076148478902, (-18)); (86005511254660938, (-20)); (47369575310829803, (-17)); (99585595859536435, (-17)); (74892303921058667, (-17)); (10965995635742376, (-17)); (12097833003913983, (-17)); (16691605134386789, (-17)); (82966111150414856, (-17)); (34561617984543791, (-17)); (93869542682706186, (-17)); (50220715889549594, (-17)); (65950329134040564, (-17)); (12568370211098634, (-16)); (11111391126411232, (-16)); (32079417555430961, (-17)); (2250988298894131, (-16)); (15970431571503921, (-17)); (39876773187821341, (-17)); (83799156506194639, (-17)); (60072848957221248, (-17))];
  [(97716102174079311, (-17)); (65899329725652267, (-18)); (10778743477080077, (-19)); (4071010648853568, (-16)); (99429206824240279, (-18)); (36073139153068612, (-17)); (12598123557646457, (-17)); (68549057150751425, (-17)); (41773717754884765, (-17)); (50481428295593445, (-17)); (17886390930178697, (-17)); (67590527729288219, (-17)); (13867763269435085, (-17)); (14891240987767884, (-17)); (1205717688919572, (-17)); (38593443613285694, (-17)); (62632795516660866, (-17)); (20127249369597799, (-17)); (34865803475189883, (-17)); (12707254434525453, (-17)); (15125977433359178, (-17)); (30236000886223385, (-17)); (203899165992105, (-15)); (28096956233360781, (-17)); (19114037788751961, (-17)); (67952213073114465, (-17)); (31634827695584378, (-17)); (31895509384331344, (-17))];
  [(97835739476509409, (-17)); (15131330199396098, (-17)); (19756260176356766, (-17)); (85761396686146674, (-17)); (98208717331158879, (-17)); (59392053298326963, (-17)); (63269079145252383, (-17)); (19482077817988108, (-17)); (5014262146458166, (-16)); (63450457076618916, (-17)); (99222508472665283, (-17)); (6366897407976928, (-16)); (96347107179265812, (-17)); (54533293020601348, (-17)); (76618240741659482, (-17)); (41548012491489072, (-17)); (67968088225652457, (-17)); (36771563308555966, (-17)); (85869767507135153, (-18)); (19663201990579382, (-16)); (13327279661149369, (-16)); (12202889041307992, (-16)); (10546408516909502, (-16)); (10021516296022421, (-16)); (76384679632739505, (-17)); (97612851727318339, (-17)); (75309833646839341, (-17)); (52331556641229549, (-17))];
  [(74497153270645522, (-17)); (30929348805402201, (-17)); (55426436149001335, (-17)); (26669389957416856, (-18)); (97585348399615024, (-17)); (7119694560377765, (-16)); (62747951180173511, (-17)); (62896737504553646, (-17)); (70048579981628856, (-17)); (4063990789909746, (-16)); (47080825804737758, (-17)); (46716988839747509, (-18)); (33061907228901344, (-17)); (21427761973931381, (-17)); (62343240641239006, (-17)); (27972876542802516, (-17)); (34691933788572771, (-17)); (59555221056689167, (-17)); (40547277814381388, (-18)); (52197809014726892, (-17)); (55948841251318671, (-17)); (62411425865306813, (-17)); (15608939329634647, (-17)); (80207881263183034, (-17)); (63646243958230242, (-17)); (10569965565889745, (-17)); (71891071814320218, (-17)); (56165655525779568, (-17))];
  [(84581209521135947, (-17)); (18633525131426576, (-18)); (56215340737569364, (-17)); (22962752083809213, (-17)); (37946826715488835, (-17)); (25367655188877947, (-17)); (96678270296570823, (-17)); (27798725451141371, (-17)); (59594267886356311, (-17)); (29570378919203277, (-17)); (62868079734012339, (-17)); (61671967086066759, (-17)); (80917959692826125, (-17)); (97612756863749361, (-17)); (40219082663094929, (-18)); (78633533072924311, (-17)); (82600966229612516, (-17)); (34549970008780051, (-17)); (66236813356641111, (-18)); (13164963092712607, (-16)); (52618790132396054, (-17)); (91540230855976046, (-17)); (16142420888386917, (-16)); (35831371226155895, (-17)); (10688587964823841, (-16)); (77836976452261375, (-17)); (24801799735573721, (-17)); (57196795169223635, (-17))];
  [(65527738808325064, (-17)); (10338783082402903, (-17)); (17421182202061192, (-17)); (51935113775093, (-14)); (15001882280302259, (-17)); (85003325051716638, (-17)); (46773894889570167, (-17)); (98900296285457756, (-17)); (22495827822815528, (-17)); (57487429093501596, (-17)); (46697400377608966, (-17)); (81647194657905509, (-17)); (71042706428787861, (-17)); (2043675029900085, (-16)); (53630788726995415, (-17)); (2605001073156652, (-16)); (23040182134424025, (-17)); (1512470350403019, (-16)); (13292585588567929, (-17)); (78594596785130588, (-17)); (83812424494014959, (-17)); (94905318746360201, (-17)); (33462628789744253, (-17)); (32941363773644355, (-17)); (51473874808185105, (-17)); (26598194710502543, (-17)); (1807900614336293, (-16)); (26365139255071279, (-17))];
  [(66833435497572369, (-17)); (33700081458344355, (-17)); (82723334414224214, (-17)); (57901632144635917, (-17)); (2567746774939802, (-16)); (93909589455104892, (-17)); (28757039421325592, (-17)); (3359549331309426, (-16)); (78657308471139009, (-17)); (25389659073374848, (-17)); (64327205144665722, (-18)); (98990661378649847, (-17)); (91204493525765962, (-17)); (33073359380308787, (-17)); (14388494655213735, (-17)); (69052947293326317, (-17)); (14780847519514906, (-17)); (39846996461879491, (-17)); (16449640579897207, (-17)); (70186700067551588, (-17)); (49377963415952675, (-17)); (14782005960962183, (-16)); (5171174529466479, (-16)); (38478419145494636, (-17)); (9868811234230519, (-16)); (32085204401296069, (-17)); (17831862796351683, (-17)); (56201559871880646, (-17))];
  [(70446441263336657, (-18)); (14710016825337668, (-17)); (13585001578164357, (-17)); (14665437635726497, (-17)); (41756364739056717, (-17)); (77340166281149236, (-17)); (91429443180900094, (-17)); (25829912744056616, (-17)); (2748759269901625, (-16)); (14267167849197404, (-17)); (36419372416782836, (-17)); (66355611263907921, (-17)); (68737612728638953, (-17)); (93200427652560613, (-17)); (17177849158474934, (-17)); (1040557465048737, (-16)); (43538471442738036, (-17)); (18546416285206058, (-17)); (23754910644515503, (-17)); (75113205757689983, (-17)); (51258325922330195, (-17)); (77312977052260512, (-17)); (20277697753612078, (-17)); (2853248162391509, (-16)); (38460575847599343, (-17)); (28169341290367739, (-17)); (22338018743066015, (-17)); (31011965780311945, (-17))];
  [(24029099433431733, (-17)); (49739227331225455, (-17)); (70630958678649347, (-17)); (60025421483362573, (-17)); (35929334375544408, (-17)); (99044370781012225, (-17)); (56535376568841655, (-17)); (80724893938631659, (-17)); (84683956131293625, (-17)); (69960308169698349, (-17)); (74891624930994183, (-17)); (8911012400879661, (-16)); (58267099222838459, (-19)); (39000761707571185, (-17)); (22611120072726476, (-18)); (36452136241065747, (-17)); (36347164945450761, (-17)); (58035433642856005, (-17)); (36240845274322586, (-17)); (70180860473115603, (-17)); (4225301550394423, (-16)); (11572639927027106, (-16)); (43541326881549169, (-17)); (53188201178166516, (-17)); (77503194190343971, (-17)); (58893127980468984, (-17)); (48862656414306621, (-17)); (91096620271120909, (-17))];
  [(24121223322750607, (-17)); (75859611044435704, (-17)); (78766337841206846, (-17)); (21675585186106527, (-17)); (23296678682974303, (-17)); (19411860926233726, (-17)); (24434218025698184, (-17)); (60545537640899605, (-17)); (69119495696382094, (-18)); (44069971566309984, (-18)); (60389113583045884, (-17)); (70733189909788385, (-18)); (95192575690598558, (-17)); (98469522665659059, (-17)); (15030228832146075, (-17)); (36916045172806977, (-17)); (29639208847497756, (-17)); (2218254230111586, (-16)); (55023673129577344, (-18)); (39845215211107204, (-17)); (10543098383410694, (-16)); (55742500452841137, (-17)); (36784461221758757, (-17)); (10098355863438164, (-16)); (83272513534811454, (-17)); (13337691935959214, (-17)); (30519425161574071, (-17)); (27488954310855823, (-17))];
  [(95500876012271407, (-17)); (24100724474078927, (-17)); (64360032547050816, (-17)); (33735495882244637, (-17)); (66438217209413897, (-17)); (85325431014772302, (-17)); (61948081720084791, (-17)); (84053581876942207, (-17)); (1023814813351307, (-16)); (69570332527291201, (-17)); (22642395578781704, (-17)); (18729133407736365, (-17)); (87389109236095575, (-17)); (15941198328592499, (-17)); (38352724434877927, (-17)); (5998589381291185, (-16)); (4320706826380023, (-16)); (91176325235139277, (-17)); (62557238483448452, (-17)); (69016103094350312, (-17)); (93942516751693472, (-17)); (37056623166565006, (-17)); (38749205405947273, (-17)); (73792389073518339, (-17)); (32033703523598261, (-17)); (4757139452915411, (-16)); (11138770036947068, (-16)); (73485714749757525, (-17))];
  [(42604192695774845, (-17)); (8740398834096319, (-17)); (1085918384943545, (-16)); (481787970829328, (-15)); (55643616666573825, (-17)); (88549911193572728, (-17)); (38014658327960038, (-17)); (85586616736125476, (-17)); (97084414511346429, (-17)); (9922224085131548, (-19)); (2586514864296483, (-16)); (75198630309237469, (-17)); (50084356860549817, (-17)); (53196312358611852, (-17)); (70088376735047198, (-17)); (72750684357728901, (-17)); (56251658132824678, (-17)); (70815625085576228, (-17)); (28921468152940899, (-17)); (66269383159762374, (-17)); (86977198403603206, (-17)); (11803575784377101, (-16)); (84083294207330872, (-17)); (10593739722188698, (-16)); (13850861036838458, (-16)); (69075004665592454, (-17)); (69098794102276551, (-17)); (96935641438347853, (-17))];
  [(14323825619980657, (-17)); (39703479193169422, (-17)); (2307323092656004, (-16)); (69835612659251045, (-17)); (40086300117235707, (-17)); (92289773120208263, (-17)); (75340760673593532, (-17)); (29551034232381124, (-17)); (20036599270269184, (-17)); (41043191523682776, (-17)); (33595305402777909, (-17)); (17941962608749895, (-17)); (36766316825929524, (-17)); (76279658947065887, (-17)); (78221567719869434, (-19)); (14970299463421022, (-17)); (59096815092156041, (-17)); (4807702686588089, (-17)); (31388478578395462, (-17)); (51937582600294907, (-17)); (32221594237534429, (-17)); (40377224797631289, (-17)); (43008825002601536, (-17)); (44558554658386607, (-17)); (47817249042842497, (-17)); (5068129149224414, (-16)); (41248303638346695, (-17)); (44180061748411648, (-17))];
  [(3487970912386128, (-16)); (73734162138014969, (-17)); (93754947725262661, (-17)); (67762743927913216, (-17)); (2408981559890947, (-16)); (48386846846506937, (-17)); (77738402729556755, (-17)); (66364816332852472, (-17)); (31800440481235026, (-17)); (69286720091852649, (-17)); (31084654552401392, (-18)); (69339640866115093, (-17)); (52518259048486715, (-17)); (85732255720991968, (-18)); (71046175214525575, (-17)); (62387051349907718, (-17)); (95861311168382957, (-17)); (84790032291689621, (-17)); (18478908318588128, (-17)); (63710357340476664, (-17)); (17290491795089188, (-17)); (419460246543156, (-16)); (75723648902660279, (-17)); (27293638489621924, (-17)); (12577378132947853, (-17)); (10690049794525174, (-16)); (57180381149147397, (-17)); (8544540717283593, (-16))];
  [(55787436895293641, (-17)); (17670781594334195, (-17)); (7496775667931358, (-16)); (56352655026853449, (-17)); (15800616148835256, (-17)); (57096931243594495, (-17)); (77976156268462282, (-17)); (92999426784626049, (-17)); (93734220224041664, (-17)); (39136971553604183, (-18)); (37271250616183194, (-17)); (64299857720571907, (-17)); (35028460091169389, (-17)); (50377227924275492, (-17)); (65473361972688471, (-17)); (98904170626924826, (-17)); (6071318329034382, (-16)); (38236222155509669, (-17)); (91831676530094575, (-17)); (83715794131976473, (-17)); (49095189063745304, (-17)); (96385378238742359, (-17)); (14175366215770555, (-16)); (11107157930589551, (-16)); (16700440229370275, (-16)); (12748588331434059, (-16)); (10227112422728462, (-16)); (15360793818055933, (-16))];
  [(72380372118402736, (-17)); (38376987768555204, (-17)); (73582723261257776, (-17)); (71227489245487607, (-17)); (65825034218356304, (-17)); (97964866994051192, (-17)); (37723963709137909, (-17)); (65418101230373449, (-17)); (62905300350568294, (-18)); (83045525244655238, (-17)); (38438603925455306, (-17)); (60588313173863373, (-17)); (2982071892307494, (-16)); (99021490203228668, (-17)); (10340129345232385, (-17)); (21023734657534709, (-17)); (69966471624174065, (-17)); (97931144848857732, (-17)); (76102396756735158, (-17)); (46964105018565561, (-17)); (57874432517722563, (-17)); (55878970989486554, (-17)); (10778788266045336, (-16)); (89167583324944721, (-17)); (12330102224006352, (-16)); (94382527995599119, (-17)); (11763449758179771, (-16)); (10163179780160669, (-16))];
  [(34617820931216603, (-17)); (92660460168107117, (-17)); (149786191931503, (-15)); (71836479438635026, (-18)); (38382336024335606, (-17)); (38968702798633725, (-17)); (5119592810620861, (-16)); (97893672615193905, (-17)); (19446817377253167, (-17)); (80831060990367554, (-17)); (2016469139017053, (-16)); (56257392352374369, (-18)); (40109159358784274, (-17)); (24448214547094993, (-17)); (31740347916354017, (-17)); (93438186375168442, (-17)); (479152656733703, (-15)); (73845829930684515, (-17)); (10468655700042695, (-17)); (25274231233246863, (-17)); (55488923626857967, (-17)); (16473340267864411, (-17)); (4858182006360624, (-16)); (10105046755554965, (-16)); (32694944939624393, (-17)); (44841108916621804, (-18)); (24311468654899132, (-17)); (32373455469462775, (-17))];
  [(4863078662862288, (-16)); (15063531461175006, (-17)); (46119026135906982, (-17)); (29995127211077821, (-17)); (50667454704924797, (-17)); (20479756205381328, (-17)); (63593511741224085, (-17)); (58934654731223901, (-17)); (47246703148400093, (-17)); (21077134186193724, (-18)); (95794677423716501, (-17)); (49088526475322181, (-17)); (1843926196952711, (-16)); (72062032866352366, (-17)); (86896952462524379, (-18)); (80089475957135281, (-17)); (77569412872293952, (-17)); (72613242515375598, (-18)); (37699067362950212, (-17)); (73124888535013943, (-17)); (51027450839146382, (-17)); (62869018745565042, (-17)); (88940654112228201, (-17)); (63196925418643546, (-17)); (73072369525152259, (-17)); (64281900832596905, (-17)); (3838349265380957, (-16)); (55328877602940241, (-17))];
  [(98190366372534066, (-17)); (77489956255886072, (-17)); (84503726965477122, (-17)); (31297787846225888, (-17)); (78261341595861023, (-17)); (61023442679143913, (-17)); (77812620923978992, (-17)); (5522162082932649, (-16)); (86471071329666727, (-17)); (80231485685088821, (-17)); (62221066590873264, (-17)); (24156499622590988, (-17)); (53134907795103414, (-17)); (22326169624009851, (-17)); (2751343965996017, (-16)); (98862540931666809, (-17)); (83758529434738715, (-19)); (16536824791399263, (-17)); (8037104229269717, (-16)); (86011904621111945, (-17)); (97545404611188724, (-17)); (10535927177172442, (-16)); (83750057618226015, (-17)); (78817952137765335, (-17)); (10334951263358656, (-16)); (55221950256981001, (-17)); (45086701112598909, (-17)); (67324044148241324, (-17))];
  [(17121742770479764, (-17)); (19400690095977668, (-18)); (23701337231224362, (-18)); (16866521097861376, (-17)); (65607873426529084, (-17)); (60346294177530557, (-17)); (95026942007446813, (-17)); (83712409076904326, (-17)); (92773541045369712, (-17)); (70916183268980992, (-17)); (99036494530960495, (-17)); (80167266905718604, (-17)); (83114805003538361, (-17)); (12213943002439276, (-19)); (5726753258138505, (-16)); (43098297673076469, (-17)); (87552609901073952, (-17)); (82175340452212453, (-17)); (12931169040102986, (-17)); (10405086119630464, (-16)); (15225036211118537, (-16)); (15328578582252677, (-16)); (41929477206707305, (-17)); (63922801370066518, (-17)); (65377103164521155, (-17)); (34637119253247817, (-17)); (89396984206851948, (-17)); (84343163486150541, (-17))];
  [(39222351735887451, (-17)); (59761827084238339, (-17)); (89749699365410607, (-17)); (55654898204838521, (-17)); (8641106754462301, (-16)); (13812683622692179, (-17)); (86304742610558871, (-18)); (93474767866991226, (-17)); (2798341956990088, (-16)); (10875550434245762, (-17)); (43191295749493908, (-17)); (70736658345452674, (-17)); (92863169608877638, (-17)); (91141244991058401, (-17)); (6608501088644041, (-16)); (38302594168976367, (-17)); (90400422089814481, (-17)); (84172378947550441, (-17)); (38155487930749976, (-17)); (63588603062842364, (-17)); (1726887799972441, (-15)); (67990934879747922, (-17)); (78096793867229097, (-17)); (15097812363824024, (-16)); (96037011313827625, (-17)); (86987504073886857, (-17)); (1646949084123001, (-15)); (96045382703941662, (-17))];
  [(80230812805795371, (-17)); (41957416329444841, (-17)); (85521676738609476, (-17)); (69371219462641909, (-18)); (86402696592827444, (-17)); (71799990918611778, (-17)); (82896274357907784, (-17)); (60962202146687916, (-17)); (87607172120551602, (-17)); (82166007441060251, (-17)); (88068080344346222, (-17)); (95871236738720145, (-17)); (4677084800239022, (-16)); (2566095004033776, (-16)); (11584614308969554, (-17)); (1206843476384829, (-16)); (90743189212464703, (-17)); (28204104575363553, (-17)); (29491384951121413, (-17)); (39567100961565466, (-17)); (13635327350642596, (-16)); (12540771519373144, (-16)); (19069569581722168, (-17)); (34182398422687266, (-17)); (37419360312665945, (-17)); (63399090452531048, (-17)); (10925074346814185, (-16)); (12252441851744598, (-16))];
  [(1535329968165241, (-16)); (14886739293528028, (-17)); (42915920446723743, (-17)); (92373710798870667, (-17)); (54359922828286711, (-17)); (27340200955147553, (-17)); (99575529853393263, (-17)); (95723643032431749, (-18)); (49589359182981907, (-17)); (82813610237655944, (-17)); (10678200410913186, (-17)); (61420758463780079, (-17)); (34045407921766668, (-17)); (65833532813851658, (-17)); (77150741972530135, (-17)); (94040796826805029, (-17)); (11309601218168286, (-17)); (49960153248897865, (-17)); (65725021657858651, (-20)); (73697248908534763, (-17)); (24453099553365987, (-17)); (14070403497629425, (-17)); (18474434905660075, (-16)); (61893280019987373, (-17)); (68872817782010187, (-17)); (34494073995006835, (-17)); (18560674517195466, (-17)); ((-9651534198350473), (-18))];
  [(9751217674299969, (-16)); (82172484963790327, (-17)); (11473609843949106, (-17)); (84397221363009789, (-17)); (28042192920098252, (-17)); (27533671374431701, (-17)); (84981297145037604, (-17)); (38167938749847408, (-17)); (49232338447840074, (-17)); (11076562279393554, (-17)); (9130702376234181, (-16)); (25768947605894099, (-17)); (314118061008135, (-15)); (61974898295863368, (-17)); (3115468454685717, (-16)); (74712417400795939, (-17)); (3374698001588875, (-16)); (29388110733184702, (-18)); (60724882000699287, (-17)); (14253959849820861, (-16)); (94230220566042, (-14)); (35380587226302307, (-17)); (15211048583194891, (-16)); (86904538625986605, (-17)); (53866420121340886, (-17)); (8960717108226961, (-16)); (52336419858853933, (-17)); (35538585880284784, (-17))];
  [(70158445000431957, (-17)); (65120489891776767, (-17)); (72672379294154499, (-17)); (41499350923880762, (-17)); (84975579795144407, (-17)); (97326452897002735, (-17)); (79289191724044217, (-17)); (7426788210912505, (-17)); (62049611677349559, (-17)); (92206515723185867, (-17)); (57320239619086222, (-17)); (8686266289902056, (-17)); (2805571160213759, (-16)); (6889513732899557, (-16)); (68904984385660073, (-17)); (99459872630826007, (-19)); (6041012352578079, (-16)); (95109027142545899, (-17)); (90291691354467585, (-17)); (6281895680592311, (-16)); (63401153678001787, (-17)); (87108116755599385, (-17)); (31529278598264671, (-17)); (73451243647886066, (-17)); (84913745973865995, (-17)); (87850225659307934, (-17)); (70854918816862256, (-17)); (13025027553120987, (-16))];
  [(57434117181528521, (-17)); (23196927526630395, (-17)); (38661280190293079, (-17)); (94902932944640017, (-17)); (97202104008959977, (-17)); (30951175157617139, (-18)); (69272362181688385, (-17)); (89104634092118884, (-18)); (79064117638535358, (-17)); (17421889581577732, (-17)); (69276009275310058, (-17)); (21547320277519599, (-19)); (528017090004962, (-15)); (24527541351534776, (-17)); (80080544102945006, (-17)); (47576489327508209, (-17)); (72690115897171859, (-17)); (51648415454314756, (-17)); (48228879707336259, (-17)); (87338856902457573, (-17)); (32401380354111625, (-17)); (68488559746952715, (-17)); (11774201888787628, (-16)); (87417083685015617, (-17)); (44161103652849332, (-17)); (1296159966296119, (-15)); (80518162338639065, (-17)); (64312397136063404, (-17))];
  [(67050285760321826, (-17)); (62937113243854736, (-17)); (96097823983828257, (-17)); (84886766754102594, (-17)); (12043498369517025, (-17)); (98548464111497591, (-17)); (17188335281163636, (-17)); (18878150054084075, (-17)); (60273498757382837, (-17)); (49747172687880792, (-17)); (48838258912038857, (-17)); (13919026844826587, (-17)); (17365761485583997, (-17)); (75389242276481638, (-17)); (16271279090827695, (-17)); (93537261442934305, (-17)); (58428163361570618, (-17)); (12025103526471181, (-17)); (43587278138099139, (-17)); (57475227043674737, (-17)); (30389668399704456, (-17)); (80349771167217532, (-17)); (97970006579977242, (-17)); (60522847939193536, (-17)); (16212808610007294, (-16)); (70710838787654728, (-17)); (41563374501577444, (-17)); (107991312059818, (-14))];
  [(26772528428015374, (-17)); (49283708339322474, (-17)); (97131914600587344, (-17)); (77483719619166169, (-17)); (4824274372930244, (-16)); (82689938751107905, (-17)); (68980326901268396, (-17)); (65118910930777429, (-17)); (63500341708446273, (-17)); (32193072917894539, (-17)); (540547818182045, (-15)); (16787227119505921, (-17)); (54891385936959292, (-17)); (83990623047979729, (-17)); (10970740791438127, (-17)); (11161182840673911, (-17)); (88395434769517023, (-17)); (6092892133583605, (-17)); (78964839152909028, (-17)); (75761671790643947, (-17)); (74332038337358119, (-17)); (10681475329496999, (-16)); (56755677944870087, (-17)); (6266545258638001, (-16)); (11168647214615188, (-16)); (10255325249941356, (-16)); (10807843532246568, (-16)); (15762593840196903, (-16))];
  [(81549704337320372, (-17)); (48895990140591128, (-17)); (64864343668333047, (-17)); (77383855926863321, (-17)); (71614829810260416, (-17)); (15440821495713086, (-17)); (31354438915799054, (-17)); (89053449711192145, (-17)); (51284627937536686, (-17)); (81873747843119205, (-17)); (18449875892048362, (-17)); (86905496368474533, (-17)); (10978458759252996, (-17)); (2659340655308815, (-16)); (61092224805193962, (-17)); (18534867934387067, (-17)); (14133990634239901, (-17)); (24418386662343861, (-17)); (16673423878813232, (-17)); (18333019655124366, (-17)); (3707343041888454, (-16)); ((-16113396465443899), (-17)); (315680956451864, (-15)); (47370561336053507, (-17)); (1793421041373483, (-17)); (19455731497630896, (-17)); (30188348071551746, (-17)); (74165701977607829, (-18))];
  [(61575657738414968, (-17)); (89102949159924705, (-17)); (20009755930906192, (-17)); (53553318210094525, (-17)); (7069093694230284, (-16)); (77238468000803484, (-17)); (1750311094960646, (-16)); (51352639207856521, (-17)); (70946490936200202, (-18)); (92487145065253018, (-18)); (21859641932074714, (-17)); (73729513856357809, (-17)); (45090515038327317, (-17)); (56362082986014306, (-17)); (67949346482238382, (-17)); (9212472941165103, (-16)); (2193778303782814, (-16)); (85696265445497799, (-17)); (29789805041306294, (-17)); (57499065432599183, (-17)); (89806685874779646, (-17)); (64455345339393277, (-17)); (85838757603441018, (-17)); (14323092059984466, (-16)); (7278918394867363, (-16)); (60573413033752044, (-17)); (89462291765141355, (-17)); (72373242582697728, (-17))];
  [(54765250814727306, (-17)); (60396019771496767, (-17)); (51859580091644275, (-17)); (75804625840035267, (-17)); (19194702770354188, (-17)); (41288406524320886, (-17)); (35537337397747404, (-17)); (46818741174467349, (-17)); (64142424710969947, (-17)); (16776745412849503, (-17)); (28934131955046571, (-17)); (45369116224433303, (-17)); (59482560932776929, (-17)); (9031311094174671, (-16)); (93335807899102763, (-17)); (94649847557196631, (-18)); (25427833417177748, (-17)); (33250522100691315, (-17)); (45519086259995045, (-17)); (70184486177502992, (-17)); (50016801329881111, (-17)); (69483244562239888, (-17)); (1247853259713402, (-15)); (69356834389256961, (-17)); (88389352777218699, (-17)); (54935881918453255, (-17)); (4020765650436684, (-16)); (54608269642821239, (-17))];
  [(26048246934129049, (-17)); (19695518502288067, (-17)); (58030869445462985, (-17)); (90206549899516897, (-17)); (64468018003745187, (-17)); (99041248964192374, (-17)); (17813906531443247, (-17)); (3625091080945817, (-16)); (7559491632660319, (-16)); (97902152167924061, (-17)); (20040912909742359, (-17)); (34187496095698622, (-17)); (66234037388693268, (-17)); (62298682899016022, (-17)); (11986340309639298, (-18)); (20534901212611378, (-17)); (20997482409823953, (-17)); (14871237046061136, (-17)); (89998798172959138, (-17)); (39527336969980376, (-17)); (43641547987827589, (-17)); (75453132605215834, (-17)); (5969569840170218, (-16)); (47857008672195001, (-17)); (86984573984281044, (-17)); (39071851162603222, (-17)); (49084291442800643, (-17)); (93145318180150039, (-17))];
  [(89828011300814792, (-17)); (92749455961963645, (-17)); (33972506417125614, (-17)); (24501670728161462, (-17)); (51679163049534049, (-17)); (18285619061497949, (-18)); (35277507262389152, (-17)); (19636801046181462, (-17)); (69328075848449822, (-17)); (89983769595979934, (-17)); (15550010970119732, (-17)); (27311887647340927, (-17)); (75183978475405322, (-17)); (47519636207427562, (-17)); (34844496140774128, (-17)); (81161188948944307, (-18)); (96151748853360919, (-17)); (74270160931829887, (-17)); (15773864881167332, (-17)); (23136854388466735, (-17)); (18960010826902429, (-17)); (48674094094522258, (-17)); (19314785842712479, (-17)); (3411405502890153, (-16)); (74690623571585291, (-18)); (36777435231054056, (-17)); (67373943795213842, (-17)); (13704371496514361, (-17))];
  [(89874187615826462, (-17)); (19078608490930471, (-17)); (58577891555447625, (-17)); (85004872184056124, (-17)); (64714771142399952, (-17)); (45803403837095913, (-18)); (76435294893749717, (-17)); (22842386093769584, (-17)); (99185473213426922, (-17)); (85939890173749522, (-17)); (36913207471093257, (-17)); (80707214358199164, (-18)); (85891419441190575, (-17)); (66593508740644236, (-17)); (56418635445085963, (-17)); (4566698870052871, (-16)); (23203342814489603, (-17)); (27922029323200759, (-17)); (3564087821784655, (-16)); (11006367875492762, (-16)); (44555580464815703, (-17)); (97250345794980986, (-17)); (10976382673412903, (-16)); (67054246434976161, (-17)); (49728473155222286, (-17)); (522859297781882, (-15)); (30167892041821881, (-17)); (33475765983876293, (-17))];
  [(15415703015654647, (-17)); (40260708233821119, (-17)); (2353900826776254, (-16)); (75317815907599728, (-17)); (83746350949977988, (-17)); (39256160869494061, (-17)); (55623095002072387, (-17)); (90301230061442628, (-17)); (49750123724928286, (-17)); (16685555024501597, (-17)); (27703825372927371, (-18)); (46304127239736004, (-17)); (62010214346136183, (-17)); (32597374223882924, (-17)); (69102346198885156, (-17)); (6289366594938145, (-16)); (26880293873653838, (-17)); (34560192258240086, (-17)); (97878242939902937, (-17)); (68465080907598663, (-17)); (92624491997616998, (-17)); (47788399183551311, (-17)); (93570662250159509, (-17)); (12671570698073835, (-16)); (65030168698580126, (-17)); (86675228851787356, (-17)); (1290259162671896, (-15)); (68714039565957163, (-17))];
  [(24654335502338653, (-17)); (27542774578599527, (-17)); (56238963958042321, (-17)); (48974790756611597, (-18)); (89871971606597445, (-17)); (90421601466497004, (-17)); (65255875326216206, (-17)); (4186013217769462, (-16)); (65746182172116063, (-17)); (66219252656915073, (-17)); (57826205693885002, (-17)); (79797358913661576, (-17)); (30956419105265087, (-17)); (20221641945682267, (-17)); (62340411201849588, (-17)); (99721917488830181, (-17)); (37456462332642193, (-17)); (43620174017932656, (-17)); (38651437930574906, (-17)); (24171479077931557, (-17)); (10051721114444767, (-16)); (10746024422859795, (-16)); (62572982616506623, (-17)); (90938175862947546, (-17)); (10867354554973412, (-16)); (28705631955356364, (-17)); (68543016746583629, (-17)); (7887155190786006, (-16))];
  [(69431375898942915, (-17)); (69926041242535597, (-17)); (58571564317993496, (-17)); (75895435623435559, (-17)); (45291034626454418, (-17)); (75879633250823209, (-17)); (13648694404092543, (-17)); (44344909550843437, (-17)); (67585075359857794, (-17)); (17302459537076309, (-17)); (91734996551160364, (-17)); (16242448430192513, (-18)); (57478334052131208, (-18)); (70865218606051483, (-17)); (21506938651401208, (-17)); (7424279966448819, (-16)); (67108307419706437, (-17)); (10131447527211068, (-18)); (48519654191907646, (-17)); (76532933536172409, (-17)); (73419800318746686, (-17)); (69847229054650961, (-17)); (81368934715183616, (-17)); (94268029597868774, (-17)); (11422872396179427, (-16)); (61925752864854544, (-17)); (73304264000199093, (-17)); (80933439440079291, (-17))];
  [(65957642003533712, (-17)); (60257541600505826, (-17)); (52638784547657635, (-17)); (78635993146855565, (-17)); (53691591963268048, (-17)); (37907763150920681, (-17)); (37986096548883863, (-17)); (25562060897297711, (-17)); (51561723924662084, (-17)); (85577965023058922, (-18)); (43150326039872955, (-17)); (80900581934098792, (-17)); (58636035477232507, (-18)); (96108305964160867, (-17)); (32376410983474535, (-17)); (95637619823376629, (-17)); (99817024487803963, (-17)); (45152994127751012, (-17)); (75452905292780892, (-17)); (92307686391210664, (-17)); (68496415882211581, (-17)); (53967651116244264, (-17)); (12948859187986612, (-16)); (10221039938500041, (-16)); (11360309900485412, (-16)); (13379764058717973, (-16)); (10562437361461579, (-16)); (10951150431309733, (-16))];
  [(33474227474462759, (-17)); (5248858272411443, (-16)); (58818716492047873, (-17)); (4508086795201004, (-16)); (59871886636111038, (-17)); (15660371713829235, (-17)); (20730896428356571, (-17)); (92243854078546483, (-17)); (23828929832473045, (-17)); (762886824922544, (-16)); (78228478113451905, (-17)); (7627724173054139, (-16)); (32130825541828123, (-17)); (79133212160430155, (-17)); (244596068189743, (-15)); (92195607393012502, (-17)); (9227783148417712, (-17)); (87893471495721398, (-17)); (68017701194440194, (-17)); (67799436191409412, (-17)); (11663435740715566, (-16)); (62960443763411666, (-17)); (58614551213992172, (-17)); (14369416610281207, (-16)); (72046317833922702, (-17)); (54763204386623776, (-17)); (11694699700163644, (-16)); (31514181461766477, (-17))];
  [(32788320208323374, (-17)); (34715257589789439, (-18)); (72686318614480605, (-17)); (64935021450005515, (-18)); (77002640930107114, (-17)); (60432503881320043, (-17)); (71335859277723679, (-17)); (55835156967401089, (-17)); (94174262604578651, (-17)); (33577645284844493, (-17)); (36163205308734425, (-17)); (27950947710830831, (-17)); (95598397864269369, (-17)); (32724437483745916, (-17)); (28591922281453275, (-17)); (226020739215678, (-15)); (21249922457733439, (-17)); (801566434102436, (-15)); (54611967813275164, (-17)); (78858692509203299, (-17)); (83739637834184633, (-17)); (13130172104176825, (-16)); (25618060505078805, (-17)); (42455483595805898, (-17)); (59725503090693732, (-17)); (42245289980079681, (-17)); (93939743669553788, (-17)); (96782771910187038, (-17))];
  [(68258089822520385, (-17)); (72931348223237069, (-17)); (82656250747326743, (-17)); (89661226024250595, (-17)); (63939095071353569, (-17)); (51169069417785595, (-17)); (90385730474907311, (-17)); (53723988546809265, (-18)); (59285498284728622, (-18)); (28854637683549134, (-17)); (79332211344965231, (-17)); (75469074133730274, (-17)); (23435812372378984, (-17)); (37491961759538872, (-17)); (51970151291570488, (-17)); (22444281821427803, (-17)); (24027330808259473, (-17)); (35093112178967367, (-17)); (12749189536353012, (-17)); (14354572666191094, (-16)); (10175627508880196, (-16)); (95072393771303743, (-17)); (88961693023891897, (-17)); (55310219838904207, (-17)); (49767565571008282, (-17)); (56724145993527042, (-17)); (36083208232182251, (-17)); (32253769776290608, (-17))];
  [(10368708591962805, (-17)); (97634331798197616, (-17)); (92262943819324938, (-17)); (88137490584889733, (-19)); (7450159351675455, (-16)); (44722024590108789, (-17)); (24312278836485768, (-17)); (78353031862154554, (-17)); (16879226177418527, (-17)); (52040408905970714, (-17)); (32913458462012291, (-17)); (40110618947044119, (-17)); (16803969206915648, (-17)); (11180694499194488, (-17)); (80150213768237122, (-17)); (19949708800142296, (-17)); (84325722452010232, (-17)); (39988716204850105, (-17)); (15134040587545805, (-17)); (54293567721895822, (-18)); (59694474799832564, (-17)); (33664745567722831, (-17)); (23857012751117117, (-18)); (4214201978675578, (-16)); (9133574529574659, (-17)); (98791135259644558, (-18)); (12096281387664272, (-16)); (85979143160472427, (-17))];
  [(71358858678127901, (-17)); (4256723308453173, (-16)); (20607458498675568, (-17)); (29450459663067441, (-17)); (5822046340931688, (-16)); (35982555245278824, (-17)); (67803751397330858, (-17)); (62167609257192158, (-17)); (9731413997203614, (-16)); (15218305534973597, (-17)); (21682038599472164, (-17)); (7827904889903966, (-16)); (21145853251313107, (-17)); (40976986959589834, (-17)); (83854496612260343, (-17)); (97484614342682552, (-17)); (91752489608541177, (-17)); (65076951402744909, (-17)); (24086448315562359, (-17)); (44918004967292013, (-17)); (64178627522611775, (-17)); (51572913678374122, (-17)); (11216939112857733, (-16)); (12430673352056174, (-16)); (13265289547129977, (-16)); (97048799220691984, (-17)); (94927922882951665, (-17)); (68246485978221438, (-17))];
  [(1906925270326667, (-16)); (1347533919136471, (-16)); (7798536277649345, (-16)); (87127262504586211, (-17)); (99601344318188012, (-17)); (23227388118780312, (-17)); (52609479390370528, (-18)); (9005214972385357, (-16)); (46207222915374135, (-17)); (57176183130793157, (-17)); (23756223912581198, (-17)); (14765291043208562, (-17)); (56529393063404387, (-17)); (72834488418659693, (-17)); (67753540009851898, (-17)); (43428298330186199, (-17)); (2724523986009304, (-16)); (57019088778618499, (-18)); (38029470283554812, (-17)); (27278549185241158, (-17)); (77692310972004641, (-17)); (41339547363701484, (-17)); (90954576854826408, (-17)); (13842619113056021, (-16)); (61630450295734673, (-17)); (22804227897725984, (-17)); (56377959426334767, (-17)); (37572229029888349, (-17))];
  [(83720797266160729, (-17)); (76160625907155666, (-18)); (55998808464398675, (-17)); (24103732189170413, (-17)); (52801043383359314, (-17)); (29448814624013897, (-17)); (52717452947456667, (-18)); (66958387543694264, (-17)); (95561365362698514, (-17)); (35494390054236469, (-17)); (23986873145053, (-14)); (61162426946669912, (-17)); (91456271519943844, (-18)); (87068975857310216, (-18)); (50012038412589388, (-18)); (16451859309526307, (-17)); (46701144878632006, (-17)); (76298558965447905, (-17)); (67754308540042119, (-17)); (17349282347901288, (-17)); (40900891787146504, (-17)); (28775336169266574, (-17)); (81069518538842589, (-18)); (15579141938940491, (-17)); (21592239335074589, (-17)); (39189862929667885, (-17)); (93027795464603713, (-17)); (10026796618739384, (-16))];
  [(49789932953576277, (-17)); (50052608918850128, (-17)); (44993376717789091, (-17)); (70140856577703969, (-17)); (76201397126120929, (-17)); (69477055957003597, (-17)); (87471639304975823, (-17)); (11635162757965833, (-19)); (19369970695190519, (-17)); (16225665889023322, (-17)); (86478873837572801, (-17)); (42696671535975239, (-17)); (12565632672646432, (-19)); (70054453439451148, (-17)); (54347646473777322, (-17)); (85353266522470728, (-17)); (42395232936515814, (-17)); (89980829118044303, (-17)); (11752099863249166, (-17)); (78521223576113897, (-17)); (82017849401939324, (-17)); (74300532426518351, (-17)); (15026749982627661, (-16)); (79801814787380732, (-17)); (88814411157869921, (-17)); (90961715409606259, (-17)); (86564120243086007, (-17)); (81013855548496772, (-17))];
  [(30748454338340159, (-17)); (81271058371341132, (-17)); (22603772155541957, (-17)); (45210211239088804, (-17)); (43871204590852997, (-17)); (91899397268055116, (-17)); (71544939236055527, (-17)); (83552478991229839, (-17)); (59353910050382852, (-17)); (96943224810229134, (-17)); (6037225408448309, (-16)); (55011214461590541, (-17)); (11328716299880603, (-17)); (60991458796989728, (-17)); (20825173831868315, (-17)); (30730976479700656, (-17)); (49461762080585425, (-17)); (53881463037417365, (-17)); (31907737162123695, (-17)); (41237230355266535, (-17)); (35853851536606884, (-17)); (7854224765922696, (-16)); (55380406265376458, (-17)); (66997515617157422, (-17)); (79203742986417713, (-17)); (49992607133530859, (-17)); (44561266692202922, (-17)); (80716938132688332, (-17))];
  [(2874598382558432, (-16)); (78212735621094054, (-17)); (46168549681735471, (-17)); (93420672020580997, (-17)); (71113749787768998, (-17)); (88692430738687023, (-17)); (81916553784824031, (-17)); (11872430687093516, (-17)); (97328973188066181, (-17)); (54414957519451079, (-17)); (17603212069069207, (-17)); (39049022684820511, (-17)); (90531238740691278, (-17)); (21847191606901961, (-17)); (18920862902895141, (-17)); (2820156569259713, (-18)); (9788039493595716, (-16)); (81794352698617978, (-17)); (34147221345740142, (-17)); (11240277682673125, (-16)); (36955791360541168, (-17)); (12344722435996545, (-16)); (2847740772075803, (-16)); (26546736293066869, (-17)); (28770709427571461, (-17)); (15258708977497266, (-16)); (12223394635458333, (-16)); (15935806014904108, (-16))];
  [(44748817229098048, (-17)); (4295734936611072, (-16)); (11154347793949837, (-17)); (57169655692396693, (-17)); (32947763273644459, (-18)); (76721706372741261, (-17)); (80555716897692076, (-17)); (49309619888189948, (-17)); (26488117145099799, (-17)); (77179140122184697, (-17)); (64268211691241017, (-17)); (81121345355450125, (-18)); (8736131343719914, (-16)); (5790828059064439, (-16)); (92714787214910055, (-17)); (9701000704724827, (-17)); (33410098543077871, (-17)); (62690530688527546, (-17)); (63703633098927914, (-17)); (11740172780843823, (-16)); (62101081184860107, (-17)); (66495344908266896, (-17)); (58525937198221334, (-17)); ((-16457362422134643), (-18)); (81949247922582957, (-17)); (81472737341055113, (-17)); (25163954347523065, (-17)); (6701412008165627, (-16))];
  [(95529506803291075, (-17)); (33011616054141291, (-17)); (27449718771356046, (-18)); (75184998190688412, (-17)); (43856226053922254, (-17)); (432838773329976, (-15)); (60153310549569883, (-17)); (62341419376300999, (-18)); (94595267619118029, (-17)); (27954408703969413, (-17)); (95041295465882125, (-17)); (25204029855058452, (-17)); (25412536206631464, (-17)); (38735318577680622, (-17)); (3212467870686877, (-16)); (66144311996070704, (-17)); (73360998978588166, (-17)); (24175805675004525, (-17)); (18377329469372461, (-17)); (13384140317178617, (-16)); (51570407453935896, (-17)); (4819211754369172, (-16)); (98138652872123688, (-17)); (31717246676764155, (-17)); (81339193380997954, (-17)); (10473280503782529, (-16)); (41289385134204898, (-17)); (37955907744020168, (-17))];
  [(466818346948072, (-15)); (96864867765279683, (-17)); (36275711052731419, (-18)); (57395473942708009, (-17)); (31642314581468978, (-17)); (15516125378633416, (-17)); (22488483905706036, (-17)); (75654037321284062, (-17)); (96956438734541228, (-17)); (44070637554096337, (-17)); (80823170122796484, (-17)); (15156399152248756, (-18)); (94381072219401074, (-17)); (15926782304571663, (-17)); (71505869679475664, (-17)); (85839979345984918, (-17)); (65291944786887945, (-17)); (25833135276626074, (-17)); (38844767189759599, (-17)); (75623008946117731, (-17)); (15292879890607352, (-16)); (99699106175013641, (-17)); (52808462996402461, (-17)); (71962209509953023, (-17)); (93732419180111326, (-17)); (6055470779699077, (-16)); (92121421349528354, (-17)); (47351834615372274, (-17))];
  [(80748474624826871, (-17)); (55792652299464174, (-17)); (95386066499920352, (-17)); (40634063054861269, (-17)); (35032014765851649, (-17)); (46153833227376173, (-17)); (8437621404737764, (-16)); (14422714519565527, (-17)); (54727547436185386, (-17)); (69533832960352249, (-17)); (44654856734553394, (-17)); (6641469984163646, (-16)); (56643930101313589, (-17)); (73440171935123688, (-17)); (47822899356557746, (-17)); (98278862707108305, (-17)); (92975741822231861, (-17)); (21191719029006817, (-17)); (39110093096390997, (-17)); (73469857240438463, (-17)); (31447518061518692, (-17)); (59860467647429194, (-17)); (13775765470174237, (-16)); (57888589954861025, (-17)); (11701271029763798, (-16)); (11049876109243031, (-16)); (64463579533083071, (-17)); (11155168086007263, (-16))];
  [(58815513703033961, (-17)); (46005116844200611, (-18)); (87685251143732157, (-18)); (24052897788733185, (-17)); (65944543407794887, (-17)); (7156352430693399, (-16)); (72759578845807427, (-17)); (47234229724234411, (-17)); (76547960127819581, (-17)); (97490913065247231, (-17)); (6698958409518132, (-16)); (62164040703394097, (-19)); (96232561967929731, (-17)); (85655312434764574, (-17)); (63598897921509023, (-17)); (80051869841895451, (-17)); (33282199972943116, (-17)); (7133152565009897, (-16)); (48621576620711016, (-17)); (1052487397971499, (-15)); (83953075214809902, (-17)); (11684304269189565, (-16)); (81198233364034855, (-17)); (10789031533399811, (-16)); (13715537897667573, (-16)); (27895017359265606, (-17)); (65674917467673632, (-17)); (82042909252519625, (-17))];
  [(50642231433313667, (-17)); (63952089212762375, (-17)); (35394370801611619, (-17)); (73005770335414799, (-17)); (20824614752426673, (-17)); (29488802443329909, (-17)); (23314636419623547, (-17)); (42353746252132318, (-17)); (44646522524966592, (-17)); (49609523851095583, (-17)); (37267941208508515, (-18)); (38948013134467807, (-17)); (17589054281175576, (-17)); (64307026803709721, (-17)); (73018490122758928, (-17)); (58612762425416909, (-17)); (71188584003375366, (-17)); (17581880268961081, (-17)); (69842080484135205, (-18)); (22673596385071113, (-17)); (51919656317553714, (-18)); (13075011554247457, (-17)); (93932763478406001, (-17)); (5851223216097321, (-16)); (61846897964495062, (-17)); (65122273708771106, (-17)); (47920738118632933, (-17)); (36867386343998609, (-17))];
  [(49721829181122534, (-17)); (381225935465487, (-15)); (53557664222865276, (-17)); (94659878754554672, (-17)); (73670204825097418, (-17)); (27297400613224165, (-17)); (5216014465335469, (-16)); (48400346596402843, (-17)); (68330970695360893, (-17)); (39430656635189631, (-18)); (39990172416249636, (-17)); (68344606751269887, (-17)); (50968015028052449, (-17)); (73438099385349298, (-17)); (69641109912959398, (-17)); (85872538872101911, (-17)); (38934276935183842, (-17)); (28620333396188213, (-17)); (4114486544463023, (-16)); (11125066952086355, (-16)); (90346882658526817, (-17)); (73857281229894389, (-17)); (14852393672314439, (-16)); (12188837442770009, (-16)); (11629407422131619, (-16)); (68767794390465298, (-17)); (56514331825830122, (-17)); (56572012120632653, (-17))];
  [(66833935065386574, (-17)); (37186620183934471, (-17)); (5034775000495213, (-16)); (27505924281976868, (-17)); (41126451926031593, (-18)); (80180274317590439, (-17)); (11767137473468969, (-17)); (60193524860229553, (-18)); (15951416254925854, (-17)); (30562133941408831, (-18)); (20731108033531243, (-17)); (4301899913549172, (-16)); (67805349773765367, (-17)); (64563019646675002, (-17)); (66891214607953287, (-17)); (57527876329905736, (-17)); (19428052442869481, (-17)); (46052931620939097, (-17)); (74694624186358505, (-17)); (32950624131493556, (-17)); (13092651172397551, (-17)); (5557141711450051, (-16)); (67466254134655324, (-17)); (29531147873844216, (-17)); (95828611851508705, (-17)); (33652025970481642, (-17)); (13111608522363399, (-17)); (58367477491098463, (-17))];
  [(65479826935922736, (-17)); (4632656362980192, (-16)); (17656338448831199, (-17)); (7124874268507333, (-16)); (34985470196804747, (-17)); (53296492997316303, (-17)); (50901269116345049, (-17)); (70761254513727456, (-17)); (56949331118874835, (-17)); (37822298015284217, (-17)); (69507228776229946, (-18)); (5410327419677341, (-16)); (5849507318785746, (-16)); (23973763244061042, (-17)); (24151929347745638, (-17)); (3209822748722061, (-16)); (17594758086572693, (-17)); (43192129118835287, (-17)); (15224528424847494, (-17)); (58574524020132523, (-17)); (53617297109984952, (-17)); (59090653263251613, (-17)); (4738624434829708, (-16)); (39852348901952039, (-17)); (37319331602735351, (-17)); (41240488609352804, (-17)); (27275182711207596, (-17)); (3359686767527913, (-16))];
  [(42006942683815107, (-17)); (14977213921643417, (-17)); (57559070970205406, (-18)); (63396102961714706, (-17)); (59141289666834684, (-17)); (69135901337240535, (-17)); (74264511554292567, (-17)); (41414711694942263, (-17)); (66351410988286608, (-17)); (73827608532359501, (-17)); (52114534226545772, (-17)); (10133182448649392, (-17)); (62308143902507063, (-17)); (79464267562873514, (-17)); (26520579225146879, (-17)); (41573796030638777, (-17)); (72942396226894668, (-17)); (41522274524732339, (-18)); (13863093363362289, (-17)); (86586671492771528, (-17)); (55731987015279205, (-17)); (72598624942668266, (-17)); (94406091748993359, (-17)); (66577053610177972, (-17)); (8047598463606539, (-16)); (64853275138592281, (-17)); (44252573317145083, (-17)); (48205756380982567, (-17))];
  [(41478884357122126, (-17)); (24782318791002134, (-17)); (34729302747474011, (-17)); (33247032470634263, (-17)); (96889873186163034, (-17)); (4970656346740786, (-16)); (45779193476799596, (-17)); (34587577095818089, (-17)); (57932732186150315, (-17)); (55882840821031599, (-17)); (73568629045901213, (-17)); (99372845856086633, (-18)); (34451077930019325, (-17)); (31097524698804024, (-17)); (7994331108117283, (-16)); (58187610644583398, (-17)); (36733152284324455, (-17)); (63220947309878905, (-17)); (48794684330218963, (-17)); (55228836660582015, (-17)); (72024603603046122, (-17)); (63368229612017679, (-17)); (48010713230227808, (-17)); (97804804831532355, (-17)); (70034161161611308, (-17)); (45649732488414974, (-17)); (87094924203958379, (-17)); (63768758053091368, (-17))];
  [(59229250378895937, (-17)); (99724229266640219, (-17)); (72240493478535828, (-17)); (500812131580055, (-15)); (39174166459129744, (-17)); (69890361903258014, (-17)); (14927140274299866, (-18)); (88388738901045671, (-17)); (48965021938603404, (-17)); (61633796422461806, (-18)); (16423718986782898, (-17)); (5359646064927216, (-16)); (71408141945910764, (-17)); (27351069928371552, (-18)); (64035875656725416, (-18)); (62848184381463945, (-17)); (25849898608803268, (-17)); (13771060304823657, (-17)); (8871927777421319, (-16)); (36117202465380727, (-17)); (97524318468998339, (-17)); (82516868558478373, (-17)); (56067105719538664, (-18)); (60449548076986148, (-17)); (37045529706173275, (-17)); (23784578707060205, (-17)); (10930982252407186, (-16)); (72186464757778679, (-17))];
  [(25892416621428949, (-17)); (4848901034710893, (-16)); (14318345022757617, (-17)); (65718572289239041, (-17)); (18195652459063105, (-17)); (47619682305447519, (-17)); (71152574080428077, (-18)); (32587303344214014, (-17)); (32216774365813983, (-17)); (99969721013302759, (-17)); (39151663660356895, (-17)); (44945388379093887, (-17)); (18670022512241691, (-17)); (14945898747728037, (-17)); (63275485219856176, (-17)); (89606093648832708, (-17)); (64967018371670726, (-17)); (52959096406663186, (-18)); (59856569521734371, (-17)); (34630998863606344, (-17)); (84251590958299372, (-18)); (30885703204999509, (-17)); (25425881426993807, (-17)); (1581656897752754, (-16)); (44678326678894742, (-17)); (49999617052537387, (-17)); (44839909515411425, (-17)); (51065102432838694, (-17))];
  [(25250642440592996, (-17)); (38875121594229423, (-17)); (60164883497760835, (-18)); (3774985099546222, (-16)); (90881188642001254, (-17)); (74315303048144177, (-17)); (30230946698283301, (-17)); (5539671016275135, (-16)); (99495414097437929, (-17)); (70026651432294473, (-18)); (16504314236519713, (-17)); (54856777477443808, (-17)); (67116759523642044, (-18)); (41916351497114257, (-18)); (83747352680082865, (-17)); (96267082310071694, (-17)); (84883473815380961, (-17)); (50990779430937594, (-17)); (67369294064020502, (-17)); (26310572641899904, (-17)); (59408050649862976, (-17)); (48962682902199711, (-17)); (60326378533117242, (-17)); (12886691429058392, (-16)); (15798287276923066, (-16)); (62290399746278935, (-17)); (12047617682757288, (-16)); (11412403972227554, (-16))];
  [(15439104024117312, (-17)); (50664731861088697, (-17)); (2776282145575889, (-16)); (32951719264280199, (-17)); (56472997725488105, (-17)); (56784968812792602, (-17)); (98320009984002432, (-17)); (6319519608299724, (-16)); (52728415068555012, (-17)); (24091320469423194, (-17)); (74695600162797438, (-17)); (96920813886096613, (-17)); (14197008584608206, (-17)); (29597434473851925, (-17)); (82863721202616214, (-17)); (43021599790785914, (-17)); (6400007823957472, (-16)); (40933555851969916, (-17)); (36905264489724954, (-17)); (58474867952730047, (-17)); (97225148148829543, (-17)); (84771628545079492, (-17)); (72527474053179608, (-17)); (81165466293001698, (-17)); (74880746911787854, (-17)); (62503526770326534, (-17)); (80935413175568183, (-17)); (65246996930372592, (-17))];
  [(46161181011342289, (-17)); (39645635934897094, (-17)); (30435026383240693, (-18)); (27115855794374388, (-17)); (22266537653090124, (-17)); (8581583851079434, (-16)); (18749620128552524, (-17)); (56358907365313016, (-18)); (37320771723467372, (-17)); (85868314354819286, (-17)); (63427159720963122, (-17)); (76791873796435706, (-17)); (328987530692882, (-15)); (23045694912871673, (-18)); (85717282578101062, (-17)); (77412853770996293, (-17)); (87111085865546722, (-17)); (43703823079692916, (-17)); (85582741010174057, (-17)); (2509211475171631, (-16)); (17103323752102023, (-17)); (96034348630634758, (-17)); (91818609081804614, (-19)); ((-79046658408673365), (-18)); (76525176453236066, (-17)); (52674781493360701, (-17)); (3531592555078189, (-16)); (11376093386258828, (-16))];
  [(73379147273543777, (-17)); (85248138149470221, (-17)); (62349000649994546, (-17)); (63761605671706023, (-17)); (8981693661998974, (-16)); (32225994661758683, (-17)); (38066251449244948, (-17)); (87551146878774222, (-17)); (23291125902400389, (-17)); (84606283096810531, (-17)); (52138937294176224, (-17)); (79421629963736551, (-17)); (81876402740220122, (-18)); (49761782555601963, (-17)); (76568652806151438, (-17)); (92808765594634501, (-17)); (27198031018192215, (-17)); (5998965155437519, (-18)); (36456970774611919, (-17)); (43308900942128942, (-17)); (68294861285559838, (-17)); (15931326364974338, (-17)); (73591227691260741, (-17)); (13956182938008919, (-16)); (34806691999418615, (-17)); (40015944090918132, (-17)); (65552516840092356, (-17)); (26143265152883832, (-17))];
  [(7813843326276666, (-16)); (5778650260442374, (-16)); (12462095679013052, (-17)); (69494094196462475, (-17)); (5761939313744312, (-16)); (95728358864476004, (-17)); (79709507543394253, (-17)); (6826102417377008, (-16)); (29729166329885204, (-18)); (13774975434077019, (-17)); (64612020033396755, (-17)); (96381158877061246, (-17)); (78568089520918805, (-17)); (30543232041695645, (-17)); (39018871091942464, (-18)); (59069059347829844, (-17)); (57837498364806339, (-18)); (68344316082893641, (-17)); (55083614956612637, (-17)); (17480394949197484, (-16)); (14308724044857759, (-16)); (10854551424331893, (-16)); (75905432406989926, (-17)); (6213773176296129, (-16)); (1317428155507766, (-16)); (88647649319096045, (-17)); (74952301890182271, (-17)); (66747434937637762, (-17))];
  [(89788756279746129, (-17)); (94482296150545453, (-17)); (37304433371811807, (-17)); (1019050079279753, (-16)); (55749002187577679, (-17)); (3141542779902351, (-17)); (11609253296458144, (-17)); (4743718149727183, (-17)); (98646904702313376, (-17)); (19314257462592865, (-17)); (22333075604852626, (-17)); (17324905391636169, (-17)); (6256775878897225, (-17)); (6718136180085581, (-16)); (91239000034252205, (-17)); (28607136459663163, (-17)); (23416188049917575, (-17)); (16658154796516378, (-17)); (44875526864727733, (-17)); (19589753102320559, (-17)); (29731994204727585, (-17)); (13776723009102315, (-17)); (57235157610210985, (-17)); (10421272113549156, (-16)); (49500759523253862, (-17)); (25096946326575731, (-17)); (32440302615768607, (-17)); (52303177662875022, (-17))];
  [(77828789128344034, (-17)); (37728792689121315, (-17)); (29539373683046599, (-17)); (66149595238467929, (-17)); (59624084281641132, (-17)); (31714598821999562, (-18)); (32853351003797282, (-17)); (32902828549486385, (-17)); (30734140892766826, (-18)); (92480970703464094, (-17)); (54350818911570242, (-17)); (8723075857665008, (-16)); (11930655726772443, (-17)); (974900725113795, (-15)); (81725365205033373, (-17)); (51184862649498142, (-17)); (45476997915245843, (-18)); (57077362319452674, (-17)); (17565948733549985, (-17)); (38617779805983404, (-17)); (4717625734672552, (-16)); ((-75021522092809836), (-18)); (9574129414532262, (-16)); (90111119255188832, (-17)); (36613877376002801, (-18)); ((-24390466880922598), (-18)); (12268953893847676, (-17)); ((-10909615789548827), (-17))];
  [(4430809976713822, (-16)); (52545630466353155, (-17)); (3191931081075392, (-16)); (69411399567229182, (-17)); (69537878154866017, (-17)); (49886023617056841, (-17)); (53700124529587923, (-17)); (80871253142004906, (-17)); (11442125576993356, (-17)); (39393443698991704, (-17)); (681211468556432, (-15)); (22910605187072286, (-17)); (93577952997639824, (-17)); (42619789779615813, (-17)); (47532739809887059, (-17)); (42065091169464885, (-18)); (28866417759463248, (-17)); (84174065557774114, (-17)); (55191452775728878, (-17)); (10705974116648518, (-16)); (13700306836620009, (-16)); (51576055540505517, (-17)); (53433589802257886, (-17)); (5639178686397478, (-16)); (37276443880315852, (-17)); (88775122975767429, (-17)); (10341794685127055, (-16)); (48812813766567487, (-17))];
  [(78641836309934099, (-17)); (86166714096938934, (-17)); (25740689859781973, (-17)); (33184635561958276, (-18)); (43474303995523, (-14)); (92023354225722698, (-17)); (83624067823142068, (-17)); (5051253638807589, (-16)); (58832455240493642, (-17)); (25558882321550713, (-17)); (44946989989710939, (-17)); (48918553110312635, (-17)); (77093881503900119, (-17)); (17312622530472321, (-17)); (70501430475063798, (-17)); (29913772116694759, (-17)); (16009824721804067, (-17)); (49491660868056464, (-17)); (67213641838437788, (-17)); (90889695690651107, (-17)); (91272981217760862, (-17)); (10737758782978526, (-16)); (26579611142350912, (-17)); (4574225906249324, (-16)); (84120615197605741, (-17)); (60271665842684297, (-17)); (59093755189837927, (-17)); (88098908574368284, (-17))];
  [(19333592712040304, (-17)); (856116504683052, (-15)); (15481163111243867, (-17)); (28580568179074173, (-17)); (48115047474676897, (-17)); (24849521748447856, (-17)); (23830795981063468, (-17)); (693626090199018, (-15)); (25829104499021038, (-17)); (40937751860448413, (-17)); (6256503147286917, (-16)); (12820278155698528, (-18)); (83591563976272865, (-17)); (56453513880691408, (-17)); (20710492538219205, (-17)); (76638375521609647, (-17)); (76675725867183397, (-17)); (3371495411409644, (-16)); (30899660731725365, (-17)); (38372065351332707, (-17)); (11922950345111447, (-16)); (36877998006289503, (-17)); (38534682194918102, (-17)); (11039129800687628, (-16)); (36841349921892269, (-17)); (35930782149804324, (-17)); (99729203497389973, (-17)); (32062759052351764, (-17))];
  [(62633986254637997, (-17)); (95615550679592454, (-17)); (71584344957679935, (-17)); (3397477753729734, (-16)); (45125387608987433, (-18)); (25303953522063438, (-17)); (90346347723881648, (-17)); (78385023326991621, (-17)); (50235076120542788, (-17)); (59073001573501038, (-17)); (28276684214490844, (-17)); (18419696733231505, (-17)); (41018078880524933, (-17)); (79264564471559962, (-17)); (67997141912498782, (-17)); (96599769666763546, (-17)); (43422808567797677, (-18)); (65351578572085778, (-17)); (33096797097818176, (-17)); (55890326286408554, (-17)); (46198771183704901, (-17)); (3792912651900352, (-16)); (13897267921190537, (-16)); (10699420996936755, (-16)); (94003046293964254, (-17)); (28624709384771702, (-17)); ((-2853202416822187), (-17)); (7498191351108445, (-17))];
  [(51579020136638853, (-17)); (68846093558413091, (-17)); (93858790527588609, (-18)); (98915440756101625, (-17)); (16709895786913764, (-17)); (1641594153369037, (-16)); (46466380592660883, (-17)); (87255020300361763, (-17)); (21553763856315233, (-17)); (73718364279467097, (-17)); (15676198226000537, (-17)); (61004934381459541, (-17)); (3571259415659912, (-16)); (92626646460089002, (-17)); (14490320857645844, (-17)); (44257936469707593, (-17)); (24563933057332599, (-17)); (9471518735482648, (-16)); (34562823358981676, (-17)); (56528603230872942, (-17)); (20227078399530396, (-17)); (14082053744053444, (-17)); (12311323498765643, (-16)); (9132119377760809, (-16)); (27043989351829872, (-17)); (78297198790685563, (-17)); (13322107806222785, (-17)); (17402803081297133, (-17))];
  [(32646084250433571, (-17)); (16394609517315062, (-17)); (22408269715094631, (-17)); (72405205797324912, (-17)); (37317139848307868, (-17)); (97919259890651644, (-17)); (77480631153133517, (-17)); (7980649600713785, (-17)); (59522802533305108, (-17)); (8932741007031374, (-16)); (67356077091478705, (-17)); (61280019738006442, (-17)); (24967004452046337, (-17)); (58628459366927632, (-17)); (39977903183582553, (-17)); (55649294377620362, (-17)); (68183462315634802, (-17)); (97113474550508039, (-17)); (29652534561585198, (-17)); (83353394900212918, (-17)); (35006017764502934, (-17)); (10262574602565311, (-16)); (96166282076091814, (-17)); (31758036169001275, (-17)); (10364772765412191, (-16)); (94769610453118536, (-17)); (39510802564262337, (-17)); (12190134778428257, (-16))];
  [(60771198770422996, (-17)); (19431916370186342, (-17)); (15875718756158919, (-17)); (19915673940132361, (-17)); (7437952655946779, (-16)); (62594317125328514, (-17)); (52305413011804092, (-17)); (82345532005234245, (-17)); (49557520940324529, (-17)); (52853418780496508, (-17)); (66771138627717708, (-17)); (41000753436288873, (-17)); (12706618531931557, (-18)); (72157177088012059, (-18)); (45837011470713662, (-17)); (70076180397848997, (-17)); (28739972199117048, (-17)); (52238044220298552, (-17)); (24825899133488938, (-17)); (36897721648253806, (-17)); (59612037263651163, (-17)); (49739338560731827, (-17)); (35001384993913642, (-17)); (86571540016942272, (-17)); (59101653652763231, (-17)); (23929616870839054, (-17)); (64479123346422074, (-17)); (49369090093789492, (-17))];
  [(85127206586968318, (-17)); (28649706461906632, (-17)); (53045832076608146, (-17)); (70698842325630329, (-17)); (29480065905842656, (-17)); (20983075085317471, (-17)); (75229138309716037, (-17)); (13410238227836435, (-17)); (73310631026336681, (-17)); (39626572942659855, (-17)); (17056062054933263, (-17)); (44562578576693723, (-17)); (49488618641393767, (-17)); (43150676311403335, (-17)); (42391207948765264, (-17)); (48303672447418744, (-17)); (86784997148079002, (-17)); (90498524953190729, (-17)); (15002745242307813, (-17)); (69700247815690319, (-17)); (20276426164772471, (-17)); (45510286836073865, (-17)); (95719068597818069, (-17)); (29633022658587493, (-17)); (5954871465679219, (-16)); (13240940376665999, (-16)); (49427969430353058, (-17)); (59484555965813657, (-17))];
  [(29194070502845892, (-17)); (27487417891552812, (-17)); (96973755024152342, (-17)); (66920826941914013, (-17)); (98385110736575221, (-17)); (91183066896333675, (-17)); (69252095404443059, (-17)); (99110348380232549, (-17)); (23021833924222102, (-17)); (61158780184504102, (-17)); (53093215155682205, (-17)); (58950961489939524, (-17)); (32509758005009159, (-17)); (27467739361352517, (-17)); (72015518929312305, (-17)); (54924959886763791, (-17)); (77440168434054424, (-17)); (73371942859997019, (-17)); (96111152958194535, (-17)); (78022646331053369, (-17)); (11234334183806061, (-16)); (88621276588713827, (-17)); (82542513264536188, (-17)); (12277819561930943, (-16)); (62499083163720681, (-17)); (14272649879200143, (-16)); (20395202812396169, (-16)); (13807719371676366, (-16))];
  [(86351041274206475, (-17)); (80358669183214759, (-17)); (16449579348704835, (-17)); (58824870277835939, (-17)); (65866649966746071, (-17)); (54953923089857448, (-17)); (31176535394770133, (-17)); (53586063554811625, (-17)); (6397376603613314, (-16)); (29997354724848513, (-17)); (20713169162465184, (-17)); (10370542400377292, (-17)); (7512102461613861, (-16)); (96560470677689103, (-17)); (46416251015904963, (-18)); (44116428115663542, (-17)); (92927578298762181, (-17)); (45746914620916224, (-17)); (26474967225619228, (-17)); (47289772901127197, (-17)); (64250551557258528, (-17)); (59616793728435191, (-17)); (11162021721852233, (-16)); (11838231478091172, (-16)); (61288735114966097, (-17)); (11510358702171974, (-16)); (12153784172172777, (-16)); (68424198238335765, (-17))];
  [(54624651094283538, (-17)); (17627328061057801, (-17)); (3961301573327769, (-17)); (14102236121501699, (-17)); (84377705468366448, (-17)); (89448723759907189, (-17)); (9980511043297331, (-16)); (33747202196987414, (-17)); (69022932928581204, (-17)); (27180225697009786, (-17)); (54374573283516314, (-17)); (75209421905617257, (-17)); (75305106566634239, (-17)); (27940827227295661, (-17)); (87247361660370504, (-18)); (44601951496661629, (-17)); (40912768817267009, (-17)); (19297972389619178, (-17)); (78893407567905505, (-17)); (10501589080483005, (-16)); (1045346852926156, (-15)); (13111454537474809, (-16)); (601808691929276, (-15)); (32804260880598501, (-17)); (45986382861958375, (-17)); (10160811970330417, (-16)); (57611396718174424, (-17)); (82263419905918256, (-17))];
  [(1734843648863249, (-17)); (39755220970390592, (-17)); (80030416425186435, (-17)); (53336030186180117, (-17)); (29519473383869066, (-17)); (57470011723990277, (-17)); (66608518782261272, (-17)); (59505810695130201, (-17)); (61909709877106411, (-17)); (29301683446612214, (-17)); (84812498038155626, (-17)); (76879903060613097, (-17)); (22294099545651602, (-17)); (10676044367050441, (-17)); (85470000199385754, (-17)); (47178770166942141, (-17)); (21355245758438812, (-17)); (5434679244006364, (-16)); (25108241314546276, (-17)); (68196054063612543, (-17)); (65677174525517945, (-17)); (11739160019155281, (-16)); (76462101719310194, (-17)); (47388183953874019, (-17)); (66428973673312508, (-17)); (47847435934962357, (-17)); (34008133685821962, (-17)); (52790567885128448, (-17))];
  [(68919965366586999, (-17)); (31075807208035322, (-17)); (17971072803560395, (-17)); (24820000362418326, (-17)); (59781925250117574, (-17)); (2023436003042004, (-16)); (70210563057505104, (-17)); (7431215777514989, (-16)); (27391385184893924, (-18)); (69538185380813378, (-17)); (96392498830412043, (-17)); (49531102216847533, (-17)); (43570483322568432, (-17)); (29202534527284496, (-17)); (71878405068108353, (-17)); (32858676966496658, (-17)); (24370365149092654, (-17)); (79353981000882534, (-18)); (32433429937348679, (-17)); (84495878599737817, (-17)); (10517086605573256, (-16)); (28982450424837147, (-17)); (25126737984076031, (-17)); (61252940422115276, (-17)); (11606517072264746, (-17)); (37551472576633271, (-17)); (41313444634557073, (-17)); (77296091838603073, (-18))];
  [(42005694398172122, (-17)); (83377387897609967, (-17)); (61558356089919619, (-17)); (75831126847029673, (-17)); (62569325454154945, (-18)); (37246555397134296, (-17)); (80670625674666552, (-17)); (98884695045681059, (-17)); (69244709012671335, (-17)); (64377351856147391, (-17)); (39617377669287357, (-17)); (48760631242665353, (-17)); (55095294655043892, (-17)); (86856466474847938, (-17)); (9231988111412569, (-16)); (36195687758787543, (-17)); (36411437153192328, (-17)); (28305410665423369, (-17)); (45305281018439192, (-17)); (93068906868045664, (-17)); (60426975301514985, (-17)); (63023784261832017, (-17)); (13063205336049202, (-16)); (55396047264749804, (-17)); (8063887786287397, (-16)); (7538561257711569, (-16)); (57700811040794397, (-17)); (55413535163402605, (-17))];
  [(22812275944571481, (-17)); (89842786511303707, (-17)); (98129026355646809, (-17)); (69103682418591983, (-17)); (71740570786257474, (-17)); (23203399662018664, (-17)); (69420006000952039, (-17)); (21967022743672782, (-17)); (89710268421845552, (-17)); (45879520512066507, (-17)); (47906043927235542, (-17)); (82633179551071168, (-17)); (96044309933497052, (-17)); (99421286915836704, (-17)); (64998407447457651, (-17)); (65265797757840549, (-17)); (41237996545048705, (-17)); (4323200677896446, (-16)); (7255810523341778, (-16)); (13398247284326845, (-16)); (95180308315826911, (-17)); (11451273532277622, (-16)); (12977372741818161, (-16)); (14195653194408988, (-16)); (141513746210018, (-14)); (93842517592625529, (-17)); (72864966510233387, (-17)); (95817446063334921, (-17))];
  [(84029700381954153, (-17)); (58673638523170268, (-17)); (66117534492256136, (-17)); (4565035148310842, (-16)); (69156176621585819, (-17)); (12318805935443977, (-17)); (66731316684302899, (-17)); (78873746378050291, (-17)); (94873878681367474, (-17)); (9955007315817942, (-16)); (78343951731568773, (-17)); (30815624415822951, (-17)); (11938008844902626, (-17)); (23147152223091383, (-17)); (62495252799668688, (-17)); (73475404364857311, (-17)); (17178430250399546, (-17)); (66913425062347764, (-17)); (21911222534889785, (-17)); (59719657943617377, (-17)); (76309070156947312, (-17)); (32577101627818994, (-17)); (39940541458957474, (-17)); (71522182056116634, (-17)); (49947908647271416, (-17)); ((-15015101498008554), (-18)); (24970250520017134, (-17)); ((-38919446860774559), (-18))];
  [(8400829392753193, (-16)); (50445055641321135, (-17)); (78207762600846598, (-17)); (13393041812629336, (-17)); (62416138748539696, (-17)); (95310331041312213, (-17)); (73408734335645587, (-17)); (90048832677247115, (-17)); (16767897781524954, (-17)); (94163025659581268, (-17)); (5876149454878874, (-16)); (51123350082751517, (-17)); (31414472019615269, (-17)); (24086908381598293, (-17)); (50630521555122832, (-17)); (8954893042675125, (-16)); (78179956148249485, (-17)); (84389390668121611, (-17)); (97904340889877806, (-17)); (27778653924072738, (-17)); (73312322506866723, (-17)); (73940235511503838, (-17)); (49853702794729587, (-17)); (97890015616392234, (-17)); (41044803244856098, (-17)); (68317336585105415, (-17)); (14740041023302415, (-16)); (10661315491058216, (-16))];
  [(78414288899571405, (-17)); (99028646839240508, (-18)); (86981723763717578, (-17)); (38557512255575421, (-17)); (8014708191537423, (-16)); (20770747674589596, (-17)); (63830256379843686, (-17)); (35982170519563983, (-17)); (90281692090889654, (-18)); (80904930041854317, (-17)); (75082851808955875, (-17)); (74422734811126467, (-17)); (62045386627962118, (-17)); (1342430979694631, (-16)); (92380718050990762, (-17)); (21172313344076577, (-17)); (18416222290721185, (-17)); (29217007391957417, (-17)); (20073428471767829, (-17)); (78763699257108222, (-17)); (10683767996470437, (-16)); (25787084696545293, (-17)); ((-33101582114509615), (-18)); (60803185003153604, (-17)); ((-32915207432402049), (-17)); (19114838897691327, (-17)); (33230531137587893, (-17)); (14347018800435901, (-18))];
  [(41477240528533821, (-17)); (6313682376759886, (-16)); (9062765696261712, (-16)); (32463993991796936, (-17)); (35111120023512965, (-17)); (78464432131527151, (-17)); (47224429047124994, (-17)); (6046611903516026, (-16)); (94731109250277423, (-17)); (78182674505480709, (-17)); (1812850296506584, (-16)); (89071975360013589, (-17)); (47339019575082242, (-17)); (9315992717998911, (-17)); (42339451597571853, (-17)); (11950275404604704, (-17)); (53909639094705053, (-17)); (91340399796276517, (-17)); (43571603356086186, (-17)); (26327527659033578, (-17)); (23800583732891828, (-17)); (59245355575841741, (-17)); (78969900127883963, (-18)); (54190303765395034, (-18)); (19001526404707375, (-17)); (43124008425324101, (-17)); (45961627482663581, (-17)); (98283877323831748, (-17))];
  [(65748897540438878, (-17)); (11816070202683471, (-17)); (68782010431073848, (-17)); (40416890542754147, (-17)); (81215162887985615, (-17)); (42828081025141096, (-17)); (5844438417427289, (-17)); (33121652890250797, (-17)); (67357101765484362, (-17)); (12237260073891876, (-17)); (74913803100705378, (-17)); (2595716862043892, (-16)); (91706906811526379, (-18)); (75937797499939208, (-17)); (55230097114637777, (-17)); (62485316126026835, (-17)); (25685755284923451, (-17)); (88599264001578915, (-18)); (86341603968471681, (-18)); (61447929447232597, (-17)); (39799016769369189, (-17)); (70089877225511599, (-17)); (74675965301816183, (-17)); (80853358556413968, (-17)); (11673916612591366, (-16)); (21376703618904253, (-17)); (15432543641662919, (-17)); (27715886584148791, (-17))];
  [(32791692273957418, (-17)); (24745249643807443, (-17)); (62576039338864409, (-17)); (19800474025735482, (-18)); (30997770731620977, (-17)); (97252316225540569, (-17)); (38978359005719954, (-17)); (7686268539275144, (-16)); (31385628481835048, (-17)); (84524251505351033, (-18)); (27848078171851631, (-17)); (59071678150450402, (-17)); (84125346628077791, (-17)); (66472012427149529, (-17)); (93574974135898559, (-17)); (53207435955173144, (-17)); (47735019010468904, (-17)); (52642147912180182, (-17)); (43748351993835177, (-17)); (4146662086459677, (-16)); (89267719823149005, (-17)); (10017650282801958, (-16)); (41825672341436448, (-17)); (85973885459741739, (-17)); (14933962934360059, (-16)); (32310699207664273, (-17)); (61805234798145092, (-17)); (95645879676886991, (-17))];
  [(93560968604457095, (-17)); (64536445340887683, (-17)); (79646135527476358, (-17)); (16180450807974911, (-17)); (45232445702688584, (-18)); (28874582567636731, (-17)); (14358249155558545, (-17)); (43852325941782755, (-17)); (64368626829687547, (-17)); (18061867371668106, (-17)); (15149999315300733, (-17)); (14981516511247461, (-17)); (78313162147367166, (-17)); (98711352213129799, (-17)); (77957966755201702, (-17)); (46883203111445981, (-17)); (57679778052667463, (-17)); (28918325792269783, (-17)); (49774973386004207, (-17)); (25495340597951754, (-17)); (43013253873681234, (-17)); (65177037948727179, (-17)); (99759970916128859, (-17)); (7846098240723105, (-16)); (12362909278311343, (-16)); (61653894857455083, (-17)); (56849302972240534, (-17)); (84300432679906079, (-17))];
  [(13755951899378482, (-17)); (5111218782610768, (-16)); (20504950236533037, (-17)); (33073242606699527, (-17)); (75412220550784492, (-17)); (94387006930962958, (-17)); (54960620779049763, (-17)); (49406895115896132, (-17)); (83830190356688072, (-17)); (67857420926001377, (-17)); (15642449956015081, (-17)); (66329059387739364, (-18)); (19710526475242307, (-17)); (71175813741900795, (-17)); (11353180640553695, (-17)); (75435655624730535, (-17)); (49677619172373899, (-17)); (57999252471252016, (-17)); (97148675882238733, (-17)); (1689043996780718, (-16)); (25132654348488526, (-17)); (32307674499147299, (-17)); (65800354976337427, (-17)); (10230445096781691, (-16)); (12364829364671934, (-16)); (78951007273145213, (-17)); (10672097115515886, (-16)); (15395271119894329, (-16))];
  [(69398622739852245, (-17)); (16055072209027477, (-17)); (21190959523042407, (-17)); (92690670442085088, (-17)); (51026138206314919, (-17)); (98758606781205527, (-17)); (16193803592422618, (-18)); (35451408444518251, (-17)); (79339937693568852, (-17)); (5342473390185889, (-16)); (90654437871615412, (-17)); (27713818203949969, (-17)); (47429301136922375, (-17)); (53425912632477246, (-17)); (44490250902679696, (-17)); (50688514272630458, (-17)); (47640194006638659, (-17)); (16012644433956424, (-17)); (40915291475374227, (-17)); (11001603459205695, (-16)); (62799915787666605, (-17)); (12031703794104454, (-16)); (77716968662953068, (-17)); (55134398445250088, (-17)); (10984115095875158, (-16)); (58717668707033599, (-17)); (39188864665924089, (-17)); (76990165195307503, (-17))];
  [(7881932012757934, (-16)); (92394195521066835, (-17)); (10691106446093157, (-17)); (39475585010391578, (-17)); (28088085149258346, (-17)); (3958112011044268, (-17)); (21501614485322973, (-17)); (40267873112456176, (-17)); (37864042109732243, (-17)); (2236735602094988, (-16)); (34914582598918886, (-18)); (85112736787803178, (-18)); (62751443587061884, (-17)); (42703866254836576, (-17)); (81495950560498254, (-17)); (90837169997212952, (-17)); (92477975972882198, (-17)); (67546935533653918, (-17)); (93810923874066865, (-18)); (18269821255899474, (-17)); (29218524192654582, (-17)); (24281518511332445, (-17)); (73212650320543349, (-17)); (83330238154436664, (-17)); (40434061110207797, (-17)); (95380368663428894, (-17)); (97511803520173712, (-17)); (15009764519067792, (-17))];
  [(6162544532654094, (-16)); (91495747724920151, (-17)); (31303776824271046, (-17)); (88581396067575324, (-17)); (67801089699164974, (-17)); (4400760807872337, (-16)); (66419472635946497, (-18)); (794971292431214, (-15)); (71792404566908397, (-17)); (80049453776375834, (-17)); (61161426397911789, (-17)); (79333843951301997, (-17)); (44859895550418405, (-17)); (61494753822066861, (-17)); (24131211833094979, (-17)); (72757108062580256, (-17)); (63307507316270972, (-17)); (61229470601649927, (-17)); (76687447586041102, (-17)); (81956980115954081, (-17)); (89752360143548171, (-17)); (71343590677657565, (-17)); (74529119481821193, (-17)); (12249103227253753, (-16)); (87035115144169162, (-17)); (83196110719400851, (-17)); (12080681388875281, (-16)); (93858408868476351, (-17))];
  [(16456666023532274, (-17)); (88000937609811214, (-17)); (57772314669128289, (-17)); (30177159303550205, (-17)); (10725835943586448, (-18)); (21884025786340788, (-17)); (49742398744512506, (-17)); (80610720489156429, (-17)); (25626665566111273, (-17)); (3084080338894577, (-16)); (83538064810974999, (-17)); (42237379869473302, (-17)); (95802152219296666, (-17)); (67262568666724321, (-17)); (4063662887506152, (-16)); (91824442964144859, (-17)); (38674664998809338, (-17)); (31547552436095483, (-17)); (86806934883548037, (-17)); (7844012835070262, (-16)); (13669372295369135, (-16)); (77485119789670354, (-17)); (72038339537122775, (-17)); (12019868636023223, (-16)); (66372470436431863, (-17)); (6028181727117452, (-16)); (94425311036076376, (-17)); (47149676393727502, (-17))];
  [(99351842995821071, (-17)); (38126975050864231, (-17)); (12183202185370068, (-17)); (18549950049112296, (-17)); (13731247039104033, (-17)); (42203423678624585, (-17)); (80273061959588277, (-18)); (35303234308390652, (-17)); (345363394720966, (-15)); (44629234380183858, (-17)); (20939549909054, (-14)); (63350391361285707, (-17)); (66372936511877256, (-17)); (28347739524538551, (-17)); (36898956789310311, (-17)); (13478673244889927, (-17)); (53966962369018745, (-17)); (89458729451787633, (-17)); (88656991806744001, (-17)); (92048063785786477, (-18)); (29295990130208804, (-17)); (49824385421875489, (-17)); (19108178760130326, (-17)); (14686160872187226, (-17)); (25041242458722318, (-17)); (36410160741160436, (-17)); (4941674696113888, (-16)); (75732895471050066, (-17))];
  [(33984821309669655, (-17)); (76702204695381382, (-17)); (84334481109448656, (-17)); (4549052454038065, (-16)); (86167918528251053, (-17)); (19121650886116226, (-17)); (3542782020432611, (-16)); (38584974357976476, (-18)); (42368274884487722, (-17)); (76032747524018462, (-17)); (56796660864082471, (-17)); (97591837440356266, (-17)); (74323499360504341, (-17)); (82143182670721382, (-17)); (56582269843229493, (-17)); (43751781544638546, (-18)); (5828750386902658, (-16)); (93536895285685695, (-17)); (58021309130060705, (-17)); (67435846858610016, (-17)); (77510194398742205, (-17)); (30484250236544108, (-17)); (52929517467743104, (-17)); (10002229212124316, (-16)); (37830165271693406, (-17)); (6210792844034656, (-16)); (78206697292990879, (-17)); (26479687053993628, (-17))];
  [(63137991541083727, (-17)); (17479068411038778, (-17)); (17764233169304233, (-17)); (5183459675649762, (-16)); (72924129026179851, (-17)); (74855023231895557, (-17)); (1961726795759634, (-16)); (45492497178461155, (-18)); (27846756726561206, (-17)); (96546141708318645, (-17)); (55569959666734015, (-17)); (12358588546890237, (-17)); (24207178879364477, (-17)); (19604003557181104, (-17)); (16300376140312645, (-17)); (91264400905468146, (-17)); (59531695296969001, (-18)); (35130701247104845, (-17)); (76211397287694094, (-17)); (45628943124909505, (-17)); (43303708933930296, (-17)); (50022699107535551, (-17)); (29647855918354021, (-17)); (22278718088153215, (-17)); (44025008436423763, (-17)); (11749479798243173, (-17)); (17157676509146902, (-17)); (35320836061072219, (-17))];
  [(24851086534854461, (-18)); (28923728689488137, (-17)); (24918830103630374, (-17)); (69562302186391145, (-19)); (84947836765441664, (-17)); (57232140494208106, (-17)); (37771942845408302, (-17)); (46711388891407923, (-17)); (3775468852799071, (-16)); (66737929545945129, (-17)); (81435415409440248, (-17)); (60591851705624089, (-18)); (50857550893360803, (-17)); (10698068164132346, (-17)); (27282900123120335, (-17)); (542045341627864, (-15)); (83777058818980121, (-18)); (33268251139512039, (-17)); (14448229201207341, (-17)); (21089961435265472, (-17)); (88030990035966572, (-17)); (65775842495906001, (-17)); (20458409497611113, (-17)); (4669434847889995, (-16)); (34404742670722988, (-17)); (53270402774474215, (-18)); (292985760425021, (-15)); (19886249211714033, (-17))];
  [(65439605270498669, (-17)); (271398627231907, (-15)); (89859500485887578, (-17)); (6990967890451365, (-16)); (41054600498410265, (-17)); (33262035456512473, (-17)); (91336814459399795, (-17)); (60245901136239444, (-17)); (2066097400365039, (-16)); (78981316176253424, (-17)); (75596007352370254, (-17)); (27655371983787147, (-17)); (2347743097006898, (-16)); (49988582859733754, (-17)); (63436338260445346, (-17)); (7240566576819415, (-16)); (5275870948232223, (-16)); (27611549969561355, (-17)); (63220496716936236, (-17)); (94560868710775203, (-17)); (53291814030294171, (-17)); (59356397880446443, (-17)); (11571885284104533, (-16)); (73854322861729749, (-17)); (32759972738133231, (-17)); (10899999017028728, (-16)); (66209030264269919, (-17)); (47743785122376092, (-17))];
  [(82323417876728411, (-17)); (86342202209726704, (-17)); (96157230675508143, (-17)); (62053556716595548, (-17)); (35270496799901685, (-18)); (18003460996691201, (-17)); (9246556775691307, (-16)); (26160122018277143, (-17)); (51426245692765338, (-17)); (14558760249405722, (-20)); (88582025657702523, (-17)); (8395688866482045, (-16)); (42897907281174863, (-17)); (35850136824311285, (-17)); (97581891974528845, (-17)); (22785302227923732, (-17)); (55533067893804555, (-17)); (9431250481581287, (-16)); (67853989864470332, (-19)); (16468571911305561, (-16)); (9065691811968023, (-16)); (12234451901524754, (-16)); (11112619407550723, (-16)); (40344139637592696, (-17)); (63745520457764282, (-17)); (10486211125056979, (-16)); (51440858738935102, (-17)); (70715774540340992, (-17))];
  [(8755100154641271, (-17)); (87638206163244436, (-17)); (67256809751741753, (-17)); (38282914470914275, (-17)); (66908644226609926, (-17)); (86259351938857531, (-17)); (43043641765531704, (-17)); (1142524868177005, (-16)); (61585254711194282, (-17)); (54093449188214826, (-17)); (8748621432098983, (-16)); (80374078129021775, (-17)); (97165471603974485, (-17)); (88513830123462101, (-17)); (74893293445474118, (-17)); (18151865985400695, (-17)); (27343439020683835, (-17)); (35832932521836935, (-17)); (24423048993949936, (-17)); (88388898766350166, (-17)); (11679645892619388, (-16)); (18073478528348335, (-16)); (53106718883192805, (-17)); (10822483805514593, (-16)); (13096842416917782, (-16)); (28098912845867535, (-17)); (37134813163476721, (-17)); (57037388100576691, (-17))];
  [(66712187373818221, (-17)); (53334244407866604, (-19)); (51313403650680156, (-17)); (27668025868121005, (-17)); (46094967577144585, (-17)); (59378881786384541, (-17)); (73285032742729261, (-17)); (65044933991875931, (-17)); (78776079465802007, (-18)); (38624996651764842, (-17)); (28746035618399857, (-17)); (30834781427101376, (-17)); (55582485798127923, (-17)); (23608101643080359, (-18)); (15344629222448281, (-18)); (93317406944345194, (-17)); (82619064933362207, (-17)); (41857795874124359, (-17)); (37319084796339463, (-17)); (61647716756135995, (-17)); (54391507028684227, (-17)); (35472559732396364, (-17)); (70100321224569906, (-17)); (61771977034293413, (-17)); (95488351032731345, (-18)); (87225598657441639, (-17)); (56817755990959862, (-17)); (75624540329960444, (-17))];
  [(41662921086751736, (-18)); (50415817168777155, (-17)); (75816123771637145, (-17)); (17444329367437394, (-17)); (18924299721757709, (-17)); (44199198596770284, (-17)); (9929371467621021, (-16)); (32310865459146909, (-17)); (48924746469136349, (-17)); (50781485363271062, (-17)); (17504800036851997, (-17)); (26182050033839477, (-17)); (83025466085618993, (-17)); (6078492775571791, (-16)); (32946112846425524, (-17)); (9298362790148712, (-16)); (96802715239150117, (-17)); (74587318033098116, (-17)); (86230263725135992, (-17)); (88021709464267894, (-17)); (34059444545290685, (-17)); (56438376103767107, (-17)); (10405047777659129, (-16)); (59786589205056506, (-17)); (99403709697551368, (-17)); (10721506294989647, (-16)); (73463461058974677, (-17)); (12843284953764855, (-16))];
  [(91300360998378338, (-17)); (20734503959159312, (-17)); (20722123018943717, (-18)); (32285139817355468, (-17)); (18059397244551967, (-17)); (52256152752979534, (-17)); (98845948653942928, (-17)); (29193158731463054, (-17)); (77027232598887219, (-17)); (54664166572386397, (-17)); (32769354508760651, (-17)); (72582845205382696, (-17)); (29882330139362334, (-17)); (47151364277582564, (-17)); (37746411846710015, (-17)); (72474736258392258, (-17)); (64391323791601063, (-18)); (28918017066625401, (-17)); (63838495195483402, (-17)); (4616656303814779, (-16)); (20979005483227198, (-17)); (64119002011844772, (-17)); (10882373004606758, (-16)); (35690983947856819, (-17)); (85911932423593718, (-17)); (6345590491574582, (-16)); (21726049476906231, (-17)); (6363396105570337, (-16))];
  [(99828152967344252, (-17)); (81927554741277731, (-17)); (17351937102682025, (-17)); (42814959268478003, (-18)); (63657310349192298, (-17)); (60602360392328802, (-18)); (96747606577474388, (-17)); (58790181689246079, (-17)); (12533929047181647, (-18)); (7978261074099261, (-16)); (52382213594308968, (-17)); (1389756753969702, (-16)); (7938490232282609, (-16)); (10088703972920199, (-17)); (93766215326174307, (-17)); (12170585332436146, (-17)); (90047634666660814, (-17)); (29654218227062867, (-17)); (14633123217126598, (-17)); (10540637015937016, (-16)); (98533544118443683, (-17)); (84760342327265356, (-18)); ((-45086561593896485), (-17)); (42114967959930069, (-18)); ((-5866459416391652), (-17)); (59381406956177785, (-17)); (96939667117030281, (-17)); (12571658842116143, (-17))];
  [(40554682675010123, (-17)); (87853171604357883, (-17)); (7444887098840286, (-16)); (41243885548724002, (-17)); (50320774727892315, (-18)); (63434909565181519, (-17)); (71833392923609829, (-17)); (68437678795995083, (-17)); (14492044519077807, (-17)); (29011722110921789, (-17)); (92130659168120077, (-17)); (19905442643017401, (-17)); (29870014274547918, (-17)); (19811575707465168, (-18)); (55339263834232055, (-17)); (66948536250828183, (-17)); (63548089091933879, (-18)); (78419420095136338, (-17)); (56841573175611049, (-17)); (73685910913343533, (-17)); (95283055018096374, (-17)); (94631143069930834, (-17)); (64545229242570112, (-17)); (36274974210576694, (-17)); (33326740544382621, (-17)); (65944436373580839, (-17)); (28415226996927279, (-17)); (44889376098955991, (-17))];
  [(7855094326839196, (-16)); (75120067035213967, (-17)); (15220114319807643, (-17)); (46228404935271805, (-18)); (85637063006747827, (-17)); (19119639244026265, (-18)); (61820386306236819, (-17)); (91545144549963564, (-17)); (35385899741914573, (-17)); (73120325094861294, (-17)); (18220172537043577, (-17)); (67896327553968749, (-17)); (26971882739577402, (-17)); (2302846630776928, (-16)); (69406256128846677, (-17)); (53522454551732657, (-17)); (58343306116509497, (-17)); (45823686136016417, (-17)); (22445226935752183, (-17)); ((-53875964655671266), (-18)); (54521438911849907, (-17)); (59067922756632203, (-18)); (13245907618213507, (-17)); (8447060619464114, (-16)); (15776120646410613, (-17)); (27331385981309197, (-17)); (92759700905969611, (-17)); (11292188176371384, (-17))];
  [(80818250177395479, (-17)); (14233852822069348, (-17)); (10687531615120616, (-17)); (83652058992030909, (-17)); (73800572614398119, (-17)); (3182970460789637, (-16)); (59740637822354947, (-17)); (37533722519052348, (-17)); (83834414105153687, (-18)); (22249993635823406, (-17)); (87375622201770786, (-17)); (77098043996352661, (-17)); (8926017827261391, (-16)); (99357157155505138, (-17)); (92542132063679894, (-18)); (42120966583490438, (-17)); (77823783685725823, (-17)); (99737013588364998, (-17)); (25955495030300046, (-17)); (18748283983696283, (-16)); (11293708612485673, (-16)); (44845131706373714, (-17)); (1277234187658848, (-15)); (52154705084674391, (-17)); (23521637532757189, (-17)); (15480535262290891, (-16)); (10187958431991004, (-16)); (44365791364283408, (-17))];
  [(36065492807444, (-14)); (19886137821936234, (-17)); (76499049645394668, (-17)); (31961338464291833, (-18)); (75077143321442208, (-17)); (68063973541899125, (-17)); (48390229490498859, (-17)); (58155839667102094, (-17)); (33685864049199032, (-17)); (16980747296809073, (-17)); (92042574666514554, (-18)); (85825762411278328, (-17)); (26590911231285674, (-17)); (50812263803838209, (-17)); (70433470972606149, (-17)); (5087067733190539, (-16)); (9475893857802935, (-16)); (21109621524877098, (-17)); (73360453079471566, (-17)); (13661677346136814, (-17)); (79060507736654506, (-17)); (63436858722843625, (-17)); (40878997419282792, (-17)); (95742227283326475, (-17)); (99437478131448676, (-17)); (69073250909450867, (-17)); (88169922308284443, (-17)); (11849105077532858, (-16))];
  [(20499957077976327, (-17)); (20289691010335331, (-17)); (25606415804660987, (-17)); (65461694055239028, (-17)); (77178526755011823, (-17)); (53407863431542313, (-17)); (79750137815521116, (-17)); (61592962383405214, (-17)); (77683471758425493, (-18)); (70124152234982684, (-17)); (36195777014643593, (-17)); (29992581871610702, (-17)); (27479182754737752, (-17)); (94154664580775371, (-17)); (23216395347773644, (-17)); (93468050875264463, (-17)); (17664996051926263, (-17)); (5438476338499838, (-16)); (36178541650980367, (-17)); (539049306069592, (-15)); (54319157068671442, (-17)); (28971953471411682, (-17)); (13759439977066354, (-16)); (12969928536833206, (-16)); (63762745161900436, (-17)); (59087782481675499, (-17)); (58768136059910636, (-17)); (25560918300495977, (-17))];
  [(5362321676936288, (-16)); (73174254242572856, (-17)); (92134500993818869, (-17)); (91089886242389706, (-17)); (89537132049006463, (-17)); (95490584971053416, (-17)); (9403041411506301, (-16)); (36574267259297466, (-17)); (4148744342982229, (-16)); (95212882800408594, (-17)); (62440515577307165, (-17)); (26254328969965102, (-17)); (47429781414603145, (-17)); (86897441830293731, (-17)); (72313419412176005, (-17)); (42667171673943838, (-17)); (48367216118971124, (-17)); (82964219441193898, (-17)); (2873112546389891, (-16)); (11275214281499393, (-16)); (87372842351328461, (-17)); (96448709501526952, (-17)); (13823962897663593, (-16)); (11030971457171148, (-16)); (11750302521895017, (-16)); (85534957246246746, (-17)); (59938452609039317, (-17)); (59064183000985104, (-17))];
  [(3746291860658717, (-16)); (40364400200654227, (-17)); (97366070290428186, (-17)); (47708813666650285, (-17)); (37182081282748292, (-17)); (6513692575738379, (-16)); (52734490110249566, (-17)); (6665218890298964, (-16)); (80762551091396184, (-17)); (47808935525745799, (-17)); (12467664101493769, (-17)); (33740784219443432, (-17)); (68549926565664987, (-17)); (85224981137710221, (-17)); (11367264791038367, (-17)); (9606806008663431, (-16)); (98735585819355498, (-17)); (16042425284252015, (-17)); (27239625088847952, (-17)); (51509995487459803, (-17)); (57163950829812316, (-17)); (74275969285577448, (-17)); (10057165059079916, (-16)); (1107958668843914, (-15)); (17828565942261743, (-16)); (72909422821456493, (-17)); (72748646043557952, (-17)); (13903625125939971, (-16))];
  [(91875180402596601, (-17)); (53878873230701008, (-17)); (62561219462456263, (-17)); (15030572601245185, (-17)); (80811500570400541, (-17)); (73733353681143343, (-17)); (77571314154625759, (-17)); (81325082223024392, (-17)); (55612600613220142, (-17)); (19249273925464605, (-18)); (56406561839303626, (-17)); (36846735301807654, (-17)); (65901980175376851, (-17)); (83806560601238356, (-17)); (8918184687216284, (-16)); (53445574837802023, (-17)); (99573037255654229, (-17)); (51809215952429655, (-17)); (32767250514330892, (-17)); (10798389503293384, (-16)); (11424657308204389, (-16)); (99452034906057718, (-17)); (13050900750125383, (-16)); (16104486921662864, (-16)); (14800324256031208, (-16)); (12404159461389872, (-16)); (12315846328818401, (-16)); (11948816932553816, (-16))];
  [(58110184034833545, (-17)); (41513787483248754, (-17)); (14972087386264765, (-17)); (79547730062511612, (-17)); (58006744208577443, (-17)); (33702687569288015, (-17)); (84234909422369608, (-17)); (67604395066309386, (-17)); (52692907833487945, (-17)); (55125973879598811, (-17)); (64855438456518999, (-17)); (2585469189270504, (-16)); (7046012352050679, (-17)); (31661357881920016, (-17)); (21833566535461479, (-17)); (74539483455443467, (-17)); (73467327589911191, (-17)); (21837030585493922, (-17)); (48689154303570137, (-17)); (74712405537369286, (-17)); (54557311316128876, (-17)); (28828370146407795, (-17)); (99802731865500882, (-17)); (77249473659317069, (-17)); (53460391775256433, (-17)); (1161418687589906, (-15)); (87260149528981157, (-17)); (52551493528158588, (-17))];
  [(71729587567457231, (-17)); (57842212347379984, (-17)); (47829272211763307, (-17)); (70720168567150055, (-17)); (64532356296041071, (-17)); (79486229479990445, (-17)); (90807554339649321, (-17)); (78624554168871152, (-17)); (7918436977979737, (-16)); (98216003716870703, (-17)); (70024953706963233, (-17)); (2751453704250717, (-16)); (14000499489452722, (-17)); (63554318494848672, (-17)); (39077331499359425, (-17)); (63880532963519476, (-18)); (41152984682948679, (-17)); (29175085435129133, (-17)); (92266442407018834, (-17)); (76178331108576192, (-17)); (67702168525524731, (-17)); (77172440262956243, (-17)); (60524913339080033, (-17)); (547463668807188, (-15)); (65651950882202215, (-17)); (11843061433409925, (-16)); (10426613862571894, (-16)); (11246499846303601, (-16))];
  [(30574264659249317, (-17)); (59955154238081343, (-17)); (8956867033451309, (-16)); (93635922501071778, (-18)); (91932395369555253, (-17)); (15433666094865472, (-17)); (933286537440978, (-15)); (24909823465076764, (-17)); (77077653477474739, (-17)); (17915011915844792, (-17)); (69331475447746982, (-19)); (10535092379635236, (-18)); (53212694930506987, (-17)); (65183977030312601, (-17)); (65916224758774589, (-17)); (34410126336043612, (-17)); (51163375451270254, (-18)); (43095248569600653, (-17)); (17058553678792532, (-17)); (49922514243088784, (-17)); (14618253443122356, (-17)); (41637065164752468, (-17)); (55294823732526166, (-17)); (11029173689231726, (-16)); (8525508470355081, (-16)); (19167928515122915, (-17)); (42486106285455505, (-17)); (17464826505470804, (-17))];
  [(41523012906171008, (-17)); (71798339894352481, (-17)); (49536514049099756, (-17)); (30508448623422424, (-17)); (8352347325127607, (-17)); (11109214967275638, (-17)); (16177185180903708, (-17)); (32645314335257347, (-17)); (46896350893215388, (-17)); (95866577423039967, (-17)); (45786786400475876, (-17)); (24134035783158869, (-17)); (53152819853586775, (-18)); (56890759468057328, (-17)); (80740234262019928, (-18)); (18458416982923098, (-17)); (33341619807699918, (-17)); (55709003045558214, (-17)); (1816854530319455, (-16)); (19246116909607944, (-17)); (1073170392234402, (-16)); (11444710870688404, (-17)); (29436561759352509, (-17)); (29028786191367495, (-17)); (27264463014385693, (-17)); (1005360252506331, (-16)); ((-80959961851251441), (-18)); (20129477720380096, (-18))];
  [(13941115047333685, (-17)); (99311219896637104, (-17)); (48016286991994173, (-17)); (76827118292718111, (-17)); (10861111464729034, (-17)); (2132174554298949, (-16)); (64780644629230066, (-17)); (37474286488079989, (-17)); (14927743237541535, (-17)); (10075145811021302, (-17)); (54408957155992477, (-17)); (31141458012956325, (-17)); (10720088969660235, (-17)); (52246033108793577, (-17)); (67099856078791298, (-17)); (49627427878899688, (-17)); (94854051221705071, (-17)); (56318821186594648, (-17)); (37592455797306812, (-17)); (42062753902331251, (-17)); (58626325529321499, (-17)); (3386202362157843, (-16)); (93781529060124147, (-17)); (71339664445754625, (-17)); (44481792925375807, (-17)); (87097997289924534, (-17)); (10930696097032127, (-16)); (62187664159528078, (-17))];
  [(86466652145197709, (-17)); (47577146766779155, (-18)); (74528691766150645, (-17)); (71428698089013254, (-17)); (99934093591750028, (-17)); (63960155626802939, (-17)); (16410309984877913, (-17)); (61749699198650743, (-17)); (62253417963759916, (-17)); (29696315457488953, (-17)); (82845258055264037, (-17)); (58149821085601294, (-17)); (44456588014841958, (-17)); (44362942018392815, (-17)); (9319090699147532, (-16)); (75552589116373503, (-17)); (83715838374508733, (-17)); (91707936997081063, (-17)); (35761361394682734, (-17)); (11811403607124999, (-16)); (11020520657807826, (-16)); (12510512397112967, (-16)); (98423611691673685, (-17)); (14940036910314707, (-16)); (12362556488176404, (-16)); (13201907667525148, (-16)); (13673103575866499, (-16)); (13368126743545254, (-16))];
  [(96009046774100515, (-17)); (14866489900420088, (-17)); (17077420542927857, (-17)); (22994645047934581, (-17)); (48361118408694459, (-17)); (13910995696749218, (-17)); (23551473755002472, (-17)); (88002768399600384, (-17)); (44336354386864485, (-17)); (35277672261961368, (-17)); (84459474228626685, (-17)); (63748361626318084, (-17)); (53561168384264513, (-17)); (10784074167277402, (-17)); (81384097353139595, (-17)); (78715561537319245, (-17)); (19915048774821642, (-18)); (25091658359827984, (-17)); (48058034192287813, (-17)); (88029228709392171, (-17)); (98687010484521887, (-17)); (45902262473186917, (-17)); (19676638472768893, (-17)); (10533247640229417, (-16)); (42968358966129139, (-17)); (10361989365002561, (-17)); (53001496825463734, (-17)); (23517104647166331, (-17))];
  [(75527356288488368, (-17)); (89387066184402253, (-17)); (92874609430029675, (-17)); (90422597172550634, (-17)); (3398896404635483, (-16)); (69683533413288501, (-17)); (41461302653910792, (-18)); (14536042932731419, (-17)); (83100757249296964, (-17)); (77661265652097999, (-17)); (55115363385499461, (-17)); (13657599936478604, (-17)); (27892377287198344, (-17)); (30768602973426262, (-17)); (8591688247246152, (-16)); (56069694848509466, (-17)); (78957418444565153, (-17)); (73869845565437964, (-17)); (47918876901338059, (-17)); (67356949913151409, (-17)); (47079804592956193, (-17)); (8450697813136292, (-16)); (48334671268937585, (-17)); (21018214823544365, (-18)); (68783605355690225, (-17)); (10310379826933833, (-16)); (47747762984975273, (-17)); (11932240860524443, (-16))];
  [(78852542754899946, (-17)); (75096230824366339, (-17)); (9894475856509749, (-16)); (67135924277533754, (-17)); (14680893295558506, (-17)); (15481062030151982, (-18)); (98852621997116419, (-18)); (4335299534828525, (-16)); (65318059290673136, (-18)); (44718695187559632, (-17)); (48962043854694204, (-17)); (76855383878467731, (-17)); (23731511891932433, (-17)); (90215155524203194, (-17)); (47554078995347748, (-17)); (21100875051127699, (-17)); (32825787886129476, (-17)); (65662178229698542, (-17)); (3354097599192104, (-16)); (71689284819113941, (-17)); (31765346577805947, (-17)); (13748350253744762, (-17)); (10499005115245619, (-16)); (66813641846478045, (-17)); (62784820986145984, (-17)); (53542646186709764, (-17)); (2622068523617202, (-16)); (45180297297022068, (-18))];
  [(66182645340647439, (-18)); (63573004166424074, (-17)); (41793384816957146, (-17)); (98046600624027758, (-17)); (50368266475958734, (-17)); (56607324318095975, (-17)); (76203247331907753, (-18)); (29111908798715536, (-17)); (41098000874759943, (-17)); (42932181533604019, (-17)); (45349680355782163, (-17)); (33142179202488964, (-18)); (63717004928049659, (-17)); (15742903542136344, (-17)); (38511980385712197, (-17)); (16085422278432571, (-17)); (51723915469264581, (-17)); (63672073710485133, (-17)); (21140472694498524, (-17)); (28955959619479293, (-17)); (54911815155765398, (-17)); (55234579970273967, (-17)); (41870127892722603, (-17)); (24529588635778918, (-17)); (2942504065257498, (-16)); (80841998577778451, (-17)); (592079617457829, (-15)); (6222668075780714, (-16))];
  [(98857950019498486, (-17)); (30358475444741317, (-17)); (91922499249816036, (-17)); (88567062743764524, (-17)); (75622100503030731, (-17)); (96462299801629481, (-17)); (94541032814882742, (-17)); (80443123503622205, (-17)); (92325894469119663, (-17)); (47539218698292918, (-18)); (80681836766278203, (-17)); (51673299052874055, (-17)); (33974590199001187, (-17)); (26348434819788702, (-17)); (51280086071497788, (-17)); (11200560237518942, (-17)); (65560582807039514, (-17)); (67366653486147765, (-17)); (83217236808555339, (-17)); (15847226214746979, (-16)); (92982565821560748, (-17)); (15667848859662779, (-16)); (80673067202616855, (-17)); (55942361904994098, (-17)); (82911618387488695, (-17)); (20260485720255135, (-16)); (1390939187455519, (-15)); (20200044960161789, (-16))];
  [(86141346024921361, (-17)); (32839924370795881, (-17)); (97112304890290102, (-17)); (65017614281668101, (-17)); (22549898515304645, (-17)); (11028010438613556, (-17)); (76001250653420405, (-17)); (23150581255040059, (-17)); (61201869414328391, (-17)); (24628806612168708, (-17)); (25829294575603157, (-17)); (77657947717845355, (-17)); (91483909234971317, (-17)); (97494387341455147, (-17)); (44471441746164153, (-17)); (85385124036091198, (-17)); (64537198699158782, (-17)); (43561041085798236, (-17)); (24694135291063624, (-17)); (12785977800784269, (-16)); (41591080206404962, (-17)); (7092982554636249, (-16)); (18049893586046899, (-16)); (62343151557607124, (-17)); (14092766266228474, (-16)); (10123282385869763, (-16)); (35858190277954882, (-17)); (71976016637007856, (-17))];
  [(35330891257397112, (-17)); (56349394332253622, (-17)); (87563963457103389, (-17)); (55583001908927065, (-18)); (71429879622334813, (-17)); (45693642018013458, (-17)); (14506698648085503, (-17)); (48770588319106278, (-17)); (47707043134649008, (-17)); (61993216182369604, (-17)); (70079383417040297, (-17)); (36669660841985163, (-17)); (81798410648379671, (-18)); (3204158176306775, (-16)); (29181205892174156, (-17)); (61612346064846513, (-17)); (72533914958122347, (-17)); (80912996836996764, (-17)); (84260269784967112, (-17)); (17733932610682143, (-17)); (74527045744880693, (-17)); (67434730030213019, (-17)); (14516909120519106, (-17)); (65453305925060823, (-17)); (56742948345273825, (-17)); (224757330381955, (-15)); (12501416370041722, (-16)); (1000780124939604, (-15))];
  [(41058038552972076, (-18)); (28148857427347629, (-17)); (95058947571992736, (-18)); (52714906391349492, (-17)); (6427239634318227, (-17)); (51349817650862539, (-17)); (47414972530459043, (-17)); (30314009357689409, (-17)); (80948339502776934, (-17)); (17219856534113098, (-17)); (43814951194395113, (-17)); (7223506757632453, (-16)); (4183153192901834, (-17)); (67539493401890804, (-17)); (26710671597710567, (-19)); (87065211860346758, (-17)); (75452834415972003, (-17)); (91267207021614805, (-17)); (51187403204344006, (-18)); (4472072620937273, (-16)); (14991580092135509, (-17)); (46712167091423829, (-17)); (50251413745634177, (-17)); (45871221541297569, (-17)); (82876521333492226, (-17)); (59052345770668557, (-17)); (24684791031097358, (-17)); (62534656946279843, (-17))];
  [(12309247087673891, (-18)); (24255379917279107, (-17)); (64138547257130807, (-17)); (97020640384710943, (-17)); (67531332084897722, (-17)); (17338992826545563, (-17)); (57205373616970057, (-17)); (10838462192577336, (-18)); (18975369431369604, (-17)); (85557657193722814, (-17)); (68738087491602962, (-17)); (66924460430896604, (-17)); (32551315613392795, (-17)); (51444319849371312, (-17)); (70758474373444691, (-17)); (4667858195452379, (-17)); (18177585502982363, (-17)); (52168147086349859, (-17)); (33843325831213755, (-17)); (11148207493120406, (-16)); (63714211982614044, (-17)); (19290514469715503, (-17)); (85128451720825582, (-17)); (52840230675344191, (-17)); (30413015246509328, (-18)); (65528166414318911, (-17)); (26075947878981376, (-17)); ((-28816485257752281), (-18))];
  [(36085991854276189, (-18)); (33886138891010786, (-17)); (96971089952813005, (-17)); (15626694128200302, (-17)); (92250151809806225, (-19)); (60887945896618167, (-18)); (98358786372538509, (-17)); (85397823844451093, (-17)); (64494117351364966, (-17)); (52898461818650189, (-17)); (65785673743228967, (-18)); (47386613629870955, (-18)); (12887543317842731, (-17)); (78472235641994947, (-17)); (42583399479006412, (-17)); (15704540326228522, (-17)); (84140915000157157, (-17)); (2902555120857524, (-16)); (11943617204996515, (-17)); (13952761109919656, (-17)); (12188226754459974, (-17)); (1195136070839902, (-16)); (29049283786388269, (-17)); (29790388303709248, (-17)); (59633754804297501, (-17)); (24391560474493057, (-17)); (30473914851528505, (-17)); (68050161984795232, (-17))];
  [(12363165756081762, (-17)); (21144924586110503, (-17)); (25881360259928243, (-17)); (85846632876680695, (-17)); (75924359297294863, (-17)); (15300408863032244, (-17)); (12633192052307618, (-17)); (67135978907047889, (-17)); (16162593601754605, (-17)); (44006250265187152, (-17)); (57370329613626758, (-18)); (8949207166901445, (-16)); (93600114674328838, (-17)); (9522124804754718, (-16)); (27648077914815006, (-17)); (1103565715543392, (-16)); (28627706664784247, (-17)); (89777488112525639, (-17)); (28066108085532415, (-17)); (79357536312422261, (-17)); (11920398997292097, (-16)); (19366762907608043, (-17)); (66885091644515826, (-17)); (72924114125888906, (-17)); (31065563158920195, (-17)); (82216719640878699, (-17)); (87160141791908696, (-17)); (15634772106997569, (-17))];
  [(56112461861311924, (-17)); (30302165907771683, (-18)); (26793961840129021, (-17)); (16459190895787978, (-17)); (45366795404335125, (-17)); (88060876873128247, (-17)); (16205875152818605, (-17)); (64055021659959255, (-17)); (69809307137829446, (-17)); (399072521600358, (-15)); (69353204746800801, (-17)); (18652531600306999, (-17)); (7301955257865963, (-16)); (87278964506224765, (-17)); (23219187466790492, (-17)); (58524485761740885, (-17)); (94891380520755675, (-17)); (22686256483212086, (-17)); (43869556901034346, (-17)); (50888715196561241, (-17)); (68512120970416945, (-17)); (10502046029386962, (-16)); (58651186514183418, (-17)); (64742926218238561, (-17)); (10869086775455501, (-16)); (60734314028525471, (-17)); (56693663588782517, (-17)); (10256757710914144, (-16))];
  [(43148403269814861, (-17)); (62520369420146693, (-17)); (84734208563322366, (-18)); (93743491053094063, (-17)); (97989218454366322, (-17)); (65091601136850119, (-17)); (64334848394530075, (-18)); (62770510843054672, (-17)); (39257949315095608, (-17)); (26663303242457137, (-18)); (43759008150269696, (-17)); (85813175721838064, (-17)); (36904494595556148, (-17)); (35563813069198036, (-17)); (53817983305212636, (-17)); (39168982288254817, (-17)); (20021666786900572, (-17)); (20726031249147725, (-17)); (74798849556083513, (-17)); (10177100643949981, (-16)); (13428430814197554, (-16)); (74597349055817208, (-17)); (68562342438643931, (-17)); (99562403133351074, (-17)); (53903456011181861, (-17)); (33132494796847034, (-17)); (79944433343857502, (-17)); (44847147476636301, (-17))];
  [(15824398370853143, (-17)); (12778692695105109, (-17)); (72683863496895929, (-17)); (23597986395260051, (-17)); (11583289158802135, (-18)); (2382632981215892, (-16)); (14317866819392289, (-17)); (16915109124609073, (-17)); (33119676676193888, (-17)); (35782948020554972, (-17)); (88126922824794218, (-17)); (37935926004038489, (-17)); (24332567094418545, (-17)); (41980193809333521, (-17)); (45171761304115321, (-17)); (64755151047303861, (-17)); (89546859835995951, (-17)); (24481600090916267, (-18)); (83530542480401682, (-17)); (30112365422690757, (-17)); (13735281609907396, (-17)); (74218754105397156, (-17)); (26444406683319627, (-17)); (14616815443475123, (-17)); (52111758174154987, (-17)); (3303898025273776, (-16)); (25127675667109628, (-17)); (96024360773556927, (-17))];
  [(10366821638864099, (-17)); (67596175378893264, (-17)); (89203023372939239, (-17)); (41660534483177036, (-17)); (52739352947414275, (-18)); (9806437655009792, (-17)); (4313371831959979, (-16)); (96094642004028752, (-17)); (8395502079630266, (-16)); (34986038691667631, (-17)); (72985393994792314, (-17)); (68281203497863563, (-17)); (35069982088853124, (-17)); (85957615511607832, (-17)); (97684778747145118, (-17)); (94104932820330045, (-17)); (8540614441338783, (-16)); (57049258203399489, (-17)); (7311042110244319, (-16)); (56953840087669705, (-17)); (68928774098690604, (-17)); (78470204624149298, (-17)); (95996342405770851, (-17)); (12877428146301355, (-16)); (13305804086723598, (-16)); (72348688359733671, (-17)); (11564139094801766, (-16)); (12363257954949327, (-16))];
  [(92746434878581563, (-17)); (14049249632789462, (-17)); (22714344833255962, (-17)); (80011411496855578, (-17)); (1436949222970012, (-16)); (11920538138688663, (-17)); (63340976628917811, (-17)); (10367352036060429, (-18)); (19715300272671632, (-17)); (37096902673340892, (-17)); (82678687941723172, (-17)); (58097042302518542, (-17)); (67718944652322965, (-17)); (50532272486648611, (-17)); (69552803082117676, (-17)); (63464508080486925, (-17)); (32114631473379951, (-17)); (60807023934678295, (-18)); (94147343865085387, (-17)); (16212937546725135, (-16)); (206559877282284, (-15)); (36096787492778748, (-17)); (12701447111803541, (-16)); (15678896348585056, (-17)); (27393067067949117, (-17)); (99197814091418701, (-17)); (73585612804564923, (-18)); (26922498598480027, (-17))];
  [(79661813395722425, (-18)); (14453018947193808, (-17)); (41438855167710487, (-17)); (66608015452134883, (-17)); (68476420555092077, (-17)); (54603286569842024, (-17)); (33873346407318194, (-17)); (88601022629879023, (-17)); (57087716390883647, (-17)); (30491422055678297, (-17)); (12408109381572985, (-17)); (30346237597381942, (-17)); (17836874481162845, (-17)); (17036963149095752, (-18)); (45767974309582704, (-17)); (31723694402706615, (-17)); (27830893035192183, (-17)); (21711120559189478, (-17)); (75585585944507594, (-18)); (28020902175830348, (-17)); (38569842053838366, (-17)); (29151783132579423, (-17)); (39200399335675695, (-17)); (56601405160514751, (-17)); (37207371850605958, (-17)); (23515382914164107, (-17)); (2949431647433633, (-16)); (28485215043725887, (-17))];
  [(91757420302601178, (-17)); (53164427593452435, (-17)); (62184500610594551, (-17)); (55318191124397598, (-17)); (55542146790919955, (-18)); (67456943140139614, (-18)); (15526117102227188, (-17)); (6605778640757054, (-17)); (29942159656359169, (-17)); (72202426940742437, (-17)); (83344274005489238, (-17)); (1974287660923133, (-16)); (654921206338406, (-15)); (10683818226594988, (-17)); (34796609335999396, (-17)); (85827028055262289, (-17)); (38434076034159204, (-17)); (10522219611905792, (-17)); (94606603455547889, (-17)); (94254445784490049, (-17)); (34524554641895366, (-17)); (55105739159082889, (-17)); (17932601096276479, (-17)); ((-45155976371117554), (-19)); (18621482236601208, (-17)); (53193676306457915, (-17)); (19736317880647442, (-17)); (44185253530068347, (-17))];
  [(13194293194215523, (-17)); (90423123871286337, (-17)); (34154916005854574, (-17)); (17054503741973215, (-17)); (27664460714058303, (-17)); (76546091712212849, (-17)); (66739160740586156, (-17)); (1274657264792376, (-16)); (95598059063297702, (-17)); (68408286480582392, (-17)); (53044965719049375, (-18)); (96252818580993371, (-17)); (55639487572587121, (-17)); (14927945123917308, (-17)); (5907141279915834, (-16)); (26368294361598343, (-17)); (19868940661174816, (-17)); (53262318494266359, (-17)); (6718814021869528, (-16)); (42943552270309326, (-17)); ((-22629413987295327), (-17)); (93484768036434873, (-17)); (23615399483756838, (-17)); ((-46588417861314138), (-18)); (58672965851029879, (-17)); (51612576304808289, (-17)); (69447457896207862, (-18)); (9920173295181216, (-16))];
  [(59852674813013251, (-17)); (45108108290410354, (-17)); (38364019974757413, (-17)); (68418541548880751, (-17)); (99686548327882063, (-17)); (88203731336234603, (-18)); (73014635979222531, (-18)); (85223477315967577, (-18)); (98339976254211892, (-17)); (73833317893287043, (-17)); (42908546534397018, (-19)); (7834429749789773, (-17)); (49789477810958693, (-17)); (84583530492513026, (-17)); (5320997936789571, (-16)); (89840180538668468, (-17)); (70747408471921425, (-17)); (72209112112587881, (-17)); (53219233611678163, (-17)); (48312157228304259, (-18)); (80718350974136113, (-18)); (47598319238362724, (-17)); (88442117358157479, (-17)); (11570148940742107, (-16)); (10710139789514854, (-16)); (75232261707308401, (-17)); (10692064137344182, (-16)); (62674762582602839, (-17))];
  [(66820699187928578, (-17)); (96302247574618405, (-17)); (90188539334930817, (-17)); (22398897625586356, (-17)); (28807820997391864, (-17)); (47082964594259924, (-17)); (80330207930190722, (-17)); (78991155935026602, (-17)); (93272903509214133, (-17)); (27990879315454653, (-17)); (34339962909230748, (-17)); (90517013440534488, (-17)); (91013923037813593, (-17)); (83089817059895266, (-17)); (20290043795740287, (-17)); (54853623533919782, (-17)); (95231224270452319, (-17)); (4845111390579121, (-16)); (87895495004453372, (-18)); (10006572528989548, (-16)); (10738790443976041, (-16)); (13752947380781, (-13)); (10318829694969056, (-16)); (12706491849841721, (-16)); (13811830401615652, (-16)); (75597097177964157, (-17)); (1031865917406487, (-15)); (11298264670796758, (-16))];
  [(67894285620757289, (-17)); (73191487807721811, (-17)); (60094623874739517, (-18)); (22795760408279264, (-17)); (1026747150549967, (-17)); (3793230961977927, (-16)); (66313193102756984, (-17)); (24864445920329836, (-17)); (86162611977595516, (-17)); (62337290421615676, (-17)); (89578730869816259, (-17)); (13318457185330157, (-17)); (11259356798354236, (-17)); (17944169489254758, (-17)); (53404112811379456, (-17)); (57246790777034651, (-18)); (53283559091625998, (-17)); (39538758690933484, (-18)); (23291967068393415, (-17)); (65953144580638479, (-17)); (50989223839428177, (-17)); (37542926565739554, (-17)); (47931194603458217, (-18)); ((-10178728861236158), (-17)); (24355380730641626, (-17)); (51073301300996299, (-17)); (36118224070224186, (-17)); (35546873809500235, (-17))];
  [(96515692017628985, (-17)); (88965735282165426, (-17)); (75295718192557992, (-17)); (54062546788408006, (-17)); (37244445396210102, (-17)); (54100072857586379, (-17)); (27063290454021383, (-17)); (5455357108107588, (-16)); (66201202684916305, (-17)); (98567465356546313, (-17)); (66210661349789235, (-17)); (64142977874407558, (-17)); (50934419317299229, (-17)); (73195986978192906, (-17)); (88515568662035737, (-17)); (15550076429690085, (-17)); (33359666003178245, (-17)); (39234742943684253, (-17)); (85045689952313508, (-17)); (46462039814995948, (-17)); (46499352276681322, (-17)); (70017795431954499, (-17)); (31424882074552268, (-17)); (1973441840904932, (-16)); (44632006937018587, (-17)); (35980438661275699, (-17)); (52116606588430625, (-17)); (723150204814763, (-15))];
  [(19966651564366744, (-17)); (15090157567675688, (-17)); (3010314511502854, (-16)); (66907671539683411, (-17)); (26441786484755647, (-17)); (41365874352267507, (-17)); (11853419971409751, (-17)); (17389454782069536, (-17)); (29435256196890791, (-17)); (63258616846891425, (-17)); (40154459787345242, (-17)); (98741193528973281, (-17)); (96898431110564742, (-17)); (71930626739718073, (-17)); (12327546574526882, (-17)); (66225277812506145, (-17)); (70417620638529443, (-17)); (54021334594239134, (-17)); (16414439675677617, (-17)); (75461717066206868, (-17)); (40261847352298619, (-17)); (63459358612273409, (-17)); (53084173490211517, (-17)); (33044479314912029, (-17)); (56467640482176973, (-17)); (63914239194626055, (-17)); (29133483871922738, (-17)); (4755741136783006, (-16))];
  [(32149126720810672, (-17)); (30870213861078843, (-17)); (86193631960492378, (-17)); (5927272927495213, (-16)); (62577758559794672, (-17)); (38624145568464663, (-17)); (13931994546990845, (-17)); (56771615626319194, (-17)); (42710430325207804, (-17)); (56653379132023085, (-17)); (24682820679001927, (-17)); (10893957788576014, (-17)); (53773287987544682, (-17)); (6881859168797998, (-16)); (92680931011995493, (-17)); (40191034909985768, (-18)); (71366580819797176, (-17)); (30477673425847507, (-18)); (62360243456219155, (-18)); (25608008835101909, (-17)); (49194336834970681, (-17)); (4454535159803063, (-16)); (71480704896364944, (-17)); (76901319614189567, (-17)); (53361888991104456, (-17)); (43929679785766013, (-17)); (47202893905141802, (-17)); (68944028158323278, (-17))];
  [(33312634988899836, (-17)); (65852545093706061, (-17)); (4045279883094377, (-17)); (81833485980282383, (-17)); (97275758372867605, (-17)); (24728158948569934, (-17)); (17988069928119743, (-18)); (7621162173962609, (-16)); (87075931552356867, (-17)); (33871917267101637, (-17)); (48593492087680523, (-17)); (34109739847579679, (-17)); (9813086640654396, (-16)); (5872043410991904, (-16)); (51700646373496995, (-17)); (2638113705531353, (-16)); (63201990416644094, (-17)); (93206891486919641, (-17)); (79233672153385137, (-17)); (5279807012107669, (-16)); (14450722967756953, (-16)); (98792145953569022, (-17)); (69073149200523876, (-17)); (11167910851427136, (-16)); (41400182854647249, (-17)); (1000922943051791, (-15)); (18519023344472909, (-16)); (97083889074046292, (-17))];
  [(41524250090940229, (-17)); (78860060129045462, (-17)); (43041058344367966, (-17)); (746995336830092, (-15)); (61072408596217043, (-17)); (37040370100686948, (-17)); (4741593148372778, (-16)); (64851915949874361, (-17)); (20071878913311891, (-17)); (49331360740537589, (-17)); (62216649288174908, (-17)); (12266435753161919, (-17)); (74878549218526591, (-17)); (9918836341787084, (-16)); (46597478312584761, (-18)); (26573394226578695, (-17)); (62062245940644911, (-17)); (73336191351928526, (-17)); (37235406535779902, (-17)); (85925793274282114, (-17)); (1117851669798211, (-15)); (51030054798556501, (-17)); (86112577881724794, (-17)); (1155793745469754, (-15)); (60903744958331629, (-17)); (96136918264581483, (-17)); (97264935108616846, (-17)); (50864929845273643, (-17))];
  [(34980341310669205, (-17)); (98891097463532418, (-17)); (46161813741880209, (-17)); (87000072089890024, (-19)); (6336426914100789, (-16)); (22027054985511874, (-17)); (45812862233512219, (-18)); (74989205138927573, (-17)); (54623663227492869, (-17)); (96254916600058782, (-17)); (69372810715167466, (-17)); (69107267945723527, (-18)); (76496315696207862, (-17)); (8830109989595788, (-16)); (30589244416722672, (-17)); (2989153942280568, (-16)); (87592006192211802, (-17)); (83936305888986051, (-17)); (62706179235582638, (-18)); (1591713291737864, (-16)); (12953375790928698, (-16)); (70876482800011575, (-17)); (11021124112001726, (-17)); (10448141172247445, (-16)); (47844098145497727, (-17)); ((-52567615978745624), (-18)); (62021023746695902, (-17)); (21131684594243921, (-17))];
  [(32749013849832853, (-17)); (31617466931077187, (-17)); (43447230120884772, (-17)); (9235601106262461, (-16)); (17272543511581306, (-17)); (8041863081489391, (-16)); (44321628900056975, (-17)); (79176715932562458, (-17)); (55705375848432148, (-17)); (22047446144862037, (-17)); (54341512188942709, (-17)); (55151743804755515, (-17)); (61478214065626668, (-17)); (1885053085790368, (-16)); (25286848316024724, (-17)); (6790941321248356, (-17)); (92897240261474967, (-17)); (43282312161572001, (-17)); (46451473653050446, (-17)); (10134237830166102, (-16)); (72976675082744569, (-17)); (10488045242732162, (-16)); (33818714540265454, (-17)); (14418186072723843, (-17)); (32530382459816654, (-17)); (10494388667682846, (-16)); (73250840006967766, (-17)); (11145004349036336, (-16))];
  [(77107392857762846, (-17)); (37080527892680848, (-17)); (40325837240133999, (-17)); (4375020878419793, (-16)); (25301808448587693, (-17)); (85746839347702919, (-17)); (33181156322212146, (-17)); (1448672784750421, (-16)); (3384206460631789, (-16)); (97239649778856563, (-17)); (8669138315616346, (-16)); (34489311243950815, (-17)); (38710993512357728, (-17)); (9212179659238553, (-16)); (36479673828822012, (-17)); (10996755391185586, (-17)); (52608435980180546, (-17)); (67821125794469084, (-17)); (41264605545273381, (-17)); (68364708770621974, (-17)); (36188538860799685, (-17)); (99380231137547681, (-17)); (62713052773666345, (-17)); (34117108707101851, (-17)); (95380297482809417, (-17)); (2906672582655499, (-16)); (16852811271106166, (-17)); (73349685860398872, (-17))];
  [(22849773434902965, (-17)); (72795758749729211, (-17)); (30185216527870762, (-18)); (53043524021707533, (-18)); (77213660606967338, (-17)); (70210413284061701, (-17)); (82428272811954606, (-17)); (41369776238252809, (-17)); (9582255863043756, (-16)); (12652810104140055, (-17)); (44671875617038892, (-18)); (92798080251068293, (-17)); (84591927185591498, (-17)); (10998489891862473, (-19)); (42373548296614261, (-17)); (72349630833994927, (-17)); (23109130596029037, (-18)); (8165529612185729, (-17)); (4001717026864271, (-17)); (72977368457653424, (-17)); (1012121139620211, (-15)); (14586730078836663, (-16)); (60670080563172846, (-17)); (58585140976381878, (-17)); (98691717005182888, (-17)); (40320504892836347, (-18)); (9053872355632564, (-17)); (97646088981975215, (-18))];
  [(78432636170688852, (-21)); (92206977195511408, (-17)); (43598390900150008, (-17)); (58480832277520889, (-17)); (80248447589315719, (-17)); (72352961702049523, (-17)); (73285798308621253, (-17)); (10008799352523667, (-17)); (98777250757710933, (-18)); (21696134878097406, (-17)); (6273883528181059, (-16)); (71511821303559386, (-17)); (90608365511235822, (-17)); (6250102307710953, (-16)); (55812219518835249, (-17)); (68579391456174421, (-18)); (11374368263599088, (-17)); (49949811312079107, (-17)); (27660956146108884, (-17)); (11514497706432114, (-16)); (11824754510472946, (-16)); (89249866144441337, (-17)); (4477210474014815, (-16)); (10042276720844978, (-16)); (71219542323466445, (-17)); (50229716746220388, (-17)); (44205281001971319, (-17)); (39951650955462709, (-17))];
  [(49906840344377257, (-17)); (86083391044947732, (-17)); (2289568555727759, (-16)); (80697295513384082, (-17)); (40094706547130288, (-17)); (7081314236815589, (-16)); (52975269937802638, (-17)); (91595795718842377, (-17)); (69803353461078532, (-17)); (24055591486874439, (-17)); (34523941649231804, (-17)); (40512501464715234, (-17)); (52796211273587967, (-17)); (61337500916145504, (-17)); (49841670088452306, (-17)); (23414050285374466, (-17)); (81082415533797025, (-18)); (22207936501805903, (-17)); (63663792745840775, (-17)); (78274259788680678, (-17)); (87987611960269962, (-17)); (76007119540680979, (-17)); (87062890313644159, (-17)); (87772984033068846, (-17)); (71890571521185431, (-17)); (53979633911295655, (-17)); (69959998662154133, (-17)); (61672294418753104, (-17))];
  [(36523127260339083, (-17)); (59855349490560761, (-17)); (51270358468604227, (-17)); (94915329583767394, (-17)); (1690274672839126, (-16)); (83299149667990058, (-17)); (28365361424110935, (-17)); (12273977551080872, (-17)); (80940536261709695, (-17)); (87966582537079308, (-17)); (60592597404434012, (-17)); (82705306798943057, (-17)); (33419422056398085, (-17)); (95201670414638251, (-17)); (96004770291801522, (-17)); (10974044702250674, (-17)); (10818562840808621, (-19)); (85814512667573684, (-17)); (20496236077150887, (-17)); (94661468584658848, (-17)); (58778216958521597, (-18)); (9698250153258352, (-16)); (1259664709670032, (-15)); (16133685073142809, (-17)); (11414639586438029, (-16)); (33685859388640682, (-17)); ((-27761049537786148), (-17)); (2835714392505535, (-16))];
  [(7660610642753708, (-16)); (91396188734313766, (-18)); (38182605333250064, (-17)); (94415894798624411, (-17)); (10382126421230431, (-17)); (70262094448292967, (-17)); (33268611240176571, (-17)); (14210078420962535, (-17)); (2040874957929385, (-16)); (23072903965669556, (-17)); (52477261533510755, (-17)); (61763978948654341, (-17)); (19521788270363649, (-17)); (604599603463436, (-15)); (97825179189742184, (-17)); (36511579345211331, (-17)); (38119772176520805, (-17)); (61122360111769425, (-17)); (11487367264721104, (-18)); (10291015902821827, (-16)); (13640676704095847, (-17)); (68775919738862246, (-17)); (14306694714494914, (-16)); (19845708307088739, (-17)); (9801031098241425, (-16)); (82513092146244293, (-17)); (9360083738331533, (-17)); (56999609957435182, (-17))];
  [(21339920518012923, (-17)); (99753057395112799, (-17)); (47136075663046495, (-17)); (81548232077679339, (-17)); (15439871843076702, (-17)); (16718036265671476, (-17)); (10642793301453135, (-17)); (57922716416694076, (-17)); (68813165841643964, (-17)); (66238137744388381, (-17)); (54472593890861454, (-17)); (1912872218146161, (-16)); (5360660037815933, (-16)); (28080211666586996, (-17)); (75899600060606809, (-17)); (70456564513787812, (-17)); (95803826075531207, (-17)); (84254987346618881, (-17)); (87696835565567577, (-17)); (51980392815904275, (-17)); (69663865622662158, (-17)); (5971204605926751, (-16)); (65151245390720947, (-17)); (28242025667459258, (-17)); (49810807145155567, (-17)); (11662293867193909, (-16)); (93820363770035986, (-17)); (92488421754059247, (-17))];
  [(17825040991065544, (-17)); (91922225954148284, (-17)); (93061501722783402, (-17)); (49702616088961493, (-17)); (14637831383492461, (-17)); (85151078661932533, (-17)); (85337394009047973, (-17)); (79241843182311578, (-17)); (50833414567997226, (-17)); (88586599001654642, (-17)); (25191601044444367, (-17)); (10822741691329862, (-17)); (99122549859251285, (-18)); (2979239308745949, (-16)); (6432881558829634, (-16)); (43690768084450116, (-17)); (13619642485158534, (-17)); (94012214264654004, (-18)); (30158495419386033, (-17)); (22905458156481895, (-17)); (18657301042973445, (-17)); (34512377756361884, (-17)); (63458336691629325, (-17)); (15484605574410931, (-17)); (47685288933310543, (-17)); (34173061378848585, (-17)); (27539998322851567, (-17)); (30619028243660318, (-17))];
  [(49997042842867712, (-17)); (17839501445997752, (-17)); (8764020188578614, (-16)); (28776914828262168, (-18)); (50819963193416062, (-17)); (66235794738809539, (-17)); (22640994330655817, (-17)); (88079898613555607, (-17)); (35770558178147094, (-17)); (10543237992722831, (-18)); (10835048415867776, (-17)); (27403591072203781, (-17)); (13673893233031731, (-17)); (25623856195092842, (-17)); (60507548430006219, (-17)); (44874042075004472, (-17)); (42245838502428157, (-17)); (8075884966495035, (-16)); (79931938810097602, (-17)); (91601923238108049, (-18)); (27908995829902178, (-17)); (32358992382782081, (-17)); (24400337650278797, (-17)); (74867617353806715, (-17)); (7820252648456395, (-16)); (4112886356042636, (-16)); (11905379395686997, (-16)); (11865148069766223, (-16))];
  [(73464474325724305, (-17)); (95380177490908691, (-17)); (15921349659266171, (-17)); (2180484261314084, (-16)); (94924125086766031, (-17)); (66189682852875364, (-17)); (36907448929849662, (-17)); (69860501777644601, (-17)); (79855584554466863, (-17)); (16208054146591977, (-17)); (69934187076615739, (-17)); (7028504396044557, (-16)); (22662734067926871, (-17)); (32047556938860411, (-17)); (28780130385937797, (-17)); (69038394793065339, (-17)); (35463606796758118, (-17)); (45998101461474183, (-17)); (68238887065016507, (-17)); (6832074660118399, (-16)); (14739898837052838, (-16)); (80661687851419073, (-17)); (52624264961789247, (-17)); (10583752273681872, (-16)); (81649964106968742, (-17)); (5659001751054229, (-16)); (12249745148748601, (-16)); (92717918923360731, (-17))];
  [(97974019986849648, (-17)); (41124438872540126, (-17)); (67489682719699073, (-17)); (84239869422899538, (-17)); (53009502184209212, (-17)); (39207393501436971, (-17)); (76404578297796666, (-17)); (26694042195149237, (-17)); (14935374157784975, (-17)); (91880651985260675, (-17)); (89068048614953399, (-17)); (63344337067982714, (-17)); (62815517811732802, (-17)); (6066731900281489, (-16)); (13522334832853755, (-17)); (88869423599795827, (-17)); (74042574027648911, (-18)); (36452453245355154, (-17)); (34066914037102369, (-17)); (14363011796158838, (-16)); (76190820231577261, (-17)); (54701605598470615, (-17)); (14096966590415549, (-16)); (64353112132849188, (-17)); (52986420558532654, (-17)); (25632404437378414, (-17)); (13870140577094364, (-17)); ((-45566858224960274), (-19))];
  [(94052131519690996, (-17)); (65839687254307289, (-17)); (73513569401020218, (-17)); (19837444630252277, (-18)); (69829617678684719, (-17)); (30698810050267356, (-17)); (24465159435806039, (-17)); (95206517913106115, (-17)); (4600636741481785, (-16)); (21199028296314948, (-17)); (34517246075268737, (-17)); (324074901805397, (-15)); (90084362133172458, (-17)); (57031681371476406, (-18)); (15402053366827007, (-17)); (76210886086648044, (-17)); (66485570780992631, (-17)); (17826745704298319, (-18)); (59537126116648276, (-17)); (48136147361396592, (-17)); (13068896055944594, (-16)); (7319421562890307, (-16)); (21163557798416682, (-17)); (8544733634216487, (-16)); (41769045043668351, (-17)); (75656434893932056, (-17)); (11021565220386258, (-16)); (79726369340362346, (-17))];
  [(8548665223397417, (-16)); (72470693088929039, (-17)); (4847398684366051, (-16)); (9200825621132972, (-16)); (26641881133075762, (-17)); (99582281456887389, (-17)); (27917120651086891, (-17)); (45205757280723302, (-17)); (86293374405373946, (-17)); (94970881699648346, (-17)); (39914511292381549, (-17)); (24623073947740459, (-17)); (13612958072276915, (-17)); (18355805958171467, (-17)); (25614998871318662, (-17)); (55300374118832518, (-17)); (83273541129381556, (-17)); (48169885084420705, (-17)); (59506531083496383, (-17)); (4958771883498595, (-16)); (20940128084854542, (-17)); (59892957904221678, (-17)); (34211078507375825, (-17)); (25591652866551845, (-17)); (72509644902702963, (-17)); (11265014207476316, (-16)); (59139337092601407, (-17)); (15120371069540914, (-16))];
  [(99815351461897561, (-17)); (83960928794417078, (-17)); (18199094516586634, (-17)); (82049073557388263, (-17)); (77493676393741295, (-17)); (17743749122168284, (-17)); (40669427947744863, (-19)); (76337592997980863, (-17)); (50031739850869639, (-17)); (88588294541407764, (-17)); (54861486176214236, (-17)); (75248734832570063, (-17)); (53811397188963572, (-17)); (19509871904407983, (-17)); (41260985329539879, (-17)); (91537245141248258, (-17)); (83791358928915538, (-17)); (70622330030843172, (-18)); (56170470167372, (-14)); (5060920698426784, (-16)); (91101935015659019, (-17)); (38618425446197069, (-17)); (14608923768393314, (-17)); (85346220283318208, (-17)); (49540721807531535, (-17)); (10458879677353081, (-16)); (13654305325753422, (-16)); (49061827568639582, (-17))];
  [(44802088111601812, (-17)); (14386643362607288, (-17)); (24100207986925881, (-17)); (83881846643357916, (-17)); (4942054634338916, (-16)); (45014932714962375, (-17)); (72362715943090095, (-17)); (42673370097724073, (-17)); (48611783931926111, (-18)); (46135003748132164, (-17)); (18099440184294313, (-17)); (69250956761763793, (-17)); (1438535948975932, (-16)); (37408238571930075, (-17)); (76325307269746956, (-18)); (46217099153972185, (-17)); (23695434599513154, (-17)); (73398731057794053, (-17)); (17054678775011234, (-17)); (62633754764490424, (-17)); (38663337888690874, (-17)); (28716830404836569, (-17)); (66630636688775824, (-17)); (35660182292556641, (-17)); (20073478062633321, (-17)); (71188187565255712, (-17)); (43324356402157527, (-17)); (32402531259797412, (-17))];
  [(94635486922647927, (-17)); (30570002033549826, (-17)); (71182195556787509, (-17)); (42851521788926505, (-17)); (21312993826905191, (-17)); (91157055447462609, (-17)); (4401159178173264, (-17)); (85178451562877178, (-18)); (2841037118259383, (-16)); (85896216653816237, (-17)); (98784094097112152, (-17)); (69115007413194096, (-17)); (16448177727478497, (-17)); (97202305138120926, (-17)); (15547005425647875, (-17)); (39880240747367623, (-18)); (44238915837117332, (-17)); (32627899117663395, (-17)); (64479012033412131, (-17)); (63663837895014708, (-17)); (30693075989734281, (-17)); (12269171093067082, (-16)); (85013818305368105, (-17)); (34001929695101135, (-17)); (114298268154713, (-14)); (30292774143317441, (-17)); (18455624013513816, (-17)); (71266242571368843, (-17))];
  [(28527263283892412, (-17)); (77980864570111041, (-17)); (89804946368501681, (-17)); (90815588436247885, (-17)); (50029291030103828, (-17)); (17529401783905685, (-17)); (91822722657209055, (-17)); (64982193324769133, (-17)); (58522770063195273, (-17)); (70812113444889602, (-17)); (23242756876333737, (-17)); (67851093083058744, (-17)); (26324361693232201, (-17)); (10137016760348172, (-17)); (6952992980059628, (-16)); (61616260139360479, (-17)); (48472949073386284, (-17)); (65872295503611644, (-17)); (2636199387142546, (-16)); (7715286205667119, (-16)); (29807419969611371, (-17)); (33133587583810242, (-18)); (99824387838656303, (-17)); (40499885408803216, (-17)); (12775851905639662, (-17)); (96559413366299196, (-17)); (53237926234547772, (-17)); (24314928231553026, (-17))];
  [(36051955454857154, (-17)); (1738156877230782, (-16)); (89065006338807451, (-17)); (60503638141812954, (-17)); (1221324018461053, (-16)); (35925669960944961, (-17)); (1447028957118357, (-16)); (28869021369490266, (-17)); (82108880092751979, (-17)); (80520429132742077, (-17)); (93182702518582716, (-17)); (22918621820432106, (-17)); (43215025599793877, (-17)); (14748959080868651, (-17)); (61619589835810418, (-17)); (73403465298316239, (-17)); (15317353249891796, (-17)); (93080366759391509, (-17)); (4052486631371689, (-16)); (7383247970337854, (-16)); (30972145294226133, (-17)); (10811910041285007, (-16)); (30558792734921503, (-17)); (21759185218837182, (-17)); (48966123788330895, (-17)); (31204186679987944, (-17)); (11106050228897849, (-17)); (10098091195837605, (-17))];
  [(37227469020497694, (-17)); (23556641277447965, (-17)); (38763980748671667, (-17)); (10646508915796993, (-18)); (32565381753386824, (-17)); (9552660717217667, (-16)); (59920428993601804, (-17)); (99176462309057678, (-17)); (6664914869616454, (-16)); (66780525851761086, (-18)); (33585202015230631, (-17)); (71910855142142704, (-17)); (92794920053326557, (-17)); (57123599829853366, (-17)); (41584415958895171, (-18)); (98476649569915309, (-17)); (63225933097137388, (-17)); (91960217108012043, (-17)); (1890686974050404, (-16)); (67079493979660343, (-17)); (12288991450220947, (-16)); (14365860467784106, (-16)); (80207353112291313, (-17)); (11361925233831975, (-16)); (95225255020385302, (-17)); (33551322894926594, (-17)); (63420715769720049, (-17)); (12635779220691392, (-16))];
  [(57031286606488074, (-17)); (97514848976772273, (-17)); (77865440063578717, (-17)); (15328202342969033, (-17)); (65250541157483288, (-17)); (79544888430095761, (-17)); (27633633505086463, (-17)); (33073734589596793, (-17)); (35909666396155204, (-17)); (99516693997094285, (-17)); (21844641501338302, (-17)); (88900182078745171, (-17)); (47676017273364701, (-17)); (57517761003691337, (-17)); (18367614697273671, (-17)); (1898083895652426, (-16)); (23319849480198862, (-17)); (42930172124886745, (-17)); (69682334606016472, (-17)); ((-12347295603825689), (-17)); ((-1822426729928775), (-17)); (21383322040287456, (-17)); (23242983523674079, (-17)); (59792076087770107, (-17)); (65531628807374354, (-17)); (12538104308917941, (-17)); (28321516310575934, (-17)); (4101618206183999, (-16))];
  [(9505505896933989, (-16)); (24536239521200764, (-17)); (55508712353387657, (-17)); (93029778375659311, (-17)); (40181602191152721, (-17)); (67292317653039024, (-17)); (71284617422717556, (-17)); (65330049984595184, (-17)); (70301797833396518, (-18)); (94032239030652498, (-17)); (58972396360866575, (-17)); (67438208727667259, (-18)); (20600260725981467, (-17)); (73606944845162214, (-17)); (86072890258647727, (-17)); (87232556334811306, (-18)); (14557623414237586, (-17)); (14079660192843901, (-18)); (39393384660342434, (-17)); (90566729434006432, (-17)); (41389762164221522, (-17)); (52452496568928553, (-17)); (83895817817903651, (-17)); (43566535948157481, (-17)); (60262723054606071, (-17)); (46869572816915961, (-17)); (32620834899115314, (-17)); (15373342369016413, (-17))];
  [(41301227664487328, (-17)); (17025726920494499, (-17)); (75356796879233356, (-17)); (33793486299632747, (-17)); (34443534484039695, (-17)); (10826842599569664, (-17)); (58643330560950768, (-17)); (60750952497446076, (-17)); (3368392411496679, (-17)); (69765756951725755, (-17)); (87892630996599452, (-17)); (88582733605933694, (-17)); (75590593965706621, (-17)); (94670263631926743, (-17)); (49961894586623856, (-17)); (25613115626097382, (-17)); (10430848433329043, (-17)); (49868296062676287, (-17)); (86566814283564608, (-18)); (9066638561605318, (-16)); (90531399016400194, (-17)); (23883164001472273, (-17)); (65219894866288441, (-17)); (56583616878765763, (-17)); (42077520662715534, (-17)); (10325746945343105, (-17)); (16636725738742586, (-17)); ((-1296324180219825), (-16))];
  [(75467257186587577, (-17)); (79872047148845826, (-17)); (52494417478610889, (-17)); (15788585968165336, (-17)); (73872496472446525, (-17)); (43967262223979342, (-17)); (87512815723419712, (-17)); (34826244888446933, (-17)); (74958640457032166, (-17)); (63444264502959369, (-17)); (51856976357161921, (-17)); (59130923195321383, (-17)); (87305843018867901, (-18)); (99037914157756635, (-17)); (157742302826956, (-15)); (5938614108534277, (-16)); (70108638183886096, (-17)); (1500951810489648, (-16)); (15987710147070688, (-17)); (2508175105825764, (-16)); (66293084358340482, (-17)); (44523758776895711, (-17)); (11638532996245017, (-16)); (12967456682220802, (-16)); (11287505466983607, (-16)); (5836001869627192, (-16)); (8319055228306097, (-16)); (60541123208471603, (-17))];
  [(59395218744811706, (-17)); (24043925862063542, (-17)); (69871918489866625, (-18)); (15671692401588155, (-17)); (9143354842899617, (-16)); (68749333063132712, (-17)); (82685604066514384, (-17)); (39411647625801216, (-17)); (24764317552315562, (-17)); (97253381235599856, (-17)); (51851896045303114, (-17)); (46584536017062361, (-18)); (46379693404541333, (-17)); (21272516347736814, (-17)); (99483104761869723, (-17)); (10562462674916451, (-18)); (91757243211252293, (-17)); (92892640693590955, (-17)); (70307972939991359, (-17)); (60534282779370208, (-17)); (65949664111193917, (-17)); (44517263528744955, (-17)); ((-29300552733549051), (-17)); (50833682112340539, (-17)); (45959547088004132, (-17)); (63319541498627885, (-17)); (13884062060024567, (-16)); (10375308957753091, (-16))];
  [(51618628718471071, (-17)); (67475362226660462, (-17)); (63916845717167381, (-18)); (21499750728434019, (-17)); (41013870324368984, (-17)); (37066884805234768, (-17)); (67400304723902527, (-17)); (25014441986596681, (-17)); (53958748009282576, (-18)); (70212826625052682, (-18)); (63042754364314346, (-17)); (82756204041591741, (-17)); (44220407709529652, (-17)); (40947738502134812, (-17)); (73164876190044859, (-17)); (70394336115167488, (-17)); (60653260985748947, (-17)); (32306683696188299, (-17)); (30555898359395339, (-17)); (77968878088621951, (-17)); (85249381731888008, (-17)); (38273507387003491, (-17)); (8219018070353763, (-16)); (72818884684884433, (-17)); (34199051340020403, (-17)); (58499669910182894, (-17)); (61902012420443764, (-17)); (18893927970230365, (-17))];
  [(47931896479763036, (-18)); (84048058225363853, (-17)); (54365509668203305, (-17)); (18944677941044763, (-17)); (31162853376172461, (-17)); (73250470967734405, (-18)); (37381167147458649, (-18)); (82724100552011903, (-17)); (89763354121634509, (-17)); (91793548378441336, (-18)); (28078898673015051, (-18)); (76724397325772564, (-17)); (65986750274367301, (-17)); (45852194944425217, (-17)); (80213086701682046, (-17)); (61511860810860064, (-17)); (63119734354766255, (-18)); (62116274337864208, (-17)); (80679886503738285, (-17)); (16786337933893861, (-17)); (74915014623501008, (-17)); (62543826046941897, (-17)); (20063870001749615, (-17)); (10928218967862395, (-16)); (8219938728189522, (-16)); (1487205773943043, (-16)); (86694892153788849, (-17)); (77315832689114017, (-17))];
  [(72601701132297269, (-17)); (74883185161395527, (-17)); (36789109175086276, (-17)); (12417106389104671, (-17)); (60437363405771449, (-17)); (96762734249123794, (-17)); (14699317499222353, (-17)); (62640674679347885, (-17)); (80657471540921255, (-17)); (95694802566105486, (-17)); (78116118363779918, (-17)); (48149150476734426, (-17)); (44419009012640265, (-17)); (6214653080300977, (-16)); (3071548392603286, (-16)); (1908454015311265, (-16)); (95736785190261164, (-17)); (80273817409744008, (-17)); (43914491959238744, (-17)); (21994891796689892, (-17)); (87400233625588597, (-17)); (12652595637145156, (-16)); (19070974820343664, (-17)); (61355021807953525, (-17)); (85601914699229409, (-17)); (14310771737939532, (-17)); (94909275558238426, (-17)); (1520351027052024, (-15))];
  [(33203356024528785, (-17)); (4878227765960661, (-16)); (71504231545003105, (-17)); (97847613357317054, (-17)); (59436850148938758, (-17)); (59753307848443349, (-18)); (134096182585276, (-16)); (52621685649941663, (-17)); (22591745702682586, (-17)); (37850615085594652, (-17)); (7305206742736372, (-16)); (53856107134173115, (-17)); (43634826053666453, (-17)); (37785405638140046, (-17)); (58938403384274252, (-18)); (31192040046204561, (-17)); (7911448388327802, (-17)); (50248533560904185, (-17)); (22202434679387217, (-17)); (91896989276631558, (-17)); (92156622938431643, (-17)); (48768714482315434, (-17)); (30374292472415915, (-17)); (44033485958990731, (-17)); (31756824585961024, (-17)); (45120750062654891, (-17)); (35701187399800383, (-17)); ((-40045547780995921), (-20))];
  [(30613432244175565, (-17)); (48525230864681879, (-17)); (94098187849290271, (-17)); (47781102213285465, (-18)); (84313826716389884, (-17)); (53328013080843617, (-17)); (6177165029830376, (-16)); (58894343554379802, (-17)); (58411877836336557, (-17)); (18082842563669488, (-17)); (35997694456848151, (-17)); (30004734336475547, (-17)); (43140361291413964, (-17)); (52674706952160855, (-17)); (91650747441654579, (-18)); (48813321280260069, (-17)); (53933349230882932, (-17)); (65495834708393053, (-17)); (76306383392114796, (-17)); (37556619666569796, (-17)); (70315992533131089, (-17)); (72634741436326689, (-17)); (46394225814044887, (-17)); (68680906308179113, (-17)); (85579303603720303, (-17)); (63313271484368339, (-17)); (1274686552131812, (-15)); (12294167153220676, (-16))];
  [(47927166061065785, (-17)); (84748353553463929, (-17)); (98838690190920619, (-18)); (47872847675926977, (-17)); (1864320849170692, (-16)); (51766536334551516, (-17)); (88067750691738567, (-17)); (19871551064761184, (-17)); (82608903818957213, (-17)); (22974295395154287, (-17)); (42314937131527963, (-17)); (60935567762613418, (-17)); (18533472049629141, (-17)); (75201996315639974, (-17)); (43517996759275046, (-17)); (72640373363440247, (-17)); (16468122572880095, (-17)); (63859729537369414, (-17)); (50361217083464116, (-17)); (6243705241287405, (-16)); (39699941325071697, (-17)); (53714972819244577, (-17)); (12280261846058791, (-16)); (79186618767224759, (-17)); (97066611991105478, (-17)); (76631009720036958, (-17)); (23564547262879981, (-17)); (7588113809094863, (-16))];
  [(50448253719654423, (-17)); (11784186073119174, (-17)); (86999756430836028, (-17)); (31493442922978643, (-17)); (63668339874942015, (-17)); (6874117512167115, (-16)); (30410745505978098, (-17)); (93214761407087843, (-17)); (1833621809469056, (-16)); (3533154923887829, (-16)); (60251659193889684, (-17)); (8401588165567746, (-16)); (99448774234333404, (-18)); (72466365654809084, (-17)); (96602526836003333, (-17)); (96325532677766845, (-17)); (52125961309906232, (-17)); (50624118721782452, (-17)); (3157786240081889, (-16)); (48267960496943241, (-17)); (75966749709964154, (-17)); (942303514030159, (-15)); (83171521749291155, (-17)); (16753314514558604, (-16)); (12727377277345535, (-16)); (4607729017611305, (-16)); (74858167267210618, (-17)); (78147461659692397, (-17))];
  [(50588810072232004, (-17)); (12851187607828507, (-17)); (91961581291108785, (-17)); (8909560293912776, (-16)); (61885916325698065, (-17)); (44517803436837566, (-17)); (1039408413624362, (-16)); (24604327188624864, (-17)); (37610445857206687, (-17)); (20486826966094629, (-17)); (54195220622079732, (-17)); (1853194724803886, (-17)); (23030652669995155, (-18)); (99975003819644415, (-18)); (44391187845023683, (-17)); (56399526403179323, (-17)); (96665072700893706, (-17)); (20255875224060449, (-17)); (38568554092780927, (-17)); (3833174351900786, (-16)); (15283323827125495, (-17)); (55032035935428525, (-17)); (46781056663336074, (-17)); (42130157046291705, (-17)); (42162935519210065, (-17)); (84993909131866829, (-17)); (45566265661287686, (-17)); (11533546456952584, (-16))];
  [(44482802380073472, (-17)); (71335688744625381, (-17)); (96078578865823205, (-17)); (61242209940683745, (-17)); (17473283424008024, (-17)); (18662484312270566, (-17)); (55484205451535984, (-18)); (15264359736348188, (-17)); (25910605050621915, (-17)); (43908375779738806, (-17)); (68053351644548699, (-17)); (4502235341149351, (-16)); (20411959046934991, (-17)); (64672159095003889, (-17)); (20205158346061047, (-17)); (52056985359211838, (-17)); (51798788841203003, (-17)); (67280428232560352, (-17)); (98693550315472955, (-17)); (62693914031848819, (-17)); (45579477675761737, (-17)); (59086688731843839, (-17)); (53144125374366546, (-17)); (51576443240235581, (-17)); (70021577481517172, (-17)); (6439013322023357, (-16)); (42596279583970531, (-17)); (5861340365972213, (-16))];
  [(1168903222109734, (-16)); (58592652701046166, (-17)); (96490851288114754, (-17)); (4892099255158443, (-16)); (96380749398845778, (-18)); (32480055030217869, (-17)); (63418833986402146, (-17)); (44221468690582066, (-17)); (95320884727818822, (-17)); (67636847933066802, (-17)); (26137435198017367, (-17)); (48729842712444793, (-17)); (16007543192352758, (-18)); (18604451115302456, (-17)); (64857284909789226, (-17)); (52194949133448743, (-17)); (22419675327923372, (-17)); (38567811658531315, (-17)); (79168158265182353, (-17)); (26427252995242323, (-17)); (17934293221746368, (-20)); (9418278216144188, (-17)); (60492765196870346, (-17)); (13791996690418723, (-17)); (44789153077662491, (-17)); (71008835606926035, (-17)); (35359625966204261, (-17)); (83366638614108135, (-17))];
  [(23249809688685241, (-17)); (33830211975036162, (-17)); (22657270701005194, (-17)); (5741104406548293, (-16)); (42008340118404452, (-17)); (6664573732799437, (-16)); (28861265997695007, (-18)); (30744418551357855, (-17)); (34077481180811064, (-17)); (56475649258090288, (-17)); (46743670862902653, (-17)); (54709278000866468, (-17)); (60334217525767042, (-17)); (23636970099531696, (-17)); (33585692657595123, (-17)); (92595264585119585, (-17)); (32035791480179387, (-17)); (57856427208714534, (-17)); (57742570409425209, (-17)); (45008637551546077, (-17)); (51924776246564686, (-17)); (70345257220538648, (-17)); (26686074302734508, (-17)); (46373833094190592, (-17)); (59344176582044361, (-17)); (38660622306081954, (-17)); (44165042576721092, (-17)); (62791033127542017, (-17))];
  [(26155284880231278, (-17)); (74927186033481652, (-17)); (84502966922822143, (-17)); (60333439958157098, (-18)); (63656379592088252, (-17)); (62895309822693957, (-17)); (37024065546851925, (-17)); (37989354143360421, (-17)); (85686683313820833, (-17)); (27198227534174035, (-17)); (46486593817116995, (-17)); (4850863432126139, (-16)); (74269244029015224, (-17)); (16564641689428383, (-17)); (69731987150246433, (-17)); (42735475129814271, (-17)); (124803175751662, (-15)); (11394453995844234, (-17)); (20889433393540524, (-17)); (39373403188678091, (-17)); (89694332857118564, (-17)); (12770808043898307, (-16)); (19417031327524023, (-17)); (59743889847235399, (-17)); (79316567133840177, (-17)); (10942244981757621, (-17)); (23770522280537756, (-17)); (3448321554727567, (-16))];
  [(61594633109012209, (-17)); (44647012566338251, (-17)); (83254376722558343, (-17)); (63900850824363509, (-17)); (89505837379966158, (-17)); (51049576280807485, (-17)); (91722218566419678, (-17)); (97572373551531244, (-17)); (31735995070236167, (-17)); (62332311326761369, (-17)); (33036886032218171, (-17)); (36503204857486127, (-17)); (98500351464786406, (-17)); (41938881172116194, (-18)); (20423824285875991, (-17)); (26144706294137621, (-17)); (88445762616731405, (-17)); (91408409650154343, (-17)); (704258034165263, (-15)); (12500660099745184, (-16)); (14236104527555775, (-16)); (60827396037520653, (-17)); (30895571084223628, (-17)); (38741407639484271, (-17)); (10921862883249941, (-17)); (156380683849348, (-14)); (18959632796320491, (-16)); (10195909912062158, (-16))];
  [(54045402557601374, (-17)); (73564779760195165, (-17)); (61523659634110295, (-17)); (73027313216649981, (-17)); (32580978493126045, (-17)); (65389475265809904, (-17)); (89556559388912194, (-17)); (7282633348645563, (-16)); (9474693524572716, (-16)); (57301603734862594, (-18)); (95481193780792395, (-17)); (11417159497391449, (-17)); (19660319465433274, (-17)); (84296509739419623, (-17)); (20973509417363423, (-17)); (2089297331594705, (-16)); (43915335920094711, (-17)); (43887840515187104, (-17)); (51073993398522277, (-17)); (81089485525973259, (-17)); (894574419539929, (-15)); (87901394605792482, (-17)); (82362249362391593, (-17)); (84637783566394487, (-17)); (87682386692908454, (-17)); (10191113805134808, (-16)); (82694530529219867, (-17)); (10411414299990365, (-16))];
  [(78193293002306374, (-17)); (44732418980646338, (-17)); (95302181074755365, (-17)); (76056678919893494, (-17)); (5604094108296489, (-16)); (35899299767190118, (-17)); (43374944034126484, (-17)); (85965914412765354, (-18)); (73306458132483165, (-17)); (43756956678337777, (-17)); (32106038702271689, (-17)); (24444006193236378, (-17)); (51428391150721575, (-17)); (7753578309114183, (-16)); (63977671075369713, (-17)); (72539134012409812, (-17)); (20301976844683789, (-17)); (73299517224322952, (-17)); (32298901619827525, (-17)); (64134271650665708, (-17)); (32828616429164892, (-17)); (68376419182904025, (-17)); (13424461719146719, (-16)); (76412817950688261, (-17)); (12686929778580152, (-16)); (61141700750401562, (-17)); (39137332326072083, (-17)); (38524895098687351, (-17))];
  [(48842461050772024, (-17)); (75972275774000841, (-17)); (22202913788863821, (-17)); (73293739250842183, (-17)); (26630631932766768, (-17)); (28241191662658605, (-17)); (86240947284200842, (-18)); (98507103567076559, (-17)); (86817955790339185, (-17)); (6780317637914095, (-16)); (3548727139638771, (-16)); (46613147957130585, (-17)); (46972501412680667, (-17)); (66954771426969928, (-17)); (29623204316098384, (-17)); (79780040657090767, (-18)); (66717187163112046, (-17)); (64508187797883543, (-17)); (81669866853626638, (-17)); (46191734439667048, (-17)); (60650636840496208, (-17)); (56963890353664648, (-17)); (64772727481827019, (-17)); (50686110468284895, (-17)); (32754657554172278, (-17)); (80153653148197801, (-17)); (11370851978490044, (-16)); (99463588508915857, (-17))];
  [(16005415276071677, (-17)); (70695791419793486, (-17)); (40620026971313283, (-18)); (31088369663431736, (-17)); (7525932523141734, (-16)); (46479541516999012, (-17)); (49928905136649304, (-17)); (37893336562600122, (-17)); (32808032125677977, (-17)); (14951942012465413, (-18)); (6855911988921144, (-16)); (34152050147166824, (-18)); (62921800165151864, (-17)); (48405110255002304, (-17)); (29098187817319776, (-17)); (53787530264655836, (-17)); (38951403703525667, (-17)); (12914964781957428, (-17)); (9083572204864806, (-16)); (43760223901794792, (-17)); (75611486991505594, (-17)); (25489526782745947, (-17)); (43802599853121582, (-17)); (76732194057748404, (-17)); (33454531091204898, (-17)); (5575166747972391, (-16)); (71975021999455846, (-17)); (37648431287395417, (-17))];
  [(96088500332284821, (-17)); (61881677323160833, (-17)); (61939659297422267, (-17)); (24699827452286094, (-17)); (66287343743526306, (-17)); (3910991393485439, (-16)); (93603861367966334, (-17)); (4783545927145243, (-16)); (29869237305178187, (-17)); (91754385265958471, (-18)); (46754629619115406, (-17)); (58325675481837669, (-17)); (63789986715310998, (-17)); (13376795934193986, (-17)); (40909177047566569, (-17)); (14838878678817347, (-17)); (3802653228176871, (-16)); (40213545091028036, (-17)); (2289308726795618, (-16)); (1147155020373988, (-15)); (97357648424626442, (-17)); (68971892768370058, (-17)); (33452269213332708, (-17)); (40837673928854684, (-17)); (26772840838103329, (-17)); (65025253859307708, (-17)); (60957345637800553, (-17)); (45034188795933416, (-17))];
  [(29223495442838443, (-17)); (96362699382388395, (-18)); (43775755326785604, (-17)); (54178212228489953, (-18)); (39894886986020717, (-17)); (71884757822579504, (-17)); (47335089264616059, (-17)); (17295254679564587, (-17)); (36240632479271107, (-17)); (9338693121455276, (-16)); (4314693474830924, (-16)); (74402152055516824, (-17)); (51695907927972407, (-18)); (75747297266130809, (-17)); (34669357022726632, (-17)); (1661389505904689, (-16)); (45748983533718646, (-17)); (84395631692444251, (-17)); (32530744074495865, (-17)); ((-32571241488237188), (-18)); (29094432575526569, (-17)); (436656256279015, (-15)); (17300325013219103, (-17)); (37048648166331072, (-17)); (72136752191843445, (-17)); (82340505650851811, (-18)); (36407212266668804, (-17)); (56518083633249361, (-17))];
  [(7863033766878047, (-16)); (25309977872259637, (-17)); (97217171146602999, (-18)); (5059019334789352, (-16)); (91556833641266155, (-17)); (9979709907392228, (-16)); (37132498734281894, (-17)); (40343220834873994, (-17)); (98517620962344521, (-17)); (87392009251735903, (-17)); (42016450605575684, (-18)); (20321006650924955, (-17)); (37255470031661109, (-17)); (91188859713464898, (-17)); (57495423111561139, (-17)); (49695278433737999, (-17)); (58415196154998017, (-17)); (4150407222661302, (-16)); (44125815087146147, (-17)); (11929499663732861, (-17)); (26659824261888398, (-17)); (51681989179918508, (-17)); (83850531436312181, (-17)); (12151307081798983, (-16)); (15697563600874289, (-16)); (56978018298193689, (-17)); (84638373080926177, (-17)); (11531159865781395, (-16))];
  [(83129655719295736, (-17)); (42739449644827554, (-17)); (14911172991631549, (-17)); (91563798193357504, (-17)); (98647144821394828, (-17)); (45333801593065604, (-17)); (77902866645829294, (-17)); (80576390709501733, (-18)); (86922516425541563, (-17)); (98681135371716999, (-17)); (87389694550588837, (-17)); (62641213037910426, (-17)); (89644983378105592, (-17)); (14305680684548938, (-17)); (12826894815493406, (-17)); (79081505057793067, (-17)); (84473582210213838, (-17)); (24969546667650355, (-17)); (94869131371971172, (-17)); (16482658901337279, (-16)); (11147130598748907, (-16)); (12602224850682946, (-16)); (76671296775011244, (-17)); (23919405901638635, (-17)); (76936671868469775, (-17)); (17244038251495781, (-16)); (10174810948676218, (-16)); (12449091475088156, (-16))];
  [(94914980001597415, (-17)); (52699188651639672, (-17)); (54932146556220351, (-17)); (96048488016172906, (-17)); (32876521483796839, (-17)); (8439634777268642, (-16)); (87096802763847991, (-17)); (46760474550893727, (-17)); (65626475803412698, (-17)); (79696811804215784, (-17)); (45591262326898363, (-17)); (98605850461329081, (-18)); (17521339750019993, (-17)); (50245073975575094, (-18)); (91433440152046686, (-19)); (98682937842139962, (-17)); (74541082573178907, (-17)); (46385590791502773, (-17)); (57678517980330646, (-17)); (76748207281829628, (-17)); (34254010136313612, (-17)); (58463949902265588, (-17)); (9272741003600512, (-16)); (49042093745065074, (-17)); (69904126037350056, (-17)); (15053740025015978, (-16)); (65126467132467936, (-17)); (1205998667518837, (-15))];
  [(87933362441714624, (-17)); (63875018223097901, (-17)); (26184992601285983, (-17)); (74690846121684085, (-17)); (86476277107311483, (-17)); (12774283037215672, (-17)); (52583620387891117, (-17)); (57635321060036993, (-17)); (44896925466641369, (-18)); (53870840836373701, (-17)); (89946736700767249, (-18)); (18497792144223868, (-18)); (493541354039292, (-15)); (97415022051281619, (-17)); (58336366332037559, (-17)); (18439088534872228, (-17)); (49824440442153051, (-17)); (81397748565693107, (-17)); (62398999996220328, (-17)); (36539414465824793, (-17)); (38134427223889172, (-17)); (47813425530522327, (-18)); (13163637284069887, (-16)); (13144232976655152, (-16)); (2766740829819348, (-16)); (10497667515628057, (-16)); (11913317243997787, (-16)); (15256234981540259, (-17))];
  [(3893742169326837, (-16)); (19358237252366939, (-17)); (3835852329732663, (-16)); (61284252746106516, (-17)); (27935620568096575, (-17)); (7604798962794469, (-16)); (82418896075900738, (-17)); (71527026839744812, (-17)); (85251906675030376, (-17)); (9464878496231165, (-16)); (78227305142584802, (-17)); (16493207406262655, (-17)); (73259363109770403, (-17)); (79098141439365921, (-17)); (16447067228940726, (-17)); (64705396179703112, (-17)); (6982754685303898, (-16)); (86763129305258857, (-17)); (97708778083137182, (-17)); (11777985808761304, (-16)); (79085882050471357, (-17)); (13046212051750246, (-16)); (11135904148331222, (-16)); (73263121025366285, (-17)); (12389613961977108, (-16)); (13481491974670012, (-16)); (94157044232796183, (-17)); (15360637865539353, (-16))];
  [(80698770840135448, (-17)); (15147914917439487, (-17)); (45583679505603025, (-17)); (1445829648681014, (-16)); (45991015300964599, (-17)); (42370024218340385, (-17)); (62016518245103891, (-17)); (7679687698515768, (-16)); (62851565450579572, (-17)); (81377190072013383, (-18)); (31314038301956781, (-18)); (17622623552226069, (-17)); (24558567766594186, (-17)); (38675767705525532, (-17)); (13345904909268935, (-17)); (36574687405621886, (-17)); (5492231407116539, (-16)); (93602942733087979, (-17)); (54541584725854642, (-17)); (19169304718150748, (-17)); (27311061706489603, (-17)); (23754995208780372, (-17)); (55292219469151571, (-17)); (41326564338845928, (-17)); (47032744220981093, (-17)); (85993685518560747, (-17)); (93985468993017907, (-17)); (97184608077612, (-14))];
  [(21108222290434209, (-17)); (43649533966694343, (-17)); (61714751922939071, (-17)); (14358687492361422, (-17)); (9285802661310284, (-16)); (2417337305718581, (-17)); (87376879477444802, (-17)); (44798953887133719, (-17)); (90745402317832624, (-17)); (66889452085425238, (-17)); (30830753129286759, (-17)); (93178464334300548, (-17)); (90277520236405973, (-17)); (64141151267402141, (-17)); (63669702891926561, (-17)); (98498634643482164, (-17)); (50513372506158039, (-17)); (5074830245747074, (-16)); (66369987142735909, (-17)); (85031707004878876, (-17)); (11141119541096969, (-16)); (63418980544683146, (-17)); (10123567417374659, (-16)); (1321728298010957, (-15)); (9823960006127237, (-16)); (69928363437278662, (-17)); (99350221605215527, (-17)); (66982100358051055, (-17))];
  [(42750498738774967, (-17)); (12896781892082987, (-17)); (71378883228527334, (-17)); (64143289038049967, (-17)); (93485158123079781, (-17)); (56790704107984258, (-18)); (32352429073397226, (-17)); (36607726408673813, (-17)); (44522292406729413, (-17)); (73828477772395862, (-17)); (20024941895125792, (-17)); (31724959867577285, (-18)); (92948518915230738, (-17)); (88865744568930904, (-17)); (81801978360684868, (-17)); (15607149607477055, (-17)); (75551959512784084, (-17)); (63038358352777635, (-17)); (69087233172957552, (-17)); (45639867443523019, (-17)); (50453867200997382, (-17)); (51329273308906131, (-17)); (86783521458018453, (-17)); (1195629521191794, (-15)); (2139937662478259, (-16)); (90625215526817726, (-17)); (11814888615707628, (-16)); (45898042152281154, (-17))];
  [(96020081214903352, (-18)); (50364730981879757, (-17)); (41319439861635154, (-17)); (77126671056891793, (-17)); (22271732969462232, (-17)); (58592301102061528, (-17)); (43488518762726136, (-17)); (83815986252704722, (-17)); (63582319749386507, (-17)); (51457239360646545, (-17)); (76763665271124526, (-17)); (80804845223470956, (-17)); (10664304661774948, (-17)); (99528427382766238, (-17)); (39151714360672185, (-17)); (10383576734740441, (-17)); (93674390396689466, (-17)); (68578973096277063, (-17)); (32232486297082796, (-17)); (90625662905920457, (-17)); (46644452972902295, (-17)); (81309764109543303, (-17)); (7505055481892422, (-16)); (6113443228333133, (-16)); (83109564353618159, (-17)); (10020739540476, (-13)); (74649987162463549, (-17)); (10223287870844606, (-16))];
  [(53954066916007215, (-17)); (58076403707253166, (-17)); (39330125013835904, (-17)); (10085651636544957, (-18)); (11735322912188906, (-17)); (93818307283414992, (-17)); (43634507426069291, (-17)); (60062014640053096, (-17)); (92378487023190325, (-17)); (99270240125918452, (-17)); (98891963315616682, (-17)); (24779611987727268, (-18)); (64473266312967459, (-17)); (67241779982597949, (-18)); (30832457957246207, (-18)); (66979854372220538, (-18)); (58350339168976695, (-17)); (22957960229526009, (-18)); (40974105361392488, (-17)); (57017228250877827, (-17)); (78780052295928216, (-17)); (15896925508264714, (-16)); (35856265451109919, (-18)); (55157594090801502, (-18)); (13481040291341151, (-17)); (3454984967442663, (-16)); (478925873293781, (-15)); (96659940380109965, (-17))];
  [(96213826864273844, (-17)); (52022508370981257, (-17)); (28275490722752561, (-17)); (87855572585741293, (-17)); (75237140761744992, (-17)); (9850378835644289, (-16)); (66591792305285169, (-17)); (49643438150311359, (-18)); (28708307728183557, (-19)); (15116548177811184, (-17)); (62371376422365676, (-17)); (2184719726173312, (-17)); (3842953538714714, (-16)); (60293160449697392, (-17)); (6970604414696161, (-16)); (45500493929356267, (-17)); (74747206718549064, (-18)); (99594013817097649, (-17)); (93588024168022754, (-17)); (94749297179649539, (-17)); (42505404903676919, (-17)); (28831487479021906, (-17)); (1460679704170599, (-15)); (86484266545223698, (-17)); (90840101467832557, (-17)); (14249158237978961, (-16)); (75612008824379207, (-17)); (96211259224077172, (-17))];
  [(86915216656404626, (-17)); (55369220590970603, (-18)); (61591409284129361, (-17)); (69507751999564249, (-17)); (34883442796989517, (-18)); (72999526203524689, (-17)); (49263554972023049, (-17)); (15468688143471243, (-17)); (22762437074807862, (-17)); (83714557655861432, (-17)); (76555914361973609, (-17)); (43033510670257291, (-19)); (66622135537617855, (-17)); (86516868690530213, (-17)); (75821197355226966, (-19)); (87009926862594644, (-17)); (52045672114155228, (-17)); (25951561083486208, (-17)); (47421323165692963, (-17)); (11681892399114633, (-16)); (15119690374967532, (-17)); (88258593701206933, (-17)); (13774303242916854, (-16)); (18894965382078716, (-17)); (10241835399107613, (-16)); (75844751265487143, (-17)); (10152393000550188, (-17)); (61290208145334668, (-17))];
  [(66243467800158473, (-17)); (3171613874027468, (-16)); (85763993819039963, (-17)); (66710841258939679, (-17)); (80498488463104156, (-17)); (37338809088585612, (-17)); (81726168398385757, (-17)); (33850042457634266, (-17)); (41914699102836128, (-17)); (96435952334640451, (-17)); (70382513317374584, (-17)); (37637113866515925, (-17)); (43360466923322316, (-17)); (4102302472459548, (-16)); (82787720567975454, (-17)); (4768699556971866, (-16)); (33023690971976405, (-17)); (11741335569039824, (-17)); (41969465082311574, (-17)); (94413940908296534, (-17)); (81413470135598853, (-17)); (55658002049872168, (-17)); (63362567181081686, (-17)); (67099593442498062, (-17)); (11903118838283705, (-17)); (62943419350565299, (-17)); (44346479827104052, (-17)); (38089905989726025, (-17))];
  [(28796239488921538, (-17)); (21386318343135435, (-17)); (38097413465327967, (-17)); (4622118394501864, (-16)); (9433851227691431, (-16)); (89702349877557352, (-17)); (18097460712869118, (-17)); (68819266504675936, (-17)); (8061022924775979, (-16)); (95276416362019523, (-17)); (48018036460549351, (-17)); (64345838087638541, (-17)); (17346569610426155, (-17)); (11615277962110149, (-17)); (73880859638867413, (-17)); (71317266593671103, (-17)); (47329036150298098, (-17)); (42919966354048311, (-17)); (22518770607227434, (-17)); (31371776449530875, (-17)); (78765725972412692, (-17)); (73153846525580135, (-17)); (21667623155398202, (-17)); (86957808865969555, (-17)); (84005433342496461, (-17)); (31223556212250891, (-17)); (73732668665150269, (-17)); (72183710943104262, (-17))];
  [(25484430663239377, (-17)); (38257115652230211, (-17)); (99050177164000686, (-17)); (11778883157905107, (-17)); (49034600793201877, (-18)); (38834457005263034, (-17)); (73520156639160772, (-17)); (52970682155547444, (-17)); (64155455560922625, (-17)); (4112397089079296, (-16)); (11968519035644076, (-17)); (89002172465966656, (-17)); (47955127471092829, (-17)); (95417868839564757, (-17)); (61469513138148202, (-17)); (83671764961828154, (-17)); (35265318408478719, (-17)); (45018666315745692, (-18)); (60301215942560993, (-18)); (39158534961123437, (-17)); (20222923660404438, (-17)); (39931747320395716, (-17)); (88672416364323392, (-17)); (7301467613109659, (-16)); (15266665251619171, (-16)); (14359153539862332, (-17)); (15765965319393838, (-17)); (41181290832541867, (-17))];
  [(51739942214448997, (-18)); (51732990095046294, (-17)); (69320680480792973, (-17)); (48756166474531548, (-17)); (77432652857101214, (-18)); (86247426942695782, (-17)); (92783407305474297, (-18)); (99922948418693047, (-17)); (68162864844940507, (-17)); (19490055132073536, (-17)); (97017580755266597, (-17)); (7217101704068275, (-16)); (83939755061155452, (-17)); (4832962262057634, (-16)); (34785836720080754, (-17)); (16315543332226001, (-17)); (23202374096888867, (-17)); (52839162541085738, (-17)); (83520434481726202, (-17)); (55672226316411011, (-17)); (13282154581504919, (-16)); (1907789564360167, (-15)); (24821154415760313, (-17)); (40714068394881409, (-17)); (76825746659680871, (-17)); (35863087455089715, (-17)); (94300070508914946, (-17)); (11420083631862927, (-16))];
  [(66416902412419088, (-17)); (73689594360706978, (-17)); (96696355414817825, (-17)); (14875623880912248, (-17)); (77067386206497213, (-17)); (96650053872982544, (-17)); (7693507695165902, (-17)); (96481664126688005, (-17)); (16571422391673085, (-18)); (40786645432612234, (-17)); (32725631102112729, (-17)); (91306135801395083, (-17)); (39552827773664523, (-17)); (86201415487876798, (-17)); (36894321268161767, (-17)); (16142800152400749, (-17)); (42083768800061594, (-18)); (33208054118356756, (-17)); (70122279424067524, (-17)); (13340491022300757, (-17)); (10820928007707202, (-16)); (88238106194207722, (-17)); (54202542852955937, (-17)); (11555361817616712, (-16)); (12841265889082025, (-16)); (39951928468217879, (-18)); (85575127035194876, (-17)); (23236801371404545, (-17))];
  [(41212211709505664, (-17)); (79458952201612087, (-17)); (68689276389722831, (-17)); (70040919427556525, (-17)); (91848148176188693, (-17)); (37343026048794026, (-18)); (90641655973366486, (-17)); (48913060613214943, (-17)); (42482280960057783, (-17)); (58186068389513568, (-17)); (23935046281559991, (-17)); (18732467225043514, (-18)); (11074815061575516, (-17)); (10623848359980836, (-17)); (35091249321605122, (-17)); (86949970866642101, (-17)); (72692420475244746, (-17)); (42136757830276306, (-17)); (66679480009976144, (-17)); (28164507425728419, (-17)); (34007186893795738, (-17)); (18282673897246229, (-17)); (99145894302620807, (-17)); (66547878850055253, (-17)); (31100705248280608, (-17)); (12856184349736797, (-16)); (13149659150914408, (-16)); (56941871474508732, (-17))];
  [(15724359843063218, (-17)); (51024881630312124, (-17)); (62453417984737869, (-17)); (63738730359165352, (-17)); (53169191373603786, (-17)); (69301271492879235, (-18)); (14600456615116597, (-17)); (23806302211164543, (-17)); (22077952440658699, (-17)); (41805873465400956, (-17)); (98250663960219864, (-17)); (53576876365391324, (-18)); (58748592621033557, (-17)); (55289596148005538, (-17)); (15887673044061457, (-17)); (75930764008912988, (-17)); (53560329491358605, (-17)); (25483368820841601, (-17)); (3343380873940639, (-16)); (50899562645590446, (-17)); (82502537562465372, (-17)); (70792094904208935, (-17)); (41579022520508263, (-17)); (60221619660440129, (-17)); (46853859282564553, (-17)); (39655154334735226, (-17)); (51599796017567101, (-17)); (34610479517408488, (-17))];
  [(48693756369896835, (-17)); (94622602134710132, (-17)); (20831788338706358, (-18)); (2846184328536705, (-17)); (48433367652629622, (-17)); (13394033688623008, (-17)); (9259996674067108, (-16)); (44961433530446004, (-17)); (63949340014455225, (-17)); (1912524052510064, (-16)); (31620156302268299, (-17)); (55831224723756823, (-17)); (76133002157516849, (-17)); (8484444934303107, (-16)); (73135626440944435, (-17)); (40783049534357585, (-17)); (44157399700018518, (-17)); (58077353632360573, (-17)); (66110637982989995, (-18)); (82178791133780171, (-17)); (83021645139079026, (-17)); (57258932614465641, (-17)); (7405888508535462, (-16)); (12658772207844484, (-16)); (39303505376902281, (-17)); (23717732558705959, (-17)); (65228645334377799, (-17)); (13662195462574533, (-17))];
  [(4674463120018717, (-16)); (55702524091653716, (-17)); (44675717734136344, (-17)); (87922056712882268, (-17)); (87196176714213769, (-17)); (58884851124740067, (-18)); (50234776838477579, (-17)); (94686989393652421, (-17)); (20968623677199349, (-17)); (57290834521089962, (-18)); (80757334491027188, (-17)); (66616803068206498, (-17)); (72087470328057357, (-17)); (79465277455902517, (-17)); (35345510188369056, (-17)); (13503794375982381, (-17)); (82511667619253504, (-17)); (88936355289891544, (-17)); (13951663877184906, (-17)); (13465810825824018, (-16)); (17306684628725653, (-16)); (53619920476956984, (-17)); (77948450721460016, (-17)); (90587452177515915, (-17)); (39716654323156447, (-17)); (12535496018024606, (-16)); (13780098044325428, (-16)); (42959200816088317, (-17))];
  [(57442041183114179, (-17)); (97826098454903532, (-17)); (87753187363260787, (-17)); (62294008389116107, (-17)); (16390977651374183, (-17)); (24970810949628297, (-17)); (35494147536838661, (-17)); (39988170217382613, (-17)); (73284924230059723, (-17)); (53822798492593871, (-17)); (5333361468243083, (-16)); (68967874334712187, (-17)); (30751594963507156, (-17)); (38284526728610491, (-17)); (67785139145236539, (-17)); (79843968883914807, (-17)); (51854047819139593, (-17)); (33524448617442593, (-17)); (62392039682287814, (-17)); (70831171525784897, (-17)); (36696786896958289, (-17)); (53310956741740367, (-17)); (75743814380216046, (-17)); (42849594570150273, (-17)); (76301412229206778, (-17)); (72338482046941732, (-17)); (60767844065079968, (-17)); (83538967304773371, (-17))];
  [(48469052877370322, (-17)); (76113925455437803, (-17)); (1489186111750751, (-17)); (97143961250350197, (-17)); (49037562073166696, (-17)); (11027893936952293, (-17)); (24644387212300789, (-17)); (75443234139499327, (-17)); (54152771683112322, (-17)); (34230053408689265, (-17)); (76613198292495288, (-17)); (29210002403333069, (-17)); (26701270707667257, (-17)); (3081614619232419, (-16)); (74923002435342023, (-17)); (57124772398259627, (-17)); (78475662484174302, (-17)); (19324920272706114, (-17)); (84492500943747351, (-17)); (8851829542661892, (-16)); (93715167975650449, (-17)); (21258451260572747, (-17)); (94567512421853228, (-17)); (85731208396919756, (-17)); (39916193800060545, (-17)); (96780765005293246, (-17)); (13691591207246117, (-16)); (51671608706461658, (-17))];
  [(76605864581651784, (-17)); (66491340245132768, (-17)); (89927013564956471, (-17)); (20532995770387952, (-17)); (95477704432582244, (-17)); (15490025735183144, (-17)); (39777596119849945, (-17)); (16776391447018513, (-17)); (54478182651016338, (-18)); (52059665462066418, (-17)); (67141697007837198, (-17)); (16877439011555528, (-17)); (84084026004964152, (-17)); (92160579575704382, (-17)); (11546725051330742, (-17)); (26324743474594192, (-17)); (53827495897813438, (-17)); (75408436713558669, (-17)); (4649292441380054, (-16)); (81499841094262848, (-17)); (93118905647521177, (-17)); (56852332437554431, (-17)); (78788302230826501, (-17)); (10708975496433981, (-16)); (76819565409007662, (-17)); (44462574523004217, (-17)); (10193243706648443, (-16)); (250764554127415, (-15))];
  [(70020016636250348, (-17)); (55160522248278254, (-17)); (23232667499949466, (-17)); (52345029639684237, (-18)); (68717315819225866, (-17)); (89089751388254812, (-17)); (60033120402548001, (-17)); (52417428090484675, (-17)); (41131519760336566, (-17)); (49064246754896568, (-17)); (23300815469666891, (-18)); (64277947632390198, (-17)); (73231413879849205, (-17)); (89711452802188796, (-17)); (17855791945708965, (-18)); (92839307050759934, (-18)); (24211754939113017, (-17)); (36725778117544483, (-17)); (13379995922387844, (-17)); (27220162620794602, (-17)); (62526861984381388, (-17)); (75049778802403089, (-17)); (6268504865104928, (-16)); (78179853061063986, (-17)); (61069321188177905, (-17)); (13161447856409025, (-17)); (39347092180197074, (-17)); (4546723640829276, (-16))];
  [(77172666329327588, (-17)); (4056716702850679, (-16)); (55564470027037238, (-18)); (24679218359126265, (-17)); (49027568848971992, (-17)); (18936244911844413, (-17)); (74578196040776978, (-18)); (30815798556401641, (-17)); (35683639842278247, (-17)); (40906713045053755, (-17)); (70543864587086702, (-17)); (79260137157843391, (-17)); (74165867481421277, (-17)); (97033982008898678, (-18)); (89419015303158556, (-17)); (58741492848970478, (-17)); (92893304510976438, (-17)); (2607262467707866, (-16)); (73003663305411726, (-17)); (5602213801953605, (-16)); (85731874820301035, (-17)); (47393558903081107, (-17)); (50032095289116174, (-18)); (49399936383733944, (-17)); (35745924058569822, (-17)); (78236971089239349, (-17)); (82707717008684201, (-17)); (41736339158869928, (-17))];
  [(33838308184619936, (-17)); (15704284915765987, (-17)); (19465816656844448, (-17)); (84341997471710617, (-17)); (2944161275128987, (-16)); (41486973809758854, (-17)); (35325481131357828, (-17)); (56048294255158981, (-17)); (93850934803983199, (-17)); (99051628835330874, (-17)); (93302577028807709, (-17)); (27383224033160092, (-17)); (63654385938889302, (-17)); (15698673436950616, (-17)); (17860820189348536, (-17)); (57225836747417469, (-17)); (53042890209576399, (-17)); (28592202194269656, (-17)); (27648730537124255, (-17)); (11052079405938147, (-16)); (67507461164977989, (-17)); (10384059782930453, (-16)); (37405524777261623, (-17)); (37828382043484149, (-17)); (61984096851894233, (-17)); (62151941580795145, (-17)); (3398405429198173, (-16)); (51862021040991924, (-17))];
  [(92891279208904343, (-17)); (35098651253695579, (-17)); (74347118591920536, (-17)); (26134757659442409, (-17)); (6502706864061446, (-16)); (10580702980808721, (-17)); (89100951482200574, (-17)); (8939516889373158, (-16)); (7932797195079544, (-17)); (63761151576935826, (-17)); (90786497369476571, (-17)); (21035547026454759, (-17)); (29115246678005324, (-17)); (81402395724286825, (-17)); (51353551527707042, (-18)); (5366523240853891, (-16)); (18368504331565572, (-17)); (77706984954727398, (-17)); (45488822717414934, (-17)); (10061463029808373, (-16)); (93370496194815567, (-17)); (54741757390179446, (-17)); (11947786518924608, (-16)); (10405210361652599, (-16)); (56177375851213529, (-17)); (3044824675263752, (-16)); (77322125698031585, (-17)); ((-12045738935795655), (-17))];
  [(50266517661697152, (-17)); (81273795529152948, (-17)); (97213286627703455, (-17)); (49168884755352116, (-17)); (43198359100152639, (-17)); (25189139829248786, (-17)); (16696509997300224, (-17)); (37745478849442848, (-17)); (22482285249254319, (-17)); (29376642442107315, (-17)); (69024142392688281, (-18)); (60566150504737903, (-17)); (99169716135368013, (-17)); (66822623234549627, (-17)); (77049306179115773, (-17)); (21993074069743168, (-17)); (89972393384689209, (-18)); (87982951849116531, (-17)); (97231960749526802, (-17)); (40550017779083891, (-17)); (54454349568461657, (-17)); (267754157601923, (-15)); (70382947505993865, (-17)); (82368251909451273, (-17)); (68883983743569188, (-17)); (50445088788317816, (-17)); (60498644628256026, (-17)); (27334404217173608, (-17))];
  [(68548844857275393, (-17)); (15834874081853023, (-18)); (73914069767118085, (-17)); (23707230470295204, (-17)); (56497181384762496, (-17)); (88522535287783521, (-17)); (62565121465127338, (-17)); (62830468462183087, (-17)); (25826562164816191, (-17)); (81911363439535767, (-17)); (54776864900271527, (-17)); (57522968261247409, (-17)); (89219427359187398, (-17)); (17694168870428351, (-17)); (43890218537207926, (-17)); (41617200753080863, (-17)); (9142053936349267, (-16)); (8285013097910533, (-16)); (55434590150086283, (-17)); (71454245960710105, (-17)); (10078465710334956, (-16)); (89825421351239798, (-17)); (22511074859720809, (-17)); (50067813938912198, (-17)); (33953699185954267, (-17)); (65232865643434557, (-17)); (10455612367485658, (-16)); (12492668965742715, (-16))];
  [(53754248727685716, (-17)); (18737788057325766, (-17)); (48779417332828345, (-17)); (62690545857391722, (-17)); (38774902458895988, (-17)); (12160645567032746, (-17)); (41305604764166293, (-17)); (82379280815786937, (-18)); (52091401815075589, (-17)); (4903482449817278, (-16)); (59336756890741027, (-17)); (16119637136038767, (-17)); (73608196640512324, (-17)); (33856729801487095, (-17)); (79037562844668563, (-18)); (57096468044165161, (-17)); (90315870745499827, (-17)); (87325316350039306, (-17)); (66808271756695048, (-17)); (80894135307399728, (-17)); (30798663242231511, (-17)); (65301571162267891, (-17)); (5200481136133096, (-16)); (18488530249896362, (-17)); (45282652673205076, (-17)); (12327563008646811, (-16)); (59089471403899541, (-17)); (68145862824192782, (-17))];
  [(74521419558681379, (-17)); (81194102407228363, (-17)); (20166570054502664, (-17)); (15894205129720229, (-17)); (99914111020835483, (-17)); (45819915298446134, (-17)); (50013147017449089, (-17)); (3791431120512333, (-16)); (83032406642289869, (-17)); (62042527184490548, (-18)); (17461923717085359, (-17)); (52071057166884915, (-17)); (31292262902722634, (-17)); (59470944070789877, (-17)); (96514689343473725, (-17)); (63609903443434157, (-17)); (96615298932046911, (-17)); (14356034565105136, (-17)); (29768529628724472, (-17)); (34664563607196641, (-17)); (76401620115661828, (-17)); (53155422833835264, (-17)); (87483949184715548, (-17)); (16738290541026395, (-16)); (10940761405269455, (-16)); (89314933777260963, (-17)); (10916018070703744, (-16)); (53294594320833466, (-17))];
  [(36907997013941984, (-17)); (99169667825861019, (-17)); (24646966447442131, (-17)); (45830382216421661, (-17)); (86637834427598504, (-17)); (3911151733530378, (-16)); (97868880141227743, (-18)); (78412566804012351, (-17)); (43887539647693652, (-17)); (59601595085019832, (-17)); (66899063698142003, (-17)); (89934615128917028, (-17)); (61074047708360002, (-17)); (95678333532777726, (-17)); (84159092799397617, (-17)); (49993030019190787, (-17)); (11903359365357447, (-17)); (9343954259390066, (-16)); (9481344355374659, (-16)); (59099818215039157, (-17)); (1497472240532884, (-15)); (71804293068527048, (-17)); (73215792118158629, (-17)); (17774835019126891, (-16)); (78059524217100584, (-17)); (3205833803149658, (-16)); (1048829743996309, (-15)); (63969146048602432, (-17))];
  [(96854428830360384, (-17)); (37156729235355535, (-17)); (88586800536578858, (-18)); (95900716066629998, (-17)); (60388980858964758, (-17)); (82351894542348558, (-17)); (96862733599868078, (-17)); (41867503387192684, (-17)); (6886499280317897, (-16)); (81801548830492743, (-17)); (73778982337158872, (-17)); (50799408529507473, (-17)); (17891815074481343, (-17)); (9357552089801231, (-16)); (33608468160025751, (-17)); (81803534516023557, (-17)); (76848941409841276, (-17)); (73232203888330161, (-17)); (24341824391848954, (-17)); (1152200303250035, (-15)); (65946321815121556, (-17)); (86447161393641292, (-17)); (20497033314463167, (-16)); (1040221852813167, (-15)); (13498918939621345, (-16)); (12450077499173988, (-16)); (73958239095462408, (-17)); (10409966774964565, (-16))];
  [(23694527372246788, (-17)); (53912000126122761, (-17)); (63880969918727071, (-17)); (29557393847789182, (-17)); (61681252979549395, (-17)); (88105326384220317, (-17)); (35329183683913978, (-17)); (47763900489744171, (-17)); (42776886897721544, (-17)); (45233360903740305, (-20)); (33740310799145734, (-17)); (45793628595384495, (-18)); (78067783652641165, (-17)); (1941044482289731, (-16)); (52590376635177016, (-17)); (69695078455871429, (-17)); (25834620317280277, (-17)); (1261916116068974, (-16)); (30782741723273044, (-17)); (36932877426606592, (-17)); (58311198122746299, (-17)); (58995388580192443, (-17)); (44763216725844956, (-17)); (76184636636132397, (-17)); (88540421662671887, (-17)); (20728678242990367, (-17)); (36418783815002387, (-17)); (40796104446435211, (-17))];
  [(33583081830585593, (-17)); (49344519632515293, (-18)); (73989642879433859, (-17)); (39900655288252451, (-17)); (27799022303060328, (-17)); (30137690389979932, (-18)); (14046755670582289, (-17)); (62361276939685406, (-18)); (25148749371932666, (-17)); (94591751559316906, (-17)); (99756401530154326, (-17)); (56594371750109729, (-18)); (47024788188928812, (-17)); (58315455128906701, (-17)); (90042793856906733, (-17)); (79531645930890138, (-17)); (60324940107457836, (-17)); (93547498783900052, (-17)); (64726735614813846, (-17)); (58265181798643073, (-17)); (28997043807329248, (-17)); (54146545686196734, (-17)); (3799232392175137, (-16)); (30830431814054948, (-17)); ((-57776998115354639), (-18)); (36821269811643664, (-17)); (3084793356936778, (-16)); ((-10623367275798395), (-17))];
  [(60234699156551452, (-17)); (76632463898573333, (-17)); (75267503375664147, (-17)); (47468439325569656, (-17)); (8109634150986228, (-16)); (54855630725636695, (-17)); (85524369600249905, (-17)); (15502886894625323, (-17)); (91906254727069681, (-17)); (41644818375391024, (-17)); (42043253283771176, (-17)); (16366688868253221, (-17)); (81966533152812404, (-17)); (9708540435726386, (-16)); (5694059517245752, (-16)); (61359326428795191, (-17)); (84825610677733165, (-17)); (71480250582847304, (-17)); (68660623053631065, (-17)); (10445166900469478, (-16)); (63029293869239411, (-17)); (1168295691148078, (-15)); (13544484164917283, (-16)); (13398026780437546, (-16)); (15599338223673396, (-16)); (13535080626842124, (-16)); (12877460411816255, (-16)); (15441160119823956, (-16))];
  [(50542584748903541, (-17)); (8533488650715737, (-16)); (55957780337499918, (-17)); (6079145085849913, (-16)); (47170886968190651, (-17)); (50117093024824111, (-17)); (11897187242286467, (-17)); (70957423839372602, (-17)); (1373447023741925, (-16)); (33473904945740762, (-17)); (29460785541671086, (-17)); (54451538769147312, (-17)); (25221718397081661, (-17)); (79585231849087501, (-18)); (12251880712279117, (-17)); (41826611002953729, (-17)); (88591461819016326, (-17)); (24616278915280176, (-18)); (15214550884468214, (-18)); (45171425472588567, (-17)); (55201525935104945, (-17)); (3965006395621708, (-16)); (15365146183638118, (-17)); (39350640842093049, (-17)); (14808397678414062, (-17)); (61169750548305413, (-17)); (86618321933741227, (-17)); (62330161067369194, (-17))];
  [(94165102643840193, (-17)); (86510226547105951, (-17)); (41853089803017718, (-18)); (94284702094772255, (-17)); (6736085340498037, (-16)); (45500591081433195, (-17)); (2482502694122467, (-16)); (28484867605717223, (-17)); (73328704012283286, (-17)); (20139595388449072, (-17)); (41089502457221327, (-17)); (17912543063455633, (-17)); (22587046758483331, (-17)); (35462102217877567, (-17)); (85643594760736463, (-17)); (56886550149161319, (-17)); (65663577271967588, (-18)); (75999829748117442, (-17)); (23560066519663958, (-17)); (64440183456834799, (-17)); (55521086088862348, (-17)); (29823256973701312, (-17)); (11651286731013824, (-16)); (92744129799614405, (-17)); (83859766465153607, (-17)); (69037669897162945, (-17)); (50169044268524055, (-17)); (51388376056433793, (-17))];
  [(68987409841455005, (-17)); (23936910474490991, (-17)); (13454376778334276, (-17)); (73938805320660483, (-17)); (6025103583592738, (-16)); (35739036049066442, (-17)); (91430466790169451, (-17)); (74933217504040306, (-17)); (40997036287514843, (-17)); (76006494529758151, (-17)); (45191241801631421, (-17)); (7726226093988896, (-16)); (75921673017142488, (-17)); (10595392039412399, (-18)); (20389637027243113, (-17)); (61099155652588799, (-17)); (6870885855481208, (-16)); (62467664416575608, (-17)); (73558948924034984, (-17)); (11971505601926768, (-16)); (10448833111620115, (-16)); (59511555150873363, (-17)); (58168395234479886, (-17)); (5194863502310797, (-16)); (28804607171496827, (-17)); (1403976303619437, (-15)); (11253958969596789, (-16)); (64166126413062685, (-17))];
  [(41385399604892248, (-17)); (97878884069612504, (-17)); (74658899585291849, (-17)); (30354245456402973, (-18)); (98038551709249566, (-17)); (54867951309623575, (-17)); (99137484173204671, (-17)); (62487078291423015, (-17)); (2117266025668465, (-16)); (56103622826358912, (-17)); (31767603515579146, (-17)); (43309681799618327, (-17)); (41281622900180892, (-17)); (30126470173789055, (-17)); (22872559244592194, (-19)); (41954081480595973, (-17)); (74540461830261828, (-17)); (17846255996216998, (-17)); (94994147351542313, (-17)); (44146822614510284, (-17)); (82090254544990315, (-17)); (41012300738569529, (-17)); (52590963682624881, (-17)); (6696858117719402, (-16)); (367372422434185, (-15)); (11802751292272082, (-16)); (16553662119815606, (-16)); (90195286101691052, (-17))];
  [(91230906833260783, (-17)); (88363045186751032, (-17)); (35560946515093783, (-17)); (72942203989689913, (-17)); (31112486906960346, (-17)); (5552878166244577, (-16)); (28999654510785933, (-17)); (67200689337519659, (-18)); (58681569128507616, (-17)); (33617135995375202, (-17)); (32780801595021936, (-17)); (17066204628583215, (-18)); (38212555556570849, (-17)); (35601457750502952, (-17)); (1646920231323642, (-16)); (25326127533515996, (-17)); (40898075507474374, (-17)); (75158378502106327, (-17)); (82649351438855323, (-17)); (47862937591342208, (-17)); (33280796651265199, (-17)); (40127442487167253, (-17)); (52956516383657082, (-17)); (35090012756450695, (-17)); (40035939458092029, (-17)); (98166704803889981, (-17)); (44034443808005341, (-17)); (10030295767099069, (-16))];
  [(9575703724723762, (-16)); (7319381081178683, (-16)); (82433272891634835, (-17)); (82129183435826436, (-17)); (76023417309654018, (-17)); (38670278457891649, (-17)); (40333346517484314, (-17)); (73171135631808792, (-17)); (17390405043879043, (-17)); (27006146676855014, (-17)); (9319150896613323, (-16)); (1203067542944215, (-16)); (6714359129797417, (-16)); (53008092396959161, (-17)); (18676280820565216, (-17)); (4148622225412868, (-16)); (56134153280603005, (-17)); (3513085486047739, (-16)); (77129339867856173, (-17)); (13995277939604658, (-16)); (14023458522860284, (-16)); (9716522442113753, (-16)); (87278211941752304, (-17)); (88536311278660906, (-17)); (57648939837514235, (-17)); (11404468119764357, (-16)); (12629874161195465, (-16)); (69167084699474857, (-17))];
  [(52346933697074705, (-17)); (20843232023073355, (-17)); (28001669247957084, (-17)); (20761720970966724, (-17)); (93647797996336246, (-17)); (66326611470865138, (-17)); (97208751917754499, (-17)); (9317810356508538, (-16)); (93027857639363931, (-17)); (27060343954082655, (-17)); (40017478750289293, (-17)); (85694333410816825, (-17)); (4481835292304549, (-16)); (29614905204801145, (-17)); (667553068231588, (-15)); (38367705830673904, (-17)); (72132848922365367, (-17)); (69928464991815509, (-17)); (17116377479247502, (-17)); (71126862719798623, (-17)); (13237188888751985, (-16)); (10794182064883202, (-16)); (57892832951063233, (-17)); (1056325183377552, (-15)); (86602787361999478, (-17)); (61232091534393074, (-17)); (10770084277244782, (-16)); (87634571278140871, (-17))];
  [(30428550007603494, (-17)); (46297971858582521, (-17)); (31315338830005146, (-18)); (93891920082185854, (-17)); (84855324192920478, (-17)); (75579048372781776, (-17)); (24260812761292883, (-18)); (4350154086656669, (-16)); (23473860388368739, (-18)); (14099214444899888, (-17)); (68330991570227428, (-17)); (63792912371326682, (-17)); (94098531406290231, (-17)); (69555377820852271, (-17)); (71053576361912008, (-18)); (28859252959022808, (-18)); (21744268507931208, (-18)); (27413938796617021, (-17)); (63661390743601343, (-17)); (88458716230336432, (-17)); (1298484120401175, (-15)); (59039640127092918, (-17)); (36503305814837184, (-17)); (46939790479541837, (-17)); (14897211672009508, (-17)); (26798302484938585, (-17)); (50197492063777438, (-17)); (22185697892329428, (-17))];
  [(80255454400350978, (-17)); (93217588319259304, (-18)); (14285088559099712, (-18)); (32280907900074707, (-17)); (52293663634962628, (-17)); (60733646119239049, (-17)); (13795369721648632, (-19)); (48606411838563457, (-17)); (21532220379340972, (-17)); (77183700863449545, (-17)); (14695255335655533, (-17)); (7645984554335945, (-16)); (45569539592742403, (-17)); (89833336109475259, (-17)); (42835825397796146, (-17)); (52815342747122107, (-17)); (24890870090324857, (-17)); (78776485153619902, (-19)); (73519762323428828, (-18)); ((-13286934713223505), (-17)); (52173591467316704, (-17)); (48703601654728246, (-17)); (57896946115018555, (-17)); (7770494828180039, (-16)); (68561234315686292, (-17)); (19671081417537314, (-17)); (14558595773136951, (-17)); (12716357567107037, (-17))];
  [(29346148759697999, (-17)); (85940353949748183, (-17)); (73389299315575862, (-17)); (41244713655703313, (-17)); (73019237857168273, (-17)); (89521706971356152, (-17)); (52607521897074383, (-17)); (38424675658621554, (-17)); (15273686351708338, (-18)); (32843021162101771, (-17)); (53158587295847692, (-17)); (92026806142759587, (-17)); (26692190265771432, (-17)); (1205850242194072, (-16)); (76447984403251057, (-17)); (16856613357234262, (-17)); (77110499558818735, (-17)); (3336706117886592, (-16)); (17885940659910704, (-17)); (63096719898613507, (-17)); (10411469018509774, (-16)); (10888088608986983, (-16)); (36430645712351417, (-17)); (50772568340294977, (-17)); (58798668648269614, (-17)); (50955505951393998, (-17)); (10157383333768273, (-16)); (96481027110342155, (-17))];
  [(38673196931443143, (-17)); (70816869809296756, (-17)); (97051420567228708, (-18)); (53970652521265217, (-17)); (46156225976698684, (-17)); (45141471344527617, (-17)); (98640376423301657, (-17)); (89545468497264114, (-17)); (50161931733373355, (-18)); (1365772371041124, (-16)); (2851173022788055, (-16)); (87932110536134167, (-17)); (93581731949766456, (-17)); (87720067989360595, (-17)); (43444599614919899, (-17)); (9464240263353666, (-16)); (46823776371847192, (-17)); (7996522487641281, (-16)); (873188420598213, (-15)); (14771376789094632, (-16)); (13732290170475139, (-16)); (47350240618291584, (-17)); (1543511989210141, (-15)); (16747946939674605, (-16)); (37427765417296582, (-17)); (14605730844802132, (-16)); (1428380014713778, (-15)); (46464621652798616, (-17))];
  [(62468561525795185, (-17)); (39419597975922072, (-17)); (4462813370343709, (-16)); (26707753806397772, (-17)); (69501532263421817, (-17)); (48177798990911203, (-17)); (34274577341735901, (-17)); (17434704564538217, (-17)); (2650320979107641, (-16)); (51191223711416267, (-17)); (99382755402247236, (-17)); (59748479799675458, (-18)); (87655428479998387, (-17)); (71660595929793536, (-17)); (98212541794634833, (-17)); (89545372123895206, (-17)); (70471983074723066, (-17)); (17224315649383948, (-17)); (86992749231854061, (-17)); (96732854177413041, (-17)); (85738142709510179, (-17)); (86555966993474154, (-17)); (71908172513821689, (-17)); (10518064508505414, (-16)); (88306176780677159, (-17)); (76155425831867585, (-17)); (70488421926902656, (-17)); (70574863272188926, (-17))];
  [(39273150625900766, (-17)); (79095566059232247, (-17)); (75527217305798866, (-17)); (36869580637716493, (-17)); (75694390554362556, (-17)); (49494727922872606, (-17)); (10140912308411454, (-17)); (31511608051194073, (-17)); (80635677801758909, (-17)); (64016759252395961, (-17)); (69620108640647071, (-17)); (75535372281670143, (-17)); (98209556803032827, (-17)); (39827955262582426, (-18)); (52946023730444247, (-17)); (7645414096021228, (-16)); (1094838350739713, (-17)); (75847922192431905, (-17)); (14327728238581017, (-17)); (51835540937567193, (-17)); (11675622294930752, (-16)); (13785144754925462, (-16)); (13119865013645138, (-17)); (3554595181167669, (-16)); (62369564259247445, (-17)); (66733955559471064, (-18)); (15913882639347371, (-17)); (84290801921642178, (-18))];
  [(98803838174106928, (-17)); (98315079936098004, (-18)); (97892583448498149, (-17)); (24121121869555406, (-17)); (9140089600340211, (-16)); (14135470642273462, (-17)); (9862209909875731, (-16)); (44054151443074552, (-17)); (74162747866543188, (-17)); (61125135220488269, (-17)); (51168967333375937, (-17)); (90829346003010092, (-17)); (34782981842527805, (-17)); (32742570642102364, (-17)); (69179982812917884, (-17)); (90799176329237563, (-17)); (85596760037882424, (-17)); (54120579475054409, (-17)); (17537139485237818, (-17)); (49228798807178359, (-17)); (10914530938847264, (-16)); (30454304546729644, (-17)); (95012236084897372, (-17)); (10769050747221582, (-16)); (65387182359876994, (-17)); (78406752403100366, (-17)); (96972872335004157, (-17)); (64430515948165001, (-17))];
  [(97347316437576137, (-17)); (24784707294034591, (-17)); (98598917743503389, (-17)); (29669942248067072, (-17)); (44202245465399581, (-17)); (57697208812997614, (-17)); (79781470479410876, (-17)); (56748121934442508, (-17)); (95859150758872846, (-17)); (84193076984037041, (-17)); (14415011424589486, (-17)); (99367649607018993, (-17)); (2655157817849636, (-16)); (57783523868128073, (-17)); (55563539313405497, (-17)); (20273336004361731, (-17)); (59826181156246649, (-17)); (87627220109824722, (-17)); (43550739459240451, (-17)); ((-1879962675393245), (-16)); (33082752724734876, (-17)); (62241571428844261, (-18)); (37059922693195124, (-17)); (46180815475413733, (-17)); (62734740788096599, (-17)); (40460664583267913, (-17)); (6391263186032814, (-16)); (7600794581525202, (-16))];
  [(61912057667871467, (-17)); (52956869777480386, (-17)); (29089229857737187, (-17)); (1199481834002627, (-16)); (70571630100945615, (-17)); (54681708338332957, (-17)); (13816985724633746, (-17)); (56018246336748534, (-17)); (76465476955798539, (-17)); (97941763959735617, (-17)); (96460169758526448, (-17)); (56410164614030844, (-17)); (17790651106169242, (-17)); (93300819396425239, (-17)); (91129669064329344, (-17)); (57668542819071034, (-17)); (16383229925036924, (-17)); (82989960560990739, (-17)); (15307884303889685, (-17)); (20136665157985204, (-17)); (92351758565176922, (-17)); (76609729626264711, (-17)); (87182218927319505, (-18)); (11030315953861729, (-16)); (10735591996353684, (-16)); ((-2770386070424497), (-16)); (19177036398742731, (-17)); (27057886503724077, (-17))];
  [(23807971611409295, (-17)); (44420926033936936, (-17)); (43652564828180973, (-17)); (71955061473758686, (-17)); (96690531302745053, (-17)); (93016557988404469, (-18)); (4370942667205302, (-17)); (14324189222212491, (-17)); (33120070847297778, (-17)); (706846014267417, (-15)); (9561263889488909, (-16)); (70085711046019605, (-17)); (3206585962064501, (-17)); (42101198171393783, (-17)); (80056567325879269, (-17)); (11346706624654845, (-17)); (25310897308221103, (-17)); (17078131826968468, (-17)); (35465695444310352, (-17)); (89641273030217272, (-17)); (1241067875264235, (-15)); (23663698622507318, (-17)); (5921723931752555, (-16)); (78049859575568925, (-17)); (32431106248980254, (-18)); (24664150391746897, (-17)); (3715348571582649, (-16)); (18043324415269052, (-17))];
  [(81061550452977604, (-17)); (96491290689871989, (-17)); (38193094356079049, (-17)); (47255818213467293, (-17)); (99630706697325133, (-17)); (2074847783759951, (-16)); (4049487474703175, (-16)); (50956298633284247, (-17)); (67271457707340387, (-17)); (99714285772091427, (-17)); (20789430216356042, (-18)); (47975929770015191, (-17)); (68097180363781529, (-17)); (67959108625423359, (-17)); (87351091756642418, (-17)); (51625682695904718, (-17)); (11334916357483527, (-17)); (7873241065912201, (-16)); (17816847644308897, (-17)); (89548161491663586, (-18)); (24586510804900474, (-17)); (36615070519234538, (-17)); (40705031980056489, (-17)); (95200608367447759, (-17)); (42473316079351919, (-17)); ((-16713322066489139), (-17)); (32614622760400655, (-18)); ((-80845990822342451), (-20))];
  [(21212177274203348, (-17)); (35811683600331046, (-18)); (65781156264793728, (-17)); (87232527013296135, (-17)); (78528022119102148, (-17)); (84821910684226287, (-18)); (77735819266354944, (-17)); (89437341015259764, (-17)); (53538215649655874, (-17)); (31616968605304274, (-17)); (17785944393711173, (-20)); (90779044171393131, (-17)); (19155775864646341, (-17)); (56007962408503942, (-17)); (76368351134530499, (-17)); (94840586162956553, (-17)); (91523961423293021, (-17)); (49613790428459903, (-17)); (19748727346724693, (-17)); (8417573347202203, (-16)); (83880081931302031, (-17)); ((-98161026169521215), (-19)); (15848697473001416, (-16)); (15655211953643575, (-16)); (77806439413813044, (-17)); (9648975714919682, (-16)); (79602066784458225, (-17)); (64060381762130203, (-17))];
  [(29524114854215566, (-17)); (79981126683437131, (-17)); (89769490225332138, (-17)); (51725593034912531, (-17)); (5639002195769357, (-16)); (72507364351412917, (-17)); (11927778835885894, (-17)); (17923145967259391, (-17)); (14702757661933663, (-17)); (37434421134795748, (-17)); (28142615317795561, (-17)); (25806578382890499, (-17)); (680597884376553, (-15)); (79538163504306414, (-17)); (36852801685100978, (-17)); (93074845393329353, (-17)); (24213381570450287, (-17)); (24797384022303182, (-17)); (42648594522462069, (-17)); (30812534671416891, (-17)); (4494851207381052, (-16)); (49926853184332937, (-17)); (61766019446577358, (-17)); (10085661468865283, (-16)); (11400245496659998, (-16)); (25581720787623535, (-17)); (36424296015090585, (-17)); (41516164424900531, (-17))];
  [(49571186563344816, (-17)); (89215726095804937, (-17)); (87729617117126502, (-17)); (90658642214963558, (-18)); (23297976904198958, (-17)); (39498998684439734, (-17)); (43799451882993312, (-17)); (15143826313246145, (-17)); (20670064728161286, (-17)); (48438789794523307, (-17)); (94569358939066928, (-17)); (25177605696548, (-14)); (60500444259784802, (-17)); (97404674457655605, (-17)); (10762765630504034, (-17)); (37620392442574069, (-17)); (57859124830602071, (-17)); (16951351564792017, (-17)); (66424731060321651, (-20)); (68185523335095466, (-17)); (88817821457269863, (-17)); (10183608409249365, (-16)); (61698674314739999, (-17)); (90915656799032218, (-17)); (10067968056481633, (-16)); (25300663907221316, (-17)); (48420983442532189, (-17)); (54576442220884458, (-17))];
  [(52229311662957967, (-18)); (87844170934381349, (-20)); (37518685006249686, (-17)); (69896686181600431, (-17)); (58464532420277737, (-17)); (34199719472310119, (-17)); (25091933916455333, (-17)); (44339476897432117, (-18)); (32672791565548109, (-17)); (67427060415379669, (-17)); (14101178351825261, (-17)); (96879222352801442, (-18)); (32018031947264336, (-17)); (33645246220950886, (-18)); (49774225095929581, (-17)); (36355944941803109, (-17)); (10172884859387543, (-17)); (9647298040077491, (-16)); (49447340427236963, (-17)); (19736564505439452, (-17)); (10995604283553907, (-17)); (17923731355304257, (-17)); (36281920530202222, (-17)); (25547139707422895, (-17)); (15221332118015296, (-17)); (6679071714927679, (-16)); (49919250357400324, (-17)); (24484902714122403, (-17))];
  [(13684423261139222, (-17)); (42031185570691076, (-17)); (90576647772147378, (-17)); (73225980449723327, (-17)); (8251375984676419, (-16)); (57413150309566874, (-17)); (3965106132029026, (-16)); (19474267043060456, (-17)); (26172478696182344, (-17)); (94555142167313799, (-17)); (88069337488858923, (-18)); (14988971415983554, (-17)); (9465144793200555, (-16)); (18364306793220053, (-17)); (39982143282247151, (-17)); (56923872654620067, (-17)); (9954066762662902, (-16)); (22923849342442182, (-17)); (57436013547739484, (-17)); (48225623075795465, (-17)); (28622132722246979, (-17)); (27570073570784742, (-17)); (47644883743491306, (-17)); (33573228040104525, (-17)); (17255017428754565, (-17)); (97128352930316852, (-17)); (10552808381740537, (-16)); (10500862151306312, (-16))];
  [(95021801951634155, (-17)); (20135149986041667, (-17)); (83051417215278001, (-17)); (95044077776162639, (-17)); (10120892685777727, (-17)); (94582420189511429, (-17)); (90252510152783472, (-17)); (16635968272306023, (-17)); (58893783178735704, (-17)); (18071309791813417, (-17)); (95522730499310859, (-17)); (93390503647691403, (-17)); (87463106628484777, (-17)); (26791620948448791, (-17)); (63664458211099051, (-17)); (3793431369805419, (-16)); (93549943165263494, (-17)); (34828842646442648, (-17)); (81779494549275433, (-17)); (25591168654653433, (-16)); (41126684799655633, (-17)); (21874200001738577, (-16)); (11250773159978338, (-16)); (16139302116276893, (-17)); (98515531585383043, (-17)); (20384939143554552, (-16)); (36043368449564761, (-17)); (16770198162436547, (-16))];
  [(85758925899534866, (-17)); (91673741132566589, (-17)); (51419280226403175, (-17)); (6573953045167541, (-16)); (28276394326122867, (-17)); (97922820168683766, (-17)); (52728754660891108, (-18)); (29550054020791905, (-17)); (69646995103352405, (-17)); (25313837891480828, (-17)); (46039963740581213, (-17)); (58309055266340237, (-17)); (86680833804195334, (-18)); (63429007219865052, (-17)); (62176798995078586, (-17)); (24285630638975841, (-17)); (68458305980021272, (-17)); (88976561691456035, (-17)); (81691991194829006, (-17)); (70849203183632581, (-17)); (49258315724602464, (-17)); (88016347051036514, (-17)); (90603945512440676, (-17)); (70708705061613286, (-17)); (1149830145572164, (-15)); (10993513854942751, (-16)); (93675607314266385, (-17)); (18065740193090789, (-16))];
  [(92740282739747737, (-17)); (16942393621163132, (-17)); (57709559827785273, (-17)); (66577022704118294, (-17)); (37307816480249489, (-17)); (70072933085450329, (-17)); (76477035229238632, (-17)); (64519475534658866, (-18)); (66557750621135792, (-17)); (63854659980971284, (-18)); (25593041152629792, (-17)); (57431985848045297, (-17)); (78306471229569796, (-18)); (53933990777004004, (-18)); (32876328939334276, (-17)); (45222295938712287, (-17)); (41987887711276684, (-17)); (11042886924140305, (-17)); (84356251204145616, (-17)); (65522444887177633, (-17)); (2620379499788219, (-16)); (5914312534927868, (-16)); (59703354593632518, (-17)); (1584303802978175, (-16)); (55226049043935932, (-17)); (11184082209402606, (-16)); (17533542180085651, (-17)); (8952037768081117, (-16))];
  [(91830012850407894, (-17)); (74244019122222116, (-17)); (87130710395574307, (-17)); (32331601233428042, (-18)); (77214102010360908, (-17)); (21442757706422577, (-17)); (15255148321921685, (-17)); (46778871540608358, (-17)); (21405213091555642, (-17)); (51399894008188696, (-17)); (33967447058270817, (-17)); (51235540974260652, (-17)); (15839750961630739, (-17)); (57748108714683111, (-17)); (53409843694531944, (-18)); (71864062623611935, (-17)); (27702833260433313, (-17)); (9486999053355043, (-16)); (66191992342959849, (-17)); (8428052161053369, (-17)); (58011646505358638, (-17)); (20361358804582497, (-17)); (55797722707095954, (-17)); (94516303003325775, (-17)); (63994795301924812, (-17)); ((-74719098190981187), (-18)); (88548032063846116, (-17)); (15180700397517635, (-17))];
  [(57434377876631071, (-17)); (99460583751346032, (-17)); (48745188588943389, (-17)); (23611958012678913, (-17)); (58052780020815598, (-17)); (35926090433922364, (-17)); (86517052409495177, (-17)); (17546277163736645, (-17)); (96838246818483265, (-17)); (78691461280185648, (-17)); (32313279071023393, (-17)); (74481243765539118, (-17)); (26724953261057116, (-17)); (2747847263710429, (-16)); (36431591500463067, (-17)); (47113426839504036, (-18)); (51994812464558726, (-18)); (1200290491872017, (-16)); (12570195709625431, (-17)); (23750440546781418, (-17)); (18731289980262442, (-17)); (38403054555038418, (-17)); (11068954609383289, (-17)); (20691017866642875, (-17)); (17674992195691569, (-17)); (10972163793474136, (-17)); (4459716124019901, (-17)); (14186156997563229, (-17))];
  [(59134888264092156, (-17)); (40933280662979732, (-17)); (57709741320104979, (-17)); (91555451458653281, (-17)); (37017488235337737, (-17)); (55046682112817302, (-17)); (25804038378511862, (-17)); (47335811376863457, (-17)); (81310059219081532, (-17)); (60160707872889807, (-17)); (32197639589071203, (-17)); (22335674816741569, (-17)); (40146617270438323, (-17)); (89950960713666372, (-17)); (41641157195557421, (-17)); (15727423679957675, (-17)); (3058192821984399, (-16)); (26442420335057981, (-17)); (66681312593503961, (-17)); (52124312465087952, (-17)); (38256902550632532, (-17)); (60834251104629367, (-17)); (11201630013206609, (-16)); (59706545127654709, (-17)); (88905095383137456, (-17)); (59071756279934751, (-17)); (50235465338171781, (-17)); (81659925688480972, (-17))];
  [(835127509465453, (-15)); (54494906280358979, (-17)); (96835619556631414, (-17)); (28729088262581282, (-17)); (22910308583726668, (-17)); (8410217346397677, (-16)); (76284613036718274, (-17)); (42028992649844499, (-17)); (96612846208308678, (-17)); (43773022483169433, (-17)); (2147649837056701, (-16)); (85896749464492661, (-18)); (65658456182575697, (-17)); (40721395892840628, (-18)); (15612620966157464, (-17)); (54874993497465419, (-17)); (49917466612608152, (-17)); (70018752363988368, (-17)); (58449333202756359, (-18)); (68141585720940123, (-17)); (40079579207130434, (-17)); (92944054091728157, (-17)); (43972825716622144, (-17)); (25101957066994346, (-17)); (635235082510482, (-15)); (41727311465192968, (-17)); (30296969978502192, (-17)); (9181722447091144, (-16))];
  [(93825351586729511, (-17)); (78594627222453994, (-17)); (77794765628498497, (-17)); (53018935861015315, (-17)); (35407084613430784, (-17)); (15073609874184823, (-17)); (60681890350874335, (-17)); (40920224022704998, (-17)); (94966956013878445, (-17)); (51260563934784531, (-17)); (17730734037708751, (-18)); (22729172766527972, (-18)); (31795616554942363, (-17)); (22718580460609372, (-18)); (6769019356881063, (-16)); (33618834266387787, (-18)); (73216311742969487, (-17)); (83199483010888442, (-17)); (75860585715259221, (-17)); (21209273613991461, (-17)); (14358367736053776, (-17)); (30959834995029872, (-17)); (46155208874033765, (-18)); ((-18794551273771387), (-18)); ((-12034026899255838), (-17)); (12509439306701973, (-16)); (87506074237092402, (-17)); (10627778703396604, (-16))];
  [(7180453513338505, (-16)); (42269026258821008, (-19)); (61041137925184374, (-17)); (55739612259958493, (-17)); (85782944841660214, (-17)); (41803113129035507, (-18)); (56944925991191564, (-17)); (87830858393486189, (-17)); (11919154223337924, (-17)); (84676529807500489, (-17)); (43283316354465473, (-18)); (67089868456615775, (-17)); (50244546929094458, (-17)); (77947354965328797, (-17)); (17331133502370144, (-18)); (93826587414435125, (-17)); (7673513006250634, (-16)); (47749424711821631, (-17)); (27857239089652164, (-17)); (21160234896496893, (-17)); (84834223341307269, (-17)); ((-20946988747596235), (-17)); (12276039243058026, (-16)); (13369802931818611, (-16)); (44397265064122288, (-17)); (76348797070411001, (-17)); (10097652236193007, (-16)); (16237838852142494, (-17))];
  [(84390138038901552, (-17)); (56564937532783821, (-17)); (9312430400105749, (-16)); (82522719478579987, (-17)); (37809883486801399, (-17)); (18579919787327204, (-18)); (9489604823147979, (-16)); (4737373038831767, (-16)); (689920420765195, (-15)); (38056757517472284, (-17)); (24796194055658249, (-17)); (28234863705743318, (-17)); (82020888772522138, (-17)); (7220030757798751, (-16)); (43369072959849164, (-17)); (35099191494687243, (-17)); (20680355778977333, (-17)); (57799099779249963, (-17)); (11869101601801768, (-18)); (11764622578764858, (-16)); (59340652598868793, (-17)); (68918615480856671, (-17)); (13164391070078909, (-16)); (70798365196953772, (-17)); (72885936592825296, (-17)); (49835828925120562, (-17)); (22473717438563431, (-17)); ((-15392506648382962), (-19))];
  [(89703396165388805, (-18)); (97318698665216474, (-18)); (55981716814198745, (-17)); (32201773283234703, (-19)); (64694103099730116, (-18)); (47731406677238863, (-17)); (58169596270843005, (-17)); (89622546739680686, (-17)); (53450008111476999, (-17)); (10001670067511426, (-17)); (92259469292964946, (-17)); (43557083598472135, (-17)); (81588025823674426, (-17)); (32042063280186905, (-17)); (64239965458661286, (-17)); (73966961640149309, (-17)); (80849604845095147, (-17)); (23760566256028226, (-17)); (38022909207011757, (-17)); (55473143009575199, (-17)); (85031484794415202, (-17)); (1176479633718897, (-15)); (45526943421013361, (-17)); (73111705544588645, (-17)); (85829051775709664, (-17)); (29223318718350255, (-17)); (43726820094388896, (-17)); (79167743102676902, (-17))];
  [(9934900497696102, (-16)); (81283359943578348, (-17)); (38151040311581308, (-17)); (71586426817661331, (-17)); (11878978689326258, (-17)); (13741079014805357, (-17)); (88625918698668582, (-17)); (31308272137416404, (-17)); (88335695134937509, (-17)); (76977191490824592, (-17)); (87426047835677856, (-17)); (10209343206899224, (-17)); (76579875865738989, (-17)); (86296505008449398, (-17)); (56715792223182526, (-17)); (67263242710301641, (-17)); (68542528821469806, (-17)); (51094433898997416, (-17)); (6816642202981289, (-16)); (17198526951329707, (-16)); (77327101324525893, (-17)); (98255289405836321, (-17)); (15410947885262654, (-16)); (51315410413237394, (-17)); (81848319714405915, (-17)); (13439616092552935, (-16)); (42468457323757641, (-17)); (77022469992827158, (-17))];
  [(7804447605114142, (-16)); (75541795252724653, (-17)); (9884660010970836, (-16)); (47585338101864372, (-17)); (49949476175730312, (-17)); (94607388591869745, (-17)); (57194729116983534, (-17)); (3124731364965504, (-16)); (35419278348302807, (-17)); (40075897024790097, (-17)); (45987373430347911, (-17)); (50777287071535737, (-17)); (81754588121499028, (-17)); (23896993675200284, (-17)); (34687838087674394, (-17)); (75847792966049299, (-17)); (76662678562730158, (-17)); (28668966322094402, (-17)); (98630834618384355, (-17)); (95131289349076609, (-17)); (74883586321913054, (-17)); (11243715461767076, (-16)); (69626893215383134, (-17)); (50709834565247258, (-17)); (74275113461460363, (-17)); (12956606986731374, (-16)); (10381834703471964, (-16)); (14692175013709587, (-16))];
  [(37558451274671267, (-17)); (83272795956157086, (-17)); (11244180322496011, (-17)); (93081713494492946, (-17)); (81077439660552408, (-17)); (42167074204278621, (-17)); (69912863833174732, (-17)); (85914608015063332, (-17)); (36326266581741129, (-17)); (56899085086995205, (-17)); (93665644398946046, (-17)); (26611933048479275, (-17)); (53608623718948845, (-17)); (12459892528081218, (-17)); (61886047395868615, (-17)); (71283650493636563, (-17)); (2885426051057095, (-16)); (85173743597584661, (-17)); (16488437514557674, (-17)); (12957298035346039, (-16)); (15891985515008686, (-16)); (57467642842997568, (-17)); (96033156321656477, (-17)); (89931369666516814, (-17)); (48140610065211797, (-17)); (84682363559484652, (-17)); (66974972998261828, (-17)); (40374928709729385, (-17))];
  [(18751186362292749, (-17)); (15544284795172569, (-17)); (25730111352177332, (-17)); (79820981129915358, (-17)); (37074369488456871, (-17)); (80105581859010655, (-17)); (31956881383358626, (-17)); (60634170418495503, (-18)); (28990561696298156, (-17)); (19077432878714662, (-17)); (61579867220708806, (-17)); (37147851876755722, (-17)); (36224552051919567, (-17)); (65253809213437031, (-17)); (82920395687728021, (-17)); (71087555771132127, (-20)); (85681902899486584, (-17)); (84422641712474378, (-18)); (43979726475719905, (-17)); (60027187409487459, (-17)); (28351546675251005, (-17)); (62817740821048473, (-17)); (83951912793874839, (-17)); (42291282879585523, (-17)); (87590806117741982, (-17)); (49114176320947733, (-17)); (24591428838189466, (-17)); (53638897731092272, (-17))];
  [(93918273373365468, (-17)); (88971551345183342, (-17)); (67893929340107373, (-17)); (13869899057503221, (-17)); (88375548203679621, (-17)); (54255162962479453, (-17)); (8382730055223484, (-16)); (35555735605450589, (-17)); (75413224885836772, (-17)); (55280700794159154, (-17)); (57471016489045357, (-17)); (60236435615057327, (-17)); (79097691170591578, (-17)); (23306324599092321, (-18)); (45466213740160333, (-17)); (85711011416011318, (-17)); (64061001482251811, (-17)); (27926580060790251, (-17)); (38486596576190624, (-17)); (93832324134187983, (-17)); (11547405545460014, (-16)); (11556969038574212, (-16)); (56827263965165786, (-17)); (46277186160738348, (-17)); (71433133812201632, (-17)); (77655975440364833, (-17)); (99875610522665004, (-17)); (87228273747212359, (-17))];
  [(66486508644495568, (-17)); (1592012204983394, (-16)); (44971409018622466, (-17)); (76088908733296656, (-18)); (11055798710419928, (-17)); (43880296724349854, (-17)); (59950855281182092, (-17)); (48604728213847559, (-17)); (5581514894023778, (-16)); (7735782930769286, (-16)); (12729495634744625, (-17)); (10687987662291909, (-17)); (41689378935664168, (-17)); (52627935706470674, (-17)); (3147831305950175, (-16)); (33368836475617758, (-17)); (3054398767367128, (-17)); (48698727681274634, (-17)); (39853763190245461, (-17)); (27341516959263906, (-17)); (22352646772891663, (-17)); (31264146391606568, (-17)); (34926052344992303, (-17)); (25266548858062138, (-17)); (51683155753377852, (-17)); (55362586568272226, (-18)); (18389508758403539, (-17)); (24149523523201966, (-17))];
  [(9883953735751364, (-16)); (26330091048368953, (-17)); (78461748300340106, (-17)); (12823963206014255, (-17)); (6185177848667579, (-16)); (83180006274244933, (-19)); (44946554580664688, (-17)); (6469079710153226, (-16)); (5018491596255944, (-16)); (25922105511061933, (-17)); (25665873052585353, (-17)); (88780163039955973, (-17)); (48244478652806577, (-17)); (30379147353491687, (-17)); (67293814051326839, (-19)); (85734936433316355, (-17)); (59225872120428191, (-17)); (96198810121723533, (-17)); (62498245724974388, (-17)); (3556041190885656, (-16)); (88896558651276592, (-17)); (26589664034552224, (-17)); (68469845182026667, (-17)); (68367537917396126, (-17)); (66000495439673046, (-17)); (74172512019489778, (-17)); (11591386638794732, (-16)); (57834089886022277, (-17))];
  [(16397045808733246, (-18)); (49440838654197616, (-17)); (41750643206410254, (-17)); (48768652417896519, (-19)); (13787406107101763, (-17)); (94022378002021434, (-17)); (17486426923248199, (-17)); (9935830206381554, (-16)); (87780652742003584, (-17)); (39015738400690836, (-17)); (80832676000635217, (-17)); (32340654106980038, (-17)); (15358054796099163, (-17)); (81581602254849117, (-18)); (10840671555095416, (-17)); (41806195419724479, (-17)); (80383237480449177, (-17)); (35236191322597055, (-17)); (88560773487131705, (-17)); (40054978629034774, (-18)); (54501720152744437, (-17)); (96585924786580668, (-17)); (74305478239470382, (-18)); (45039910277627693, (-17)); (50470476353890348, (-17)); (16793390829839505, (-17)); (1268303636699839, (-15)); (16256755903469158, (-16))];
  [(72039096887327003, (-17)); (16015606385808634, (-17)); (26285934626847229, (-17)); (43980912384257276, (-18)); (71416039122903507, (-18)); (70430930490687826, (-17)); (98497318371853237, (-17)); (19597025195970719, (-17)); (96322028835741236, (-17)); (75821892448114525, (-17)); (53744308829887744, (-17)); (88427919599230931, (-17)); (51609542262759733, (-17)); (17501194276078769, (-18)); (7862876492360269, (-16)); (4999143967427141, (-16)); (91742637215220357, (-18)); (63414259580138888, (-17)); (19996305253136515, (-17)); (39590183915973087, (-17)); (13849573293504816, (-17)); (11523339115556506, (-16)); (13769693407633121, (-17)); (55041545648739025, (-18)); (75330798166804813, (-17)); ((-46161526646730372), (-18)); (17405206546912678, (-18)); (46421075789500565, (-17))];
  [(96670388660627193, (-17)); (56257306323275114, (-17)); (51938416194593728, (-17)); (9937508330962711, (-16)); (85884599458337485, (-18)); (64741938293356649, (-17)); (1680214542884072, (-16)); (76072395236006052, (-17)); (16488343945447681, (-17)); (60290816203673592, (-17)); (41659797349811412, (-17)); (77436036467917935, (-17)); (15638681151925671, (-17)); (29739291387790856, (-17)); (79105540228952387, (-17)); (2596603656619989, (-17)); (1584862333134045, (-16)); (37539318301259206, (-17)); (82566200779536014, (-17)); (80212366278666491, (-17)); (14005896251017813, (-17)); (541836687563649, (-15)); (62263381478207802, (-17)); ((-24343169471451868), (-18)); (42955957230293085, (-17)); (4557321467095119, (-16)); (61606457572730733, (-17)); (35175188475101704, (-17))];
  [(54049154978048319, (-17)); (35270895876262753, (-17)); (53376682497743266, (-17)); (56903172043397521, (-17)); (18452405242018399, (-17)); (69895798932241648, (-17)); (93228581965491164, (-17)); (50994513017563026, (-17)); (44115815465635577, (-17)); (70984057719853166, (-17)); (48068651664162421, (-17)); (97523110847632577, (-17)); (93801013134183941, (-17)); (21960142719808429, (-17)); (37437659776589083, (-17)); (85717524895609665, (-17)); (14844460393633396, (-17)); (84152700372584155, (-17)); (54026173299701097, (-17)); (13271890827684265, (-16)); (57704879272534282, (-17)); (10051344025926694, (-16)); (10003000570763505, (-16)); (48860803065401037, (-17)); (63532571686144634, (-17)); (68635398995301045, (-17)); (25740534118193981, (-17)); (51944489345911693, (-17))];
  [(58014056567757655, (-17)); (63738966735541902, (-17)); (47139682418210449, (-17)); (66048706533981538, (-18)); (84623604154497867, (-17)); (22587595915783654, (-17)); (18039003396191078, (-17)); (7485990769154468, (-16)); (86862716277654484, (-17)); (60944219070933192, (-17)); (30767695855217814, (-17)); (92815210387517089, (-17)); (72161244145362136, (-17)); (77347700788108864, (-17)); (20003874354180673, (-17)); (29793158140800546, (-17)); (33608144102080462, (-18)); (34832022084580883, (-17)); (94708657127373241, (-17)); (3021227513782454, (-17)); (11554362357916257, (-16)); (70697771642822571, (-17)); (39533202316428179, (-17)); (10677683736556978, (-16)); (64084171040262283, (-17)); (91297519157377174, (-18)); (85744311591641442, (-17)); (81052565486716133, (-17))];
  [(69706195351870548, (-17)); (71697751657787778, (-17)); (47635540144093436, (-18)); (71835059837313309, (-17)); (84394911352230428, (-17)); (66643898442327976, (-17)); (90223810235126634, (-17)); (57276994029504114, (-17)); (38686128677170029, (-18)); (59548279469967402, (-17)); (46984872239689357, (-17)); (95744802123121309, (-18)); (44601245541757784, (-17)); (20993778502242399, (-17)); (12630492716726693, (-17)); (53446987583818717, (-18)); (53130442339046746, (-17)); (30882881464595646, (-17)); (74837913573754045, (-17)); (88237137391621423, (-17)); (78515769381110445, (-17)); (26168546269564741, (-17)); (27969391674546218, (-17)); (29205846836412819, (-17)); (15513542302285943, (-17)); (12588145416387666, (-16)); (10870996390206611, (-16)); (41065070602606468, (-17))];
  [(55970609644846059, (-17)); (52578355501535357, (-17)); (71074980090335149, (-17)); (77079590101190232, (-17)); (27850162943965029, (-17)); (5868935041844332, (-16)); (8077294437801138, (-16)); (47735563238243039, (-17)); (8624771373324478, (-16)); (64997301511465944, (-17)); (23849728194304898, (-17)); (75934119233517738, (-17)); (24461873675120316, (-17)); (70253386436464604, (-17)); (78078407699737018, (-17)); (72845696243387692, (-17)); (20418183395363576, (-17)); (8110447211537819, (-16)); (15725841615489955, (-17)); (62386020304841217, (-17)); (18354156144805417, (-17)); (45880842601662564, (-17)); (14437858478205914, (-16)); (68487905299727703, (-17)); (13042790194534311, (-16)); (53621375205014632, (-17)); (116704610088999, (-15)); (3537762450215679, (-16))];
  [(39280911444552147, (-17)); (93724060155489219, (-17)); (67725146417507032, (-17)); (52099781448881499, (-18)); (97304856945008789, (-18)); (21765208638441302, (-17)); (53504123822398642, (-17)); (72201998319941341, (-17)); (45071999837830368, (-17)); (72974695218415986, (-17)); (42130672112174472, (-18)); (70218615314824206, (-17)); (46473004890420078, (-17)); (89855125141088965, (-17)); (22631368908382166, (-17)); (95129402088328308, (-17)); (73977219875735367, (-17)); (30063056389770693, (-18)); (40271910257426979, (-17)); (10582808295073901, (-17)); ((-2011947166562289), (-17)); (33711315139357517, (-18)); (75278900560017248, (-17)); (12478442415572282, (-16)); (94725682756148244, (-17)); (45104978819334568, (-17)); (83893653764656784, (-17)); (65358675174591596, (-17))];
  [(17386532652744102, (-17)); (11398284299894301, (-17)); (77926774260185316, (-17)); (17955566460267525, (-17)); (94000090502479039, (-17)); (64642768366450665, (-17)); (86847714270902865, (-17)); (10814414597103295, (-17)); (51304021662188382, (-17)); (80030244426873098, (-17)); (16300690424852515, (-17)); (84114250754425668, (-17)); (68276383438493837, (-17)); (6469442797539624, (-16)); (5766766893954075, (-16)); (53088661997258557, (-17)); (31883884284573594, (-17)); (93767493703782212, (-17)); (13986156161762786, (-17)); (63395774317868614, (-17)); (67862754012067017, (-17)); (42272974371661715, (-17)); (62293148567347723, (-17)); (87552863475601139, (-17)); (86075797294395362, (-17)); (2014367772509629, (-16)); (79270219591861824, (-17)); (29054370265132484, (-17))];
  [(99436653515122664, (-17)); (94334356188296287, (-17)); (24294399479509754, (-17)); (88198184284581738, (-17)); (7045883332321129, (-16)); (59892133454618413, (-18)); (91156103212263284, (-17)); (44484422349218511, (-17)); (40529577618694723, (-17)); (35940909728415971, (-17)); (62847447458274996, (-17)); (28091530333688797, (-17)); (83725201144030459, (-17)); (97209588823279225, (-17)); (31121627890188752, (-17)); (35712338593909865, (-17)); (96868774294446802, (-17)); (67603282365088702, (-17)); (74809324843830383, (-17)); (16768542797094419, (-16)); (11752572961490666, (-16)); (48724784965522444, (-17)); (16800565369741247, (-16)); (1360203756917147, (-15)); (37714864456820946, (-17)); (22058314855502252, (-16)); (16498478312806644, (-16)); (52404071384402195, (-17))];
  [(86897570576479111, (-17)); (12037387798355559, (-17)); (32947715462165639, (-17)); (35544768699163898, (-17)); (24299544699615261, (-18)); (2276961398531776, (-16)); (93140214558019829, (-17)); (81113399570451317, (-17)); (74402033122651368, (-18)); (93310333971723236, (-17)); (44743883686124652, (-17)); (96789749432286831, (-17)); (77190019207925797, (-17)); (849788021775293, (-15)); (81916000078040008, (-17)); (97013224645323759, (-17)); (42720518047678679, (-17)); (55917330557140654, (-17)); (12118641315908008, (-18)); (60724890567419654, (-17)); (58730549660700171, (-17)); (10203328600440781, (-17)); (11873145309599622, (-16)); (79702130192646015, (-17)); (28852461386805484, (-17)); (82219018671107869, (-18)); (27935129924256501, (-19)); (90627538442863254, (-18))];
  [(94942697008059873, (-17)); (26338809301570454, (-17)); (96396823538434773, (-17)); (1092677385642955, (-16)); (75595282695454891, (-17)); (70275956894422464, (-17)); (2694530166991741, (-16)); (43751897850295318, (-17)); (31482665720001446, (-17)); (450101296168959, (-15)); (2723755852552493, (-16)); (49886085209173459, (-17)); (14585176332033301, (-17)); (8338082415822643, (-16)); (19355830330624446, (-17)); (74673999509507427, (-17)); (3906912564025965, (-16)); (26186900133314972, (-17)); (97326203164841485, (-17)); (12811683115606706, (-17)); (50037968176113889, (-17)); (47205521281815671, (-17)); (89273681790739745, (-17)); (90824813202329469, (-17)); (1255037196433707, (-15)); (53240776064066619, (-17)); (79520372518446003, (-17)); (82084241490752929, (-17))];
  [(36677363704508514, (-17)); (75242777917470427, (-17)); (73206958520315324, (-17)); (65919220737620576, (-18)); (8144202214366314, (-16)); (98948776413298256, (-17)); (24939403810309824, (-17)); (46668679266177726, (-17)); (72667799986537218, (-17)); (130171471150901, (-15)); (65869891581060003, (-17)); (20158422278652677, (-17)); (82266549617166584, (-17)); (88706802621423975, (-17)); (54861713978144888, (-17)); (17004661928530684, (-17)); (28169241723402583, (-17)); (51084349784011573, (-17)); (40898649452816316, (-17)); (45393219821748432, (-17)); (10880886988876832, (-16)); (13391716113580325, (-16)); (3823389316137456, (-16)); (12243850404559062, (-16)); (13675297672580708, (-16)); (21592126113753179, (-17)); (79343597431871116, (-17)); (99050938703354707, (-17))];
  [(29837503364216633, (-17)); (41429438100570914, (-17)); (75986205638871429, (-17)); (72029118292997119, (-17)); (99276538247315038, (-17)); (30861548437182174, (-17)); (96634650100920383, (-17)); (64706330731820072, (-17)); (49595901611234061, (-17)); (82315452866329242, (-17)); (31853271380182846, (-17)); (13363155291341688, (-17)); (44019661316447756, (-17)); (82282619330790663, (-17)); (67731791528992447, (-18)); (15665636999479349, (-17)); (49586953104858478, (-17)); (62144772147086214, (-17)); (41505021195210379, (-18)); (69445286326416444, (-17)); (6560519133807543, (-16)); (40855194740646261, (-17)); (77126578454158312, (-17)); (95729323879967176, (-17)); (6654815320338936, (-16)); (57098910895584509, (-17)); (75819919544055558, (-17)); (17311538912973784, (-17))];
  [(57521274218195451, (-17)); (34352983022578409, (-17)); (6301700077211454, (-16)); (74923679554343126, (-17)); (50013139446125032, (-17)); (31108829836544105, (-17)); (85005521317742438, (-17)); (90398615917984781, (-17)); (94728970045452621, (-17)); (54063815476326726, (-17)); (24744359014287753, (-17)); (12088834048832253, (-17)); (59340870185893324, (-17)); (69013592861744022, (-17)); (15411512385309323, (-17)); (90585693222079411, (-17)); (12198271331486499, (-17)); (87836525489720552, (-17)); (18486340148566416, (-17)); (76374962622829967, (-17)); (70347161747275055, (-17)); (7284760462160369, (-16)); (14298914065344963, (-16)); (12386352560722498, (-16)); (13326055797921075, (-16)); (56854499190810537, (-17)); (45578431456464119, (-17)); (20994807801438103, (-17))];
  [(5076770619954033, (-16)); (31585412353086406, (-17)); (69009006310844456, (-17)); (66885597758705617, (-18)); (54446264525258914, (-18)); (23090319670222681, (-17)); (53213603850752544, (-17)); (39672705537839181, (-17)); (9018618336120503, (-16)); (72339572179361178, (-17)); (6025958447926788, (-16)); (74942162137479706, (-17)); (93815477386600599, (-17)); (38773956520560593, (-17)); (50987125844786885, (-17)); (84225109607561732, (-17)); (57633659200291321, (-17)); (32581412438881852, (-17)); (69169027155711937, (-17)); (5409444699989221, (-16)); (41047439218946036, (-17)); (10372662591288042, (-16)); (46712841852569609, (-17)); (35412331602465041, (-17)); (87476210554966904, (-17)); (51975182527083774, (-17)); (37680968045531138, (-17)); (91757769300197167, (-17))];
  [(1342371367142362, (-16)); (93937422630158351, (-17)); (34683798229180007, (-17)); (80467845693735784, (-17)); (34396886418847616, (-17)); (65295777979414504, (-17)); (54478161603613851, (-17)); (27815084949772095, (-17)); (95727080237891038, (-17)); (4804570463796789, (-16)); (17870445444558403, (-18)); (68791195024715901, (-17)); (48529115366933417, (-17)); (47717753317916245, (-17)); (75965038456009559, (-17)); (63787045477387017, (-17)); (46170995249149671, (-17)); (21695096190296081, (-18)); (9350811240492849, (-16)); (72134884266955401, (-17)); (63875882476588958, (-18)); (7634933704375424, (-16)); (10767077002877481, (-16)); (55268390085773234, (-17)); (12194741750914249, (-16)); (75022624002809846, (-17)); (71530771212285116, (-17)); (11855565478956729, (-16))];
  [(84137735834587568, (-17)); (85911464893010325, (-17)); (87020341916899291, (-17)); (7768988436524854, (-16)); (67026228852673064, (-18)); (84004070023578881, (-17)); (20474892213926577, (-17)); (14478590627333243, (-17)); (12895903809603704, (-17)); (55676037530670397, (-17)); (46810994417929319, (-17)); (29181291732910386, (-17)); (90791145676264451, (-19)); (32744066668657723, (-17)); (11890454651946269, (-18)); (84736602406841421, (-17)); (60580458237876589, (-17)); (75205634341509719, (-17)); (61637252677733168, (-17)); (5911366325985018, (-16)); (24344227860450168, (-17)); (62872127391114629, (-17)); (54437434589263833, (-17)); (36838621453844811, (-17)); (49954771716297353, (-17)); (9692936667584473, (-16)); (25392011445840335, (-17)); (98647658892405898, (-17))];
  [(68660234059436664, (-17)); (49357431576203992, (-17)); (90825660240798345, (-17)); (44396586244089287, (-17)); (36374677128354671, (-17)); (42264053226435927, (-17)); (28692542399478826, (-18)); (88750095587954836, (-17)); (33589938073782666, (-17)); (40595785137643203, (-17)); (54646552146880012, (-17)); (37325543668179484, (-17)); (79243982423070969, (-17)); (28815066086822605, (-17)); (32218662266206555, (-17)); (47814399808192953, (-17)); (6599385239185388, (-16)); (90519141785869706, (-17)); (49110942803315416, (-17)); (51429431500258449, (-17)); (10815704941494764, (-16)); (82443278644134776, (-17)); (29006022711878465, (-17)); (64127990084086384, (-17)); (45868784761737302, (-17)); (66986019636629313, (-17)); (95597776240369203, (-17)); (85259721502219743, (-17))];
  [(19950696821167191, (-17)); (89121848791068481, (-17)); (78959187615946924, (-17)); (82970929245559755, (-17)); (74038418868754019, (-17)); (60723695086135998, (-17)); (60021022332107321, (-17)); (38201720172822118, (-17)); (79288258897496444, (-17)); (64829227323677019, (-18)); (31769947731516557, (-17)); (61988481236359116, (-17)); (97536671104581329, (-17)); (79840313466289947, (-17)); (65288606977454999, (-17)); (16907126845790066, (-17)); (88815224761998524, (-17)); (94115724129455181, (-17)); (73609013846351945, (-17)); (11709839403598217, (-16)); (10925889492147443, (-16)); (1380092669306678, (-15)); (83547549304912283, (-17)); (12576160674083525, (-16)); (11567772662012834, (-16)); (1433451118867396, (-15)); (17546891679219365, (-16)); (18405389268542121, (-16))];
  [(19356743093715856, (-17)); (79375231818314518, (-17)); (9537785594619731, (-16)); (73437631356449795, (-17)); (94154425694490762, (-17)); (32996756725346088, (-17)); (96693982667763523, (-17)); (75168703493893385, (-17)); (4319421534699418, (-16)); (93179925922722706, (-17)); (46104356892622744, (-17)); (20001636631027775, (-17)); (32594683292407889, (-18)); (64218991385567981, (-17)); (8619511005521221, (-16)); (79523009025896152, (-18)); (16362783015179572, (-17)); (94342381733129399, (-17)); (84313421378140507, (-17)); (41304118990784416, (-17)); (57607303326873749, (-17)); (28467547488228456, (-17)); (77317458346664902, (-17)); (78395569253993935, (-17)); (79454803108983355, (-18)); (11972161368024044, (-16)); (76356325021063398, (-17)); ((-36022599710727243), (-18))];
  [(8954347012071896, (-16)); (19327287679423399, (-17)); (41285031118532689, (-17)); (51943041303812032, (-17)); (72436544875860076, (-17)); (87412861814738407, (-17)); (50602326517054774, (-17)); (7833870366087532, (-16)); (80324479298517149, (-17)); (88489974131218363, (-17)); (98267264756631278, (-17)); (94480952305397525, (-17)); (13060095917457737, (-17)); (74263839842118118, (-17)); (65395011975522643, (-17)); (8322800928279086, (-16)); (99905770956940376, (-17)); (16223681076950069, (-17)); (82726787944453117, (-17)); (67453889982354787, (-17)); (10655995749697256, (-16)); (12478203020379972, (-16)); (90284381170243233, (-17)); (13614102491773681, (-16)); (15181972370548542, (-16)); (13277594811294342, (-16)); (13805589782997725, (-16)); (16395356325828523, (-16))];
  [(89518839324727417, (-17)); (25185252107047229, (-17)); (3330203746666941, (-16)); (81673792224645181, (-17)); (97125608235150107, (-17)); (13475923788679445, (-17)); (81109625437065935, (-17)); (61128171501486439, (-17)); (45713864737222865, (-17)); (67697987263519377, (-17)); (51743298710494556, (-17)); (89441362201004548, (-17)); (94952915276063754, (-18)); (53525336218109421, (-17)); (61027145387885284, (-17)); (64963737694040802, (-17)); (46846934384090888, (-17)); (90478804374020949, (-17)); (19695649186831676, (-17)); (77063478574970845, (-17)); (10104605193873963, (-16)); (12876137638861299, (-17)); (12205406856790484, (-16)); (11935856609417961, (-16)); (41788993700307914, (-17)); (79493917520380242, (-17)); (10396274343469638, (-16)); (15747322206968617, (-17))];
  [(77135629474406109, (-17)); (40176415329727688, (-17)); (41144976807604428, (-19)); (6234343379131676, (-16)); (35719859921395236, (-17)); (83675234000455967, (-17)); (87819955976329744, (-18)); (36350210793884374, (-17)); (98035338078891965, (-17)); (19967997180654029, (-17)); (5266982932194807, (-16)); (47932161682905783, (-17)); (7975006471708953, (-16)); (34198195277499677, (-18)); (30973394102467899, (-17)); (212976188223989, (-15)); (54954934984351944, (-17)); (87533072767824871, (-17)); (72074257754248838, (-17)); (75291868720155963, (-17)); (66422767600593902, (-17)); (12640880253462927, (-16)); (19065914573166176, (-17)); (17706173608995424, (-17)); (46837399309731714, (-17)); (9476692169630978, (-16)); (75402771177712347, (-17)); (15171770743612993, (-16))];
  [(16823599234697761, (-17)); (32736011028892908, (-17)); (23831128626035814, (-17)); (78450414027204562, (-17)); (65890350497887562, (-17)); (33341706075287292, (-17)); (39745154874221877, (-17)); (25625836034785432, (-17)); (25105171947169447, (-17)); (89450944539705435, (-17)); (42526445475997909, (-17)); (12005229724011202, (-17)); (32672382629890118, (-17)); (45145977751535382, (-17)); (42911968036738191, (-17)); (13459299186035178, (-17)); (42102408872055674, (-17)); (46131926024722902, (-17)); (14088708903684366, (-17)); (4780257553734294, (-16)); (40825554737540753, (-17)); (25877982198148614, (-17)); (53165564101234974, (-17)); (42640340155241913, (-17)); (22831896748682579, (-17)); (5239166052526042, (-16)); (41119843978826037, (-17)); (21818008083222026, (-17))];
  [(87064921837871767, (-17)); (12066660952914876, (-17)); (52476109707176155, (-17)); (37864869057662032, (-17)); (35749514062004994, (-17)); (9115330160487326, (-16)); (63273779957242793, (-17)); (29055444756976667, (-17)); (51285957492782763, (-17)); (19877263241882082, (-17)); (72062872565911729, (-17)); (43059971014185539, (-17)); (68179806519845831, (-17)); (37617645561342139, (-17)); (74743877818058235, (-17)); (89968697595101566, (-17)); (38376491155145864, (-17)); (4181058958170959, (-16)); (61245156465878337, (-17)); (11861471290384897, (-16)); (47486068776711943, (-17)); (11902469846375721, (-16)); (10674030736338631, (-16)); (57659642368141917, (-17)); (1313087817197039, (-15)); (82707668269083778, (-17)); (38700277504069758, (-17)); (91088553468966149, (-17))];
  [(69636149953595727, (-17)); (90111279007797929, (-17)); (73088134337236255, (-17)); (86325983633571601, (-17)); (54552594916442776, (-17)); (38718251307209761, (-17)); (38932879613088756, (-17)); (53587866260143546, (-17)); (83633066920504773, (-17)); (61723639741231406, (-18)); (85352375714354345, (-17)); (22070251109500616, (-17)); (64823301116578413, (-18)); (61007952718492175, (-17)); (69146901982568587, (-17)); (43324517755474223, (-17)); (60776289469103317, (-17)); (93695347565029585, (-17)); (74270651607667604, (-17)); (84459730840896641, (-17)); (93901743664323489, (-17)); (77257445627155452, (-17)); (11912671559245691, (-16)); (11394607854551206, (-16)); (10579941546191929, (-16)); (15109844766044929, (-16)); (14231509387899228, (-16)); (13988597400056997, (-16))];
  [(32702557534323351, (-17)); (38772110616029132, (-17)); (86717497016355172, (-17)); (45103991823107181, (-17)); (7875683128058808, (-16)); (59883405018515479, (-17)); (10162939040378838, (-17)); (44807521683282547, (-17)); (54765152825477259, (-17)); (18218863485441994, (-18)); (49418844643021043, (-17)); (97624855113377529, (-17)); (51794219081512183, (-17)); (79299155009839639, (-17)); (77550007149459066, (-17)); (38075220398691079, (-17)); (37959636585535073, (-17)); (30949640281619828, (-17)); (86465489699749032, (-17)); (65272211566339788, (-17)); (11925822161885959, (-16)); (12866109085528914, (-16)); (64960032926637279, (-17)); (10945720686509124, (-16)); (13567863207496917, (-16)); (35283878102997923, (-17)); (78155289874188472, (-17)); (98720939000040797, (-17))];
  [(94425098862328527, (-18)); (32995696226449933, (-17)); (25428351269751048, (-17)); (97123492641817799, (-17)); (93530863682596843, (-17)); (1348252878936459, (-16)); (47881721421550183, (-17)); (3607369228184365, (-17)); (550813453494161, (-15)); (57587827563596283, (-17)); (80868930215038237, (-17)); (6963251855585898, (-16)); (27296635920639889, (-17)); (63406915396121977, (-17)); (88302823189509705, (-17)); (51532148145588652, (-17)); (66841031184174082, (-17)); (18091329334151585, (-18)); (85033237716928356, (-17)); (11538798156668248, (-16)); (10666608283808217, (-16)); (36451565782443029, (-17)); (13062223272857425, (-16)); (10510503802737585, (-16)); (44320424972755212, (-17)); (82742258519988732, (-17)); (56704118443799434, (-17)); (65954379952319753, (-17))];
  [(31804581616302963, (-17)); (55264260461663672, (-17)); (80992576135548822, (-17)); (65130404523640717, (-17)); (12314775650807464, (-17)); (49298245755842229, (-17)); (44514443092919187, (-17)); (50413705449630242, (-17)); (10346680998659796, (-17)); (98059688075054197, (-17)); (95234285629228166, (-17)); (77796081411497819, (-17)); (59225277033442492, (-18)); (5704412225433485, (-16)); (83645686952506193, (-17)); (55000350148377219, (-17)); (32011706974373944, (-18)); (7677299486434408, (-17)); (62238397362921538, (-17)); (78667996062517687, (-17)); (11631475820642616, (-17)); (5153986056497547, (-16)); (73664036838160263, (-17)); (18435269201225579, (-17)); (21430275638721671, (-17)); (30758024675341827, (-17)); (29689880114992323, (-17)); (61338644431700187, (-18))];
  [(86890014453291842, (-17)); (21653571072897404, (-17)); (74661894124901629, (-17)); (28747573034074159, (-17)); (38814958034318137, (-17)); (65607742268513614, (-17)); (75401291659357939, (-18)); (68366371240928425, (-17)); (70253080810364643, (-17)); (98055437530381606, (-17)); (64897377623193764, (-17)); (22808920115242859, (-17)); (53218560138237081, (-17)); (99668811948204628, (-17)); (70604183176890711, (-17)); (78613124531367873, (-17)); (44748956017513686, (-17)); (48010337628467858, (-17)); (96575340148383648, (-18)); (3808069222434266, (-16)); (65956744646220045, (-17)); (93909289301638932, (-17)); (38259869463481189, (-17)); (10044842416127016, (-16)); (13295678720098376, (-16)); (60798318496128712, (-18)); (28160581623746167, (-17)); (37521409077024104, (-17))];
  [(87924660889071582, (-17)); (13633330708190716, (-17)); (38256237668055859, (-18)); (36374853787563355, (-17)); (35074520248565688, (-17)); (40941897175917807, (-17)); (17282780853707624, (-17)); (9535710012743781, (-18)); (89083524342770626, (-17)); (2456816454745383, (-16)); (47309045992655541, (-17)); (6775502470058784, (-16)); (44712128857757993, (-17)); (77214227462799423, (-17)); (52332204418723072, (-17)); (11784562599535975, (-18)); (1148483340401385, (-16)); (68010817283850034, (-17)); (48017845631242195, (-17)); (61676616663403572, (-17)); (31522766690922932, (-17)); (72574364646014666, (-17)); (80159539291724335, (-17)); (32877777132087854, (-17)); (31899353039777895, (-17)); (28561638216148827, (-17)); (23839386662522255, (-17)); (70721770059824496, (-17))];
  [(11338284986446556, (-17)); (576010840015031, (-15)); (42071700837078041, (-17)); (55343242492478562, (-17)); (73714388604048475, (-17)); (68639949768838904, (-17)); (46907491670802348, (-17)); (44341902885283202, (-17)); (64922380296827509, (-18)); (487138738866285, (-15)); (2736757081231227, (-16)); (13455230012520369, (-17)); (61278058844853522, (-17)); (3635896201700427, (-16)); (13320911935650659, (-18)); (4899205824189109, (-16)); (1324553817530415, (-16)); (20745209090043437, (-17)); (42236413774590575, (-17)); (44442155379484027, (-17)); (55682247585795319, (-17)); (28457745313568261, (-17)); (36623852355865039, (-17)); (53285418539058427, (-17)); (2892602092179587, (-16)); (33615073738382539, (-17)); (37960773415284965, (-17)); (20419910462343493, (-17))];
  [(74797052837202538, (-17)); (21250065587444955, (-17)); (94498572173425022, (-17)); (5681995512564334, (-16)); (54964844268867241, (-17)); (20832462176602484, (-17)); (63359103879485557, (-17)); (72036826858821867, (-17)); (85963450921514106, (-17)); (51904261339994251, (-17)); (89468990086252109, (-17)); (46079552085461306, (-17)); (78456209185137538, (-17)); (65845947014303985, (-17)); (9857446458219653, (-16)); (42926849677003986, (-17)); (84862911716122136, (-17)); (37354822680047761, (-17)); (91753468383850589, (-17)); (13866995036177845, (-16)); (11455401664133102, (-16)); (13683592432163421, (-16)); (10058034289182562, (-16)); (97680168432397163, (-17)); (69357330727993893, (-17)); (14173793645220774, (-16)); (11878294358056953, (-16)); (14652291879980686, (-16))];
  [(70502717396192438, (-17)); (30363866786632043, (-17)); (32479454075157399, (-18)); (56259509978022382, (-17)); (99249547159313545, (-17)); (28384910501882077, (-17)); (46303788906689847, (-18)); (57312100465267801, (-18)); (62365601296576045, (-17)); (15966663555538663, (-17)); (14076921588761437, (-17)); (14849265848605908, (-18)); (9200441016422265, (-16)); (81119041259377422, (-17)); (32882242130979866, (-17)); (47481851375380946, (-17)); (33832957494762239, (-17)); (32256299936533639, (-17)); (45672135303248984, (-18)); (15975996888693819, (-17)); (13097529072912814, (-17)); (58874240753436768, (-17)); (80496337547666552, (-17)); (70472088532872479, (-17)); (44919420715224634, (-17)); (41088217124847043, (-17)); (45792626495660654, (-17)); (14333007401815648, (-17))];
  [(30175600252223489, (-17)); (44007999014761712, (-18)); (94264286450587642, (-17)); (15275497855712039, (-17)); (8962074609948838, (-16)); (79977941384583773, (-17)); (60613087184032355, (-18)); (34469967159616854, (-17)); (33323627133367228, (-17)); (45113605181535921, (-17)); (86015546427980616, (-17)); (18758095443628409, (-17)); (17544721833862742, (-17)); (17841605907536506, (-17)); (61194065374546303, (-17)); (32515332440656319, (-17)); (55818038792752223, (-17)); (95178275017701253, (-17)); (77276179487356089, (-17)); (30261784647222345, (-17)); (57832994106714597, (-17)); (11460172835325468, (-16)); (83659344543573377, (-18)); (67067578566099273, (-17)); (51087830307854443, (-17)); (24122194939392413, (-17)); (12559715112697725, (-16)); (12195634408813287, (-16))];
  [(71434526316548919, (-17)); (40406178410551952, (-17)); (19436791583065383, (-17)); (67203155863536423, (-17)); (77181888301433044, (-17)); (42793311715668003, (-17)); (77990163669258672, (-17)); (22096150681841997, (-17)); (73109202225047576, (-18)); (76132710137618154, (-17)); (16228407784403254, (-17)); (20491745886064849, (-17)); (62550814408869648, (-17)); (86941701394910365, (-17)); (69725492123420241, (-17)); (82311026293344891, (-17)); (20303163080681819, (-17)); (63565585014258907, (-17)); (10441757856082479, (-18)); (64570096333217286, (-17)); (32946620643567726, (-17)); (15247875536309613, (-17)); (1490223719335922, (-15)); (10943395266664753, (-16)); (56168932978616126, (-17)); (20325212263598347, (-17)); (34777430127631437, (-17)); (20095504470230924, (-17))];
  [(12823539238963311, (-17)); (13448234365365364, (-17)); (60786063472703677, (-17)); (71742452332444828, (-17)); (39680725144594109, (-17)); (32295578716789308, (-17)); (59673507542489235, (-19)); (91683635988502821, (-17)); (25103724149031748, (-17)); (90679716616786576, (-17)); (68978175474144521, (-17)); (82053221440978241, (-17)); (36665191226767979, (-17)); (79879797786308038, (-17)); (14818662861129683, (-17)); (97467432593429759, (-17)); (77436956259746081, (-17)); (2908348124003477, (-16)); (58687060451936734, (-17)); (72633895101520041, (-17)); (72263510112966167, (-17)); (29639001451347863, (-17)); (57081341197117008, (-17)); (12299863745506661, (-16)); (70563488287777298, (-17)); (60142953626495155, (-17)); (88455092348485675, (-17)); (55302135483057502, (-17))];
  [(58040102570678831, (-17)); (20642365031564336, (-17)); (74679613064166372, (-18)); (23036394493475898, (-17)); (44546434805849344, (-17)); (19131295989576202, (-17)); (19972015314537872, (-17)); (84502012016973238, (-17)); (93775086066411506, (-17)); (20018112893911633, (-17)); (38460259446857337, (-17)); (96913286821917821, (-17)); (81645654621378849, (-17)); (69862600045740098, (-17)); (72627595127318878, (-17)); (45512991547230019, (-17)); (81933199778497479, (-17)); (66428203793162022, (-17)); (1808149458643844, (-16)); (50639298606053107, (-17)); (11851090299197451, (-16)); (97572604291121501, (-17)); (60043324117258956, (-17)); (87506884449237943, (-17)); (62989311147872129, (-17)); (61299387783815973, (-17)); (65385826126287383, (-17)); (37537737550192984, (-17))];
  [(4666312264265845, (-16)); (23733510264480573, (-17)); (44723501495829132, (-17)); (61097008248368978, (-17)); (31495086128470962, (-17)); (67034412184997316, (-17)); (73980739024192665, (-17)); (80715526872335519, (-18)); (58567839479713135, (-17)); (9432679926107842, (-16)); (89392667630045486, (-17)); (39255861977481332, (-17)); (52417338129173707, (-18)); (84883544544773015, (-17)); (99368499272762945, (-17)); (48085996810495102, (-17)); (26081899655305341, (-17)); (90070642662023648, (-17)); (20849782309364051, (-17)); (71834661960774482, (-17)); (35387865337670371, (-17)); (76289982759927832, (-17)); (98923498566425661, (-17)); (36635543775986418, (-17)); (99649329947418774, (-17)); (33758645107935464, (-17)); (11318749342177897, (-17)); (36055770125694614, (-17))];
  [(93594056083497956, (-17)); (80215628359773627, (-17)); (10439612707596602, (-17)); (95127738168739673, (-17)); (80178684110329934, (-17)); (39420837661296704, (-17)); (89195417104880548, (-17)); (54134169163246559, (-17)); (11089271068602802, (-17)); (98163204758016465, (-17)); (98733334893782654, (-17)); (24643391272721615, (-17)); (83049195608468285, (-17)); (57427998775732469, (-17)); (51798757114173721, (-17)); (89126312912106631, (-17)); (46586121568310657, (-18)); (782599861002784, (-16)); (26604220273628965, (-18)); (19736246634223598, (-16)); (14932731869256322, (-16)); (50555722313996043, (-17)); (14185630370199287, (-16)); (10065953591268986, (-16)); (38887208148531971, (-17)); (65272628032844643, (-18)); (48895575672630406, (-18)); (31271213494984788, (-18))];
  [(76872117551978714, (-17)); (20567841822489219, (-17)); (97930974560912976, (-17)); (70488426949927807, (-17)); (9916585661540348, (-16)); (96971767701841005, (-17)); (80315213159613785, (-17)); (30757724673358133, (-18)); (76003235886091969, (-17)); (87621082375850523, (-17)); (25658147090440486, (-17)); (9095490700879767, (-16)); (47631156673357145, (-17)); (67954806890310271, (-17)); (86084411593796395, (-17)); (1537725775970622, (-17)); (80432009479526345, (-17)); (87215883195116373, (-17)); (2283859595419947, (-16)); (52091901242648719, (-17)); (67750395250569229, (-17)); (59418806941918612, (-17)); (59469267153173133, (-17)); (10180542040968779, (-16)); (83053729650263231, (-17)); (89315873003851232, (-17)); (11414906694199591, (-16)); (1162112029981571, (-15))];
  [(53087014699486645, (-17)); (46269771165421603, (-17)); (3793020081286862, (-16)); (49236103465391867, (-18)); (3837300478130613, (-16)); (13676490690906296, (-17)); (47260107452495537, (-18)); (3662678991163465, (-16)); (96522068902572855, (-17)); (9956542103142656, (-16)); (84717853969161183, (-17)); (82608157239305591, (-19)); (66963617498825911, (-17)); (86091739377778331, (-17)); (42382101143860396, (-17)); (15178877328842588, (-17)); (63172780383515359, (-17)); (23347701474440541, (-17)); (70890678829010711, (-17)); (30782829098264758, (-17)); (72979254076496625, (-17)); (91634777742953122, (-17)); (11390344158428507, (-17)); (47339988834365554, (-17)); (31957352412827184, (-17)); (14427416731812803, (-17)); (58014438551861525, (-17)); (83014805820977933, (-17))];
  [(97188083452080765, (-17)); (62755808217558906, (-17)); (3659479287375158, (-16)); (55543725179801551, (-17)); (19052355068674276, (-17)); (50658301426954977, (-17)); (99622979962928404, (-17)); (13111763869857396, (-17)); (22960199679222593, (-17)); (82733527940830398, (-17)); (83971643074032476, (-17)); (40637017820850296, (-17)); (47827070169921471, (-17)); (57341554656370275, (-17)); (37788478036339279, (-17)); (1077491663225123, (-16)); (82195704465256669, (-17)); (61330753294176799, (-17)); (94103898179661694, (-17)); (12342195620581689, (-16)); (40182930091001229, (-17)); (66080349599939137, (-17)); (59070713531908736, (-17)); (21227162217721332, (-17)); (40837148517254801, (-17)); (16060465392115657, (-16)); (38355987066218389, (-17)); (77124240689997614, (-17))];
  [(88359693304429132, (-17)); (27216792928794209, (-17)); (58507000807406107, (-17)); (24140740114069481, (-17)); (53748947196945684, (-17)); (30494955099040266, (-17)); (23097280116824881, (-18)); (98852140352313667, (-17)); (67448324705587925, (-20)); (9228106675255825, (-16)); (85321137664276792, (-17)); (79673657193829839, (-17)); (2151456550821278, (-16)); (37721557012980067, (-17)); (35752512818451654, (-17)); (29581570380211131, (-17)); (51131251642054287, (-17)); (6053264477838306, (-16)); (68303689683902635, (-17)); (17902422522962094, (-17)); (80405851618628799, (-17)); (28388255256528705, (-17)); (80835295758111089, (-18)); (55444476158918299, (-17)); (12415291721843878, (-17)); (48638870846659396, (-18)); (10433346426781518, (-16)); (13438979778357504, (-17))];
  [(55833091662139134, (-17)); (93106114663825046, (-17)); (59093102244328888, (-17)); (30922467336932591, (-17)); (61868193162436758, (-17)); (34324965696532361, (-17)); (82265441037006126, (-17)); (62357764457050424, (-17)); (21512180011006843, (-17)); (85912828090477933, (-17)); (63614759875756777, (-17)); (94980425798385393, (-18)); (23789657037107559, (-18)); (75498542520229661, (-17)); (99600545872345403, (-17)); (99309736743096233, (-17)); (86166851510544196, (-17)); (51284406436160679, (-17)); (48546661894637066, (-17)); (37952679742552792, (-17)); (67111208711742931, (-17)); (39477500031181562, (-17)); (10490975063036454, (-16)); (11322739271954116, (-16)); (47883032473381071, (-17)); (80208472139367681, (-17)); (10760157127450249, (-16)); (54643124977982915, (-17))];
  [(20004335591818911, (-19)); (84751751182566915, (-17)); (21526080972163641, (-17)); (990986785282713, (-15)); (51389458404545785, (-18)); (43333448043446721, (-17)); (8008690686063985, (-16)); (6055302258484474, (-17)); (33013116096148432, (-18)); (21986445617109751, (-17)); (78873760144062144, (-17)); (58640475768631695, (-17)); (58792544577100148, (-17)); (21349024436044794, (-17)); (21975569033821241, (-17)); (97332666126424094, (-17)); (59779301635051485, (-17)); (27692252312231691, (-17)); (4141988667216534, (-16)); (12097364960758354, (-16)); (61783540326497088, (-17)); (48011102293787289, (-17)); (10385026091153713, (-16)); (20831301936542646, (-17)); (17977735414024631, (-17)); (72978754853173133, (-17)); (48892630840408619, (-17)); (29986495056974694, (-17))];
  [(19215643358712642, (-17)); (97231256267664845, (-17)); (95512987261160809, (-17)); (62531650843530417, (-17)); (40293665973694948, (-17)); (25905325681744518, (-17)); (56560365632278731, (-18)); (67341942808782917, (-17)); (13159633452313568, (-17)); (1816879705411345, (-17)); (40693544445000707, (-17)); (72498586643089036, (-17)); (50213570855364542, (-17)); (83229447895714515, (-17)); (55479557645772437, (-17)); (54625440683524285, (-17)); (55752578498622352, (-17)); (43506690138744997, (-17)); (68054201820411486, (-17)); (56194621574096126, (-17)); (10159984963862427, (-16)); (63180503767691187, (-17)); (54518482550236524, (-17)); (13967781707008555, (-16)); (1004691056659589, (-15)); (42243079988121224, (-17)); (11719615326022612, (-16)); (7297397832361876, (-16))];
  [(48416154970285696, (-17)); (68212384348664801, (-17)); (19743432477825784, (-17)); (6660036707169309, (-16)); (31584591304760623, (-17)); (53583344854150661, (-17)); (77616715135169034, (-17)); (74021549439433398, (-18)); (17347071811074199, (-17)); (42659113464819887, (-17)); (35921956287613144, (-17)); (14125768007598016, (-17)); (22464054466838856, (-17)); (27384597102533337, (-17)); (33515083552902547, (-17)); (28100780579359508, (-17)); (15596608210987917, (-17)); (17689618285171682, (-18)); (34285916115019921, (-17)); (48903201576228916, (-17)); (28739495054657521, (-17)); (2405457102448757, (-16)); (55034347902979541, (-17)); (22842092918006551, (-17)); (29479434144617156, (-17)); (38502311703318665, (-17)); (14270934197077781, (-17)); (12927308138482818, (-17))];
  [(20274783298647181, (-17)); (22688846287223496, (-17)); (95864332362141036, (-17)); (20664742926097346, (-17)); (72504109819058027, (-17)); (70031548360923301, (-17)); (16566326236265139, (-17)); (45320636164163397, (-17)); (85915795889916802, (-17)); (82045038347740817, (-17)); (80820593817200059, (-17)); (86487194792750566, (-17)); (63791800748622884, (-17)); (67247507597573586, (-18)); (30945087473321009, (-17)); (51631322070444041, (-17)); (35026622825142195, (-17)); (97302812509495962, (-17)); (27190385858438249, (-17)); (33318758694477291, (-17)); (11268271822625071, (-16)); (12969511320944709, (-16)); (10270926517922474, (-17)); (38170059816204543, (-17)); (4527883472090195, (-16)); (13922325653097756, (-17)); (68276002910746547, (-17)); (42436687556607655, (-17))];
  [(64324615913771988, (-17)); (13727608818328174, (-17)); (96623306725364266, (-17)); (72390583077738546, (-17)); (19059550521353297, (-17)); (60086107081321061, (-17)); (76865087123677911, (-17)); (85139533251065858, (-17)); (38716764320207298, (-17)); (77347233775120805, (-17)); (4494449549379248, (-16)); (60651644758924461, (-17)); (11723537990258881, (-17)); (14820547791174243, (-17)); (37122286375752078, (-17)); (83669448598467144, (-17)); (22064667208171873, (-17)); (80090781985602555, (-17)); (87770793742654751, (-17)); (5658475502091096, (-16)); (22834606738444363, (-17)); (39609865900976626, (-17)); (8117394174429079, (-16)); (76167009903420269, (-17)); (3976172986681209, (-16)); (94269976198911565, (-17)); (83073683354654715, (-17)); (38866010435620246, (-17))];
  [(4645005207202455, (-16)); (65104893119194163, (-17)); (10391193804818488, (-17)); (22850492100677144, (-17)); (54245465629698353, (-17)); (42514652722528234, (-17)); (7936671449548256, (-16)); (58164778248166704, (-17)); (60960776419250329, (-17)); (49819797581261716, (-17)); (92069584175450414, (-18)); (86147531923467735, (-17)); (4764338045743417, (-16)); (99825759797788227, (-17)); (47642689885347367, (-18)); (90954359144941677, (-17)); (67501350664584936, (-17)); (49657336919543782, (-17)); (56193421530070797, (-17)); (40746214834229733, (-17)); (49614031133287273, (-17)); (59650417601256422, (-17)); (12371899659242676, (-16)); (1366585859610097, (-15)); (86381355871613041, (-17)); (78458245723555864, (-17)); (97000617677645473, (-17)); (70210416435441436, (-17))];
  [(32048462132272082, (-18)); (60677362130635759, (-17)); (92084173472940845, (-17)); (86857614892436696, (-17)); (74113859868091037, (-17)); (31464054170013678, (-17)); (21354281124886465, (-17)); (26431110009845615, (-17)); (47933837537025026, (-17)); (71729529698449923, (-20)); (94061369996265021, (-18)); (45684383097959014, (-17)); (78019761700775947, (-17)); (28751461823124225, (-17)); (64215464063446026, (-17)); (69338537558185032, (-17)); (85422825788355838, (-17)); (63026896231569751, (-17)); (96396924054168109, (-18)); (566471767849962, (-15)); (60172451311560282, (-17)); (60405530085864378, (-17)); (71520628961701438, (-17)); (83352451910706726, (-17)); (7988101793438005, (-16)); (59591572959492634, (-17)); (10110981575937574, (-16)); (10309001787195196, (-16))];
  [(712343583652571, (-15)); (96851324988830545, (-17)); (53655287830153309, (-17)); (23785681156771887, (-17)); (49998646668571278, (-17)); (9408175650896432, (-16)); (43798754149944563, (-17)); (77593990171512683, (-17)); (82435351587924943, (-17)); (76799839039131645, (-17)); (12266557505004549, (-17)); (95463043051818286, (-17)); (51985690767068293, (-17)); (16492581476574919, (-17)); (27035692666328481, (-17)); (89395463777758222, (-17)); (70836505425745511, (-17)); (69744205128741277, (-17)); (53101364066380674, (-17)); (1730158503778223, (-18)); (23246710480981908, (-17)); (84625903438917593, (-17)); (41576555066924858, (-17)); (78116569493910348, (-17)); (99056552635458806, (-17)); (48677396646062593, (-17)); (93313695866788837, (-17)); (13861235587338703, (-16))];
  [(5658729463280876, (-17)); (61835481597262787, (-17)); (24708636967145092, (-17)); (35544377339507216, (-18)); (84269272184601074, (-17)); (96850021649326989, (-17)); (57286407253415716, (-18)); (57145883220162563, (-17)); (89785684023045953, (-17)); (1283214017954869, (-16)); (49511354024336485, (-17)); (40334132429240843, (-17)); (89550058964640467, (-17)); (93334608514662531, (-17)); (80730248633740942, (-17)); (7878868590590955, (-16)); (99944605169478762, (-17)); (97105439486818235, (-17)); (96730664200690497, (-17)); (92636732281159762, (-18)); (11739545278865067, (-16)); (13613958681226772, (-16)); (12437500496769378, (-17)); (17341220673173032, (-16)); (18017257507416931, (-16)); (14325045002634534, (-17)); (20082186158306925, (-16)); (21393215383845465, (-16))];
  [(8345322292938222, (-16)); (7579817698214053, (-17)); (94279992570123827, (-17)); (83525320856000551, (-17)); (60449238405532635, (-17)); (7908528116698843, (-18)); (74814473887158006, (-17)); (14473856598322976, (-17)); (98869930723559718, (-17)); (84214771611978467, (-17)); (23468998407422648, (-17)); (51067738135746832, (-18)); (67621748289105743, (-17)); (20478963016394514, (-18)); (19678000465130741, (-17)); (23833018594225031, (-17)); (16353876758898522, (-17)); (82954678310144736, (-17)); (54529115944001672, (-18)); (77917764233661357, (-17)); (23323146490747099, (-17)); (78164084017346913, (-17)); (18936895654980263, (-17)); (11284260578935552, (-17)); (11123520442895184, (-17)); (17845065522296932, (-17)); (37688972316723945, (-17)); ((-42159098178945409), (-17))];
  [(13802482514763881, (-17)); (23371543721100219, (-17)); (28448526880516534, (-17)); (46163626582278905, (-17)); (55814134083639788, (-17)); (47748087762816693, (-18)); (77764014154587457, (-17)); (2121248336653625, (-17)); (49549027891581743, (-17)); (41033496589748752, (-17)); (17321269940069983, (-17)); (11431832294235778, (-17)); (43988718750446465, (-17)); (69510350620829675, (-17)); (12152910297406005, (-17)); (20212041983298434, (-17)); (86341583078381356, (-17)); (56626528492240047, (-17)); (45237865699965829, (-17)); (43799301686901942, (-17)); (13286999245038411, (-17)); (25847682441414072, (-17)); (41791404108595437, (-17)); (35889309648549567, (-17)); (28624913887161241, (-17)); (82859908379807945, (-17)); (62390412756400782, (-17)); (42636434951884183, (-17))];
  [(30465582610117825, (-17)); (46818972688797955, (-17)); (35021005296561514, (-17)); (43632528304287188, (-17)); (56577583261043674, (-17)); (95117555956391397, (-17)); (86539353061317636, (-17)); (43762207754764304, (-17)); (69501202939582873, (-17)); (19790004234109981, (-17)); (47470524422726201, (-17)); (75095071902652943, (-17)); (14773647439609527, (-17)); (38889801709547245, (-17)); (39327854624919933, (-17)); (52595540034783517, (-17)); (78050365406833788, (-17)); (4993732171518126, (-16)); (89436037117006695, (-17)); (58665481222746618, (-17)); (68282306347988664, (-17)); (10030930870437182, (-16)); (74937924033031333, (-17)); (63391674326842795, (-17)); (91150769402896825, (-17)); (12577985226201722, (-16)); (10675553579309969, (-16)); (14668954992585848, (-16))];
  [(51194844560529507, (-17)); (31408051954291505, (-17)); (68926030967462493, (-17)); (84446488872738712, (-17)); (46848119089914886, (-17)); (96524212569186441, (-17)); (90614075768815061, (-17)); (36626772035132982, (-17)); (5286814135527127, (-16)); (75786318532166774, (-18)); (8092784455871278, (-16)); (40499470930209913, (-17)); (12012488770007279, (-17)); (88735827595702421, (-17)); (97144548991267121, (-18)); (48111998851003823, (-17)); (5099441046891553, (-16)); (25733058918515339, (-17)); (89100603268867828, (-17)); (89903691180520284, (-17)); (50570929590414815, (-17)); (10475145839216187, (-16)); (10237099521820852, (-16)); (52866535296268036, (-17)); (10175037003398741, (-16)); (13070055857052747, (-16)); (61822760918786135, (-17)); (10930456330087353, (-16))];
  [(19000423919087517, (-18)); (29146974281118643, (-17)); (91418463029307018, (-17)); (15364953287906036, (-17)); (20950387066299669, (-17)); (16157710458299956, (-17)); (46058956312510846, (-17)); (16789299324984908, (-17)); (5875763112132768, (-16)); (62724489564959685, (-18)); (13095848217535666, (-17)); (90065818465848835, (-17)); (73930687772683079, (-19)); (3143439869287572, (-16)); (56009050076976663, (-17)); (83284981415965953, (-17)); (39799234402823325, (-17)); (44282692154834935, (-17)); (90903268405002735, (-18)); (14419071573265335, (-17)); (21292142398880473, (-17)); (2187832521952893, (-16)); (47781172211471612, (-17)); (34227667330360828, (-17)); (83757419286886525, (-17)); (12062835542897267, (-17)); (22076415020998977, (-17)); (46660068954608636, (-17))];
  [(55516560178037133, (-17)); (98063523499674876, (-17)); (41561388910135655, (-17)); (2907040836400494, (-16)); (5429362158539448, (-16)); (51780224770272776, (-17)); (18876323253427896, (-17)); (56349420148359175, (-17)); (15454703727915897, (-17)); (39557193216977582, (-17)); (63954990089134645, (-17)); (44756348940505952, (-17)); (52271266139631289, (-17)); (18767584987956543, (-17)); (59591235903809459, (-17)); (92753306694462123, (-17)); (89802937295190066, (-17)); (27874513630522091, (-17)); (85711343244076987, (-17)); (52226380519635607, (-17)); (1062191357556354, (-15)); (59584613613313619, (-17)); (32462815336749429, (-17)); (80513033415477375, (-17)); (44207153259478166, (-17)); (73758649862905834, (-17)); (15178139841493994, (-16)); (74460471572656672, (-17))];
  [(6268296021646157, (-16)); (82587440686592961, (-17)); (32332071588700806, (-17)); (36629141409448174, (-18)); (64287761589119896, (-17)); (81199362332654046, (-17)); (21656102396359223, (-17)); (67447725363234579, (-17)); (18703731763240472, (-18)); (19941093093873286, (-17)); (19624044889508707, (-17)); (12705103373249194, (-17)); (26135836909599175, (-17)); (9628304502421392, (-16)); (71683355881607769, (-17)); (72703987424162364, (-17)); (55037758584905094, (-17)); (25283997658414714, (-17)); (49245621020235775, (-18)); (16738127840143752, (-17)); (4194038237435872, (-16)); (19162780089369688, (-17)); (69273297981314974, (-17)); (17268373443917566, (-16)); (99822170564711254, (-17)); (33049724348423037, (-17)); (66680000037492981, (-17)); (44891345652024073, (-17))];
  [(99416357915826215, (-17)); (62704692128441419, (-17)); (17095597312770028, (-17)); (10792801879753167, (-17)); (33702836749662424, (-17)); (82562336106818413, (-17)); (29326873097075123, (-17)); (74055431858852383, (-17)); (74562157633846549, (-18)); (7540329749426794, (-16)); (27747271968639964, (-17)); (34252394865619828, (-17)); (9366560901777442, (-16)); (42584753564399014, (-17)); (86352987330089037, (-17)); (44045372266070448, (-17)); (79026592306417209, (-17)); (12746060694633554, (-17)); (51631557452857535, (-17)); (2901013312686736, (-16)); (82160478666226067, (-17)); (42729906788120542, (-17)); ((-50534218694842481), (-18)); (46053812585655479, (-17)); (74523273219870456, (-17)); (70577758221999209, (-17)); (90250351709754506, (-17)); (64543394797218101, (-17))];
  [(6336562192604811, (-16)); (7351569670793473, (-16)); (12420565643628811, (-18)); (69886367260325544, (-17)); (20330865584174174, (-17)); (48991112733325715, (-17)); (3921997295762687, (-16)); (76445057959478435, (-17)); (26618790332754594, (-17)); (43942970437213991, (-17)); (30094786862735912, (-17)); (51182144875295599, (-18)); (6906916458471184, (-16)); (60463319088533307, (-18)); (21066114172651418, (-17)); (38117406187348601, (-17)); (97415972838222309, (-17)); (94800940734502603, (-17)); (37847287755300385, (-17)); (55151871876995739, (-17)); (74766360598252213, (-17)); (27238205247595931, (-17)); (27859389423602188, (-17)); (30972068709132139, (-17)); (20703234108783641, (-17)); (1340732770905249, (-15)); (8996366889756604, (-16)); (73003568636009164, (-17))];
  [(41917212956257932, (-17)); (35932957263595744, (-17)); (3454084622593997, (-16)); (93513930828734693, (-17)); (21915253287414915, (-17)); (72971950192376744, (-17)); (25113191264139534, (-17)); (80739505347369267, (-17)); (62850837100873802, (-17)); (32207043046427686, (-17)); (68768158131597212, (-17)); (69375835364386329, (-17)); (34073083277285499, (-17)); (58589982106862548, (-17)); (20199944194521091, (-17)); (96714563240094031, (-17)); (61193453438988521, (-18)); (8873761241742083, (-16)); (73055448648849275, (-18)); (1085912249198602, (-15)); (62252063117568635, (-17)); (10026782340443441, (-16)); (80165633821510929, (-17)); (10402349889600995, (-16)); (10528974161623681, (-16)); (73020622316796602, (-17)); (16762967508986407, (-17)); (597321927880471, (-15))];
  [(25068095397494994, (-18)); (30024242515070632, (-17)); (88018941820532026, (-17)); (21404438012866256, (-17)); (52832167355138515, (-18)); (16637651869688774, (-17)); (30323685718817894, (-17)); (7955704261879345, (-16)); (9255206327286658, (-16)); (2611831289977713, (-16)); (37892159555706995, (-17)); (91368171738721982, (-17)); (21259473467769596, (-17)); (10531767187237773, (-17)); (41581681501147538, (-17)); (84020342395811598, (-17)); (50112854546126673, (-17)); (22652637733349179, (-17)); (71686788310776739, (-17)); (27760809158043609, (-17)); (26001059712592239, (-17)); (47444431311740848, (-17)); (34644533268443861, (-17)); (68941149503019195, (-17)); (84403250478917147, (-17)); (30259103127555942, (-17)); (71651222572953988, (-17)); (10960585248883978, (-16))];
  [(72482853597148189, (-17)); (88064156742749755, (-17)); (42821912084234692, (-17)); (81758978958575124, (-17)); (24475349550128189, (-17)); (36301436184608959, (-17)); (15808289553776089, (-17)); (1530455571828131, (-16)); (53117276568483318, (-17)); (31530298212778496, (-17)); (92258145589085228, (-17)); (97090127772677515, (-17)); (65596188967489277, (-17)); (46506615228840398, (-17)); (46525391340831523, (-17)); (23757197974600963, (-17)); (57468819372514313, (-17)); (40961778703280394, (-17)); (39913844943671539, (-17)); (15097881561576783, (-16)); (9035988391105888, (-16)); (10340250339878181, (-16)); (7330018791182622, (-16)); (44222618418224158, (-17)); (4666634655607112, (-16)); (83113667260250901, (-17)); (5692999677970918, (-16)); (59763871319234085, (-17))];
  [(47321300259432375, (-17)); (99627029349441742, (-17)); (17340981972826885, (-17)); (57326626245532186, (-17)); (54326220364243039, (-17)); (4833707533606213, (-16)); (21438277858498966, (-17)); (10170906570082039, (-17)); (35726079604610994, (-17)); (52598174349066551, (-18)); (32694523119815511, (-17)); (18726029553975176, (-18)); (34774469001970854, (-17)); (66036344938386227, (-17)); (25845618262042447, (-17)); (87141075501804166, (-18)); (96632150294692831, (-17)); (92651508958512729, (-17)); (6390255720758603, (-16)); (24915927429749568, (-17)); (37916040966668807, (-17)); (19802958562167577, (-17)); (49217380927667537, (-17)); (81139251093035392, (-17)); (28466992857748963, (-17)); (11301182432737875, (-16)); (15080958850551986, (-16)); (85897756596165853, (-17))];
  [(87548418021391994, (-17)); (98622541826025834, (-17)); (96786449934541585, (-17)); (14143164197667035, (-17)); (74738292287470087, (-18)); (51797643273495664, (-17)); (59202133912873023, (-17)); (59809338719514671, (-17)); (84801842753308021, (-17)); (42918352376623314, (-17)); (5557950082046722, (-16)); (19483556457731177, (-17)); (95221099951063337, (-17)); (27643122172758861, (-17)); (14519114001325406, (-17)); (64243436460388281, (-17)); (42360287820503151, (-17)); (18566117538944604, (-17)); (99556459254334129, (-17)); (99297416343476741, (-17)); (10185040434189463, (-16)); (1429734081133041, (-15)); (5824431150211532, (-16)); (59101233593540159, (-17)); (85757067618895266, (-17)); (90778701550425533, (-17)); (92491658956714173, (-17)); (13210390318287288, (-16))];
  [(94549112297268745, (-17)); (52491607985461086, (-17)); (92751278024303441, (-17)); (42122147513622232, (-17)); (32436909125299618, (-20)); (5196880578244778, (-16)); (9866807774399281, (-16)); (86491709678681972, (-17)); (23922471177311155, (-17)); (27762961131057473, (-18)); (7729506508873486, (-16)); (37908375286830509, (-17)); (89818907916737556, (-17)); (28666102147170536, (-17)); (64108868506764372, (-17)); (75819877952290482, (-17)); (80377801453874664, (-17)); (97437665721233546, (-17)); (90734882786008919, (-17)); (17754673954910931, (-16)); (11770430725120549, (-16)); (11298341515032568, (-16)); (12754931257081443, (-16)); (79706300067934188, (-17)); (76782612861343669, (-17)); (20490306812369701, (-16)); (11926601136643411, (-16)); (1454972139646292, (-15))];
  [(67970410000033343, (-19)); (67420219998116648, (-17)); (48202136232177295, (-17)); (85101849476759905, (-17)); (46567371162238158, (-17)); (47683492961773544, (-17)); (29927680103014664, (-17)); (2912319011562442, (-16)); (80611601205774697, (-17)); (52650232211860015, (-17)); (8447251690790778, (-16)); (39270206990595946, (-17)); (67185812298533065, (-17)); (72050569948931908, (-17)); (57490398753461758, (-17)); (61385581723382698, (-17)); (6835875954106162, (-16)); (93021139139724929, (-17)); (80779885265310991, (-18)); (8548752371164583, (-16)); (91078335180720615, (-17)); (11628098682854942, (-16)); (91709985823062223, (-17)); (80404288422417858, (-17)); (10655017850057411, (-16)); (10017668991839552, (-16)); (64130876315435281, (-17)); (67196414656149572, (-17))];
  [(64082416419340338, (-17)); (91607408625945896, (-17)); (87417571345347123, (-17)); (21914029577585603, (-17)); (13397264152666444, (-17)); (53877954588946619, (-18)); (20000397136697434, (-18)); (20778718586825295, (-17)); (72451880910534094, (-17)); (43754487203613213, (-17)); (58884458076926238, (-17)); (54597122778333906, (-17)); (57860997536536807, (-17)); (3776009125557136, (-16)); (14213638028754005, (-17)); (78064576429192067, (-18)); (90444911638037417, (-17)); (75196817154091677, (-17)); (64471312827641958, (-19)); (36817320055277675, (-17)); (49659538635204209, (-17)); (72333293175102098, (-17)); (24542275697901869, (-17)); (31305709019401501, (-17)); (31846170413304925, (-17)); (55418460015951543, (-17)); (60254291237226931, (-17)); (49964952402279633, (-17))];
  [(66858385846980861, (-17)); (62217705456741135, (-17)); (29930729632385589, (-17)); (29785160925862908, (-17)); (22126165912507934, (-18)); (61016402111989576, (-17)); (85316985414280899, (-17)); (40327389013901649, (-17)); (37805903671480245, (-17)); (2436157355147579, (-16)); (16563409683883035, (-18)); (84466481842173868, (-18)); (3033815456435861, (-16)); (53393391838595194, (-17)); (38945799166819228, (-17)); (98414211534699336, (-17)); (18290930492885349, (-17)); (9452437800980904, (-16)); (92343923972650777, (-17)); (28156662410839867, (-17)); (12157256799172424, (-17)); (16586346986671271, (-17)); (12742070892942639, (-16)); (67203469281455819, (-17)); (80823827445947971, (-17)); (10404594322606329, (-16)); (36225421506754557, (-17)); (92064444115304034, (-17))];
  [(83863020912485908, (-17)); (3085485955959939, (-16)); (81191655625457504, (-17)); (28776707981483463, (-17)); (58027137584091393, (-17)); (38852057717579158, (-17)); (71470633718623944, (-18)); (71253921709019552, (-17)); (96572149351475067, (-17)); (82882487262971816, (-17)); (33416815868832628, (-17)); (56804456670918135, (-17)); (21209412882727607, (-17)); (51671289431873224, (-17)); (72937597846821234, (-17)); (36284108470639631, (-17)); (36540686266101519, (-18)); (55294688633313038, (-17)); (17295062995407684, (-17)); (34718733366318671, (-18)); (45727688183237558, (-17)); (29303038831793748, (-17)); (11930168217261028, (-17)); (70739877652572924, (-17)); (53684204441369621, (-17)); ((-19348037546217364), (-17)); (23753714154014266, (-17)); (11770051642261858, (-18))];
  [(61105025847112682, (-17)); (51480953243311189, (-17)); (20610293421844672, (-17)); (85741915226116505, (-17)); (92048201592739165, (-17)); (21031390396758498, (-19)); (42146533364605043, (-17)); (82305942350363692, (-17)); (12858000932224889, (-17)); (66465719849332383, (-17)); (92840157812083945, (-17)); (28527504314913676, (-17)); (17260388957377371, (-17)); (62518911369545349, (-18)); (25534657587668663, (-17)); (51168267882996188, (-17)); (86856683506184484, (-17)); (18213316624290043, (-18)); (31450979357326059, (-17)); (10952815162269316, (-16)); (11614744904432959, (-16)); (1382192949963868, (-16)); (35488520067703599, (-17)); (58590213706750915, (-17)); (43978190949664472, (-18)); (10150805507256671, (-16)); (11113580318776446, (-16)); (18018832387985156, (-17))];
  [(7904370679682059, (-16)); (35177369217439147, (-17)); (86584956241074029, (-17)); (31300286729664784, (-18)); (79763602266027478, (-17)); (75237056093378707, (-17)); (13546327477127762, (-17)); (82638567973784149, (-17)); (91551644611907423, (-17)); (51620524902530029, (-17)); (62907108135039624, (-17)); (86476500895392105, (-17)); (41216052979385887, (-17)); (6011503039675995, (-16)); (76975682945467838, (-17)); (64615805227696999, (-17)); (60348174676455424, (-17)); (13198153492398712, (-17)); (35638104425142159, (-17)); (18415646707780922, (-17)); (12304660055857581, (-16)); (12809309697313527, (-16)); (23071009462123104, (-17)); (13548925952348378, (-16)); (14422021503473677, (-16)); (42455918200247361, (-17)); (78536637341514126, (-17)); (10347743223660653, (-16))];
  [(34785031604490435, (-17)); (59717442864224146, (-17)); (41232220447200096, (-17)); (20888833882699986, (-17)); (55816846399604636, (-17)); (69194463572836318, (-17)); (8338938654991036, (-16)); (66791911697368833, (-17)); (72308948668120021, (-17)); (20815620326099837, (-17)); (59972617010105778, (-17)); (86391657250936482, (-17)); (83372281307663665, (-17)); (91678644058830638, (-17)); (14203715111156334, (-17)); (5668756895018584, (-16)); (99838040842733711, (-17)); (47989710698598043, (-17)); (1246165771725205, (-16)); (10397006082338409, (-16)); (13416333737751795, (-16)); (14418214201356756, (-16)); (84312956415329421, (-17)); (1080081279419546, (-15)); (99490640299424782, (-17)); (55038880294807446, (-17)); (9845904739415986, (-16)); (91964297906673098, (-17))];
  [(42327735921494358, (-17)); (64310498136127281, (-17)); (43060658875616808, (-17)); (51441017364509811, (-17)); (76752351265780694, (-17)); (71280301788085354, (-17)); (44247855400706593, (-17)); (94458787080877515, (-17)); (48463142940831117, (-17)); (39258014221083892, (-17)); (60758736197684338, (-17)); (36158176100256123, (-17)); (12715590665925047, (-17)); (5368467577504521, (-16)); (55143390029071715, (-17)); (56818390782967521, (-17)); (65038765266929088, (-18)); (13000578659316064, (-17)); (24039657870114639, (-18)); (52674860850623995, (-17)); (826983332600985, (-15)); (64760287653685999, (-17)); (7397959140793462, (-16)); (12686888463419395, (-16)); (90766012753039549, (-17)); (89608017156487571, (-18)); (14065554102230876, (-17)); (11946375458930772, (-17))];
  [(96821721815565187, (-17)); (33765003900065838, (-17)); (86957999797194818, (-17)); (61127665520028562, (-17)); (50234920074992973, (-18)); (9070077866476699, (-16)); (71759299366207052, (-17)); (86825496670213143, (-17)); (54410093273224081, (-17)); (26132686758637091, (-17)); (59107868711507305, (-18)); (59918549567070911, (-17)); (67643728596595432, (-17)); (82151998113618008, (-17)); (8890920865029035, (-16)); (90839910542459723, (-17)); (40395392098684424, (-17)); (95002264503784417, (-17)); (66187117740595025, (-17)); (75397348970181466, (-17)); (58417480123648013, (-17)); (82195222234742915, (-17)); (18526299692483312, (-16)); (10329389325146026, (-16)); (19561805554757146, (-16)); (12399476010360382, (-16)); (67490762570997687, (-17)); (14131135312236134, (-16))];
  [(22588114392128988, (-17)); (83462660949449508, (-17)); (20376750130555765, (-17)); (60984781051013381, (-17)); (3822088189376458, (-16)); (28882310399477429, (-17)); (68869160945989838, (-17)); (51190746106513341, (-17)); (14531447433798139, (-17)); (99781103114729086, (-17)); (81717783972296199, (-17)); (11049666989825213, (-17)); (70996748339256954, (-17)); (13711045444875647, (-17)); (58348643641298825, (-17)); (66531743556527922, (-17)); (35476304904562506, (-17)); (21028126260752023, (-17)); (37945625678719519, (-17)); (10233403895500186, (-16)); (94105083823725533, (-17)); (3901497012359636, (-16)); (6274173575773947, (-16)); (15834820558642643, (-17)); (13656087596971611, (-17)); (51618152707759712, (-17)); (36480674682391234, (-17)); (17735201362958358, (-17))];
  [(81026286083230958, (-17)); (26366117444346926, (-17)); (6770938525282908, (-16)); (54554648236431769, (-17)); (68882196794600647, (-17)); (22555538000722442, (-17)); (56821106650278186, (-17)); (27295440691599693, (-17)); (79570360408877994, (-17)); (7942231763825236, (-16)); (18542413928876367, (-17)); (67851761608287808, (-17)); (45580745242255194, (-17)); (96372852219126626, (-17)); (14922792785366401, (-17)); (77004574626396749, (-17)); (32517446574249376, (-18)); (86464983395913275, (-17)); (4198674401268081, (-16)); (3037057017769158, (-16)); (44973095769918175, (-17)); (26005657048500397, (-17)); (13306546860428503, (-16)); (90577142139893374, (-17)); (11766221063144968, (-16)); (10053638512075555, (-17)); (39138474710335691, (-17)); (73822450072130008, (-18))];
  [(14226884882474367, (-17)); (78847156961416554, (-17)); (82566583777651692, (-17)); (69252711658172372, (-18)); (12077673784850917, (-18)); (53138864461812063, (-17)); (29191992602267969, (-17)); (92384215138060977, (-17)); (62189099331901943, (-17)); (66215426413445233, (-17)); (54034750840644374, (-17)); (84534931946431657, (-17)); (54451428594340612, (-17)); (10048859496019502, (-17)); (90627944005639915, (-17)); (83858287223100736, (-18)); (89081407434571958, (-17)); (76021104977502785, (-17)); (91596968846537952, (-17)); (21481875157089222, (-17)); (44132488201432435, (-17)); (7921757172059124, (-16)); (10260671328530225, (-18)); ((-28999464284956411), (-17)); (70171737333135059, (-18)); (38029645659840616, (-17)); (10454899900343022, (-16)); (13734347385841823, (-16))];
  [(1616036549272869, (-16)); (87885799052189961, (-17)); (12924920347183133, (-17)); (6386148345741971, (-16)); (60862894597741612, (-17)); (84902959022538527, (-18)); (5441127472340086, (-16)); (86722193413817772, (-17)); (85217330070139208, (-17)); (92713044165182801, (-17)); (44161352551892619, (-17)); (95785746018851192, (-17)); (40959036631019308, (-17)); (92929803118289789, (-17)); (86986186829927981, (-17)); (26904002451880571, (-17)); (2321051392081237, (-16)); (29975039143306403, (-17)); (40361174216215712, (-17)); (73456394847365947, (-17)); (47961409780710451, (-17)); (36306421406415795, (-17)); (93215965679498969, (-17)); (88209108443795481, (-17)); (31885349337976976, (-17)); (43681907618952487, (-17)); (48420080762588069, (-17)); (36199693242460257, (-17))];
  [(53679042037030533, (-17)); (66790600967685354, (-17)); (26931738049479848, (-17)); (95458541600361935, (-18)); (79658703452079271, (-17)); (61148602795143037, (-17)); (20533921667697674, (-17)); (29075788493189791, (-17)); (36498826159302022, (-17)); (17554786233356923, (-17)); (52205115549653336, (-17)); (90295637317306621, (-17)); (9984074934465913, (-16)); (29798143335428862, (-17)); (14149796359611821, (-17)); (94973846174407084, (-17)); (3014304763179344, (-16)); (29943556747145716, (-17)); (38093348365830904, (-17)); (48985958372714983, (-17)); (13091463412853257, (-16)); (10597840139613046, (-16)); (35751591551092976, (-17)); (60804216146683321, (-17)); (53602317588122295, (-17)); (24263667158667035, (-17)); (55086002192944072, (-17)); (4173626424285829, (-16))];
  [(33903433677514139, (-17)); (29843234657971085, (-17)); (54261351343677355, (-17)); (84207747790417731, (-18)); (3205039582244561, (-16)); (97535438439047162, (-17)); (98211109724385626, (-17)); (41440496703407326, (-18)); (4905353560268827, (-16)); (9261713375076549, (-16)); (53271538571740351, (-17)); (6589905393942741, (-16)); (66176993619370783, (-17)); (39193138543019646, (-18)); (59438635355162894, (-17)); (80602538377630184, (-17)); (32876382023871775, (-17)); (29059505649996675, (-17)); (59528761604320513, (-17)); (64907551126762575, (-17)); (22914605360009618, (-17)); (1014041680925279, (-15)); (67122740230752009, (-17)); (23156803006515205, (-18)); (52928248085042351, (-17)); (609698297420038, (-15)); (15449639993545422, (-17)); (69979394724719524, (-17))];
  [(20367114841750966, (-17)); (98464670406331001, (-18)); (22453410253495409, (-17)); (97940218660902167, (-17)); (38199913041596512, (-17)); (12658111970346153, (-17)); (73045462524328875, (-17)); (42825703858673658, (-17)); (63792742041825823, (-17)); (12502417857596426, (-18)); (63502110914872689, (-17)); (9484081361715847, (-16)); (67882774419570058, (-17)); (55777571480800414, (-17)); (30592937284339028, (-17)); (98302452578335719, (-17)); (46279087139839681, (-17)); (38813414840448857, (-17)); (11516772451182322, (-18)); (15593392611539554, (-16)); (71736300796367358, (-17)); (69399938348485346, (-17)); (11373039676261727, (-16)); (59504691808012855, (-17)); (79107394524376295, (-17)); (4874503517076621, (-16)); (20048484012543447, (-17)); (16002052272944917, (-17))];
  [(15981447574628405, (-17)); (91798520481451817, (-17)); (48479052592425009, (-17)); (38901989269132686, (-17)); (13678949102224236, (-17)); (4221293558017517, (-16)); (19506582555962815, (-17)); (26078582237997228, (-17)); (24009481446791003, (-17)); (51780305890521405, (-17)); (71660984369461389, (-17)); (12329383002435701, (-17)); (948653527376494, (-15)); (51182560673382371, (-17)); (58849189731767448, (-18)); (87212648315578756, (-17)); (99012136408024753, (-17)); (98647234382399829, (-17)); (72780903315440559, (-17)); (45447061364840602, (-17)); (8261478894651253, (-16)); (69499860296848992, (-17)); (35498761695401981, (-17)); (65060264978167959, (-17)); (53939993631201932, (-17)); (72553145352155946, (-17)); (71562517140723114, (-17)); (92381710627309133, (-17))];
  [(62771239438446735, (-17)); (90918628696611814, (-17)); (89663708786557716, (-17)); (96440848390552392, (-17)); (1291348230329632, (-16)); (85536326834427234, (-17)); (58276921215986155, (-19)); (72554385910624264, (-17)); (84845989536030997, (-17)); (93056149932264243, (-17)); (86843689701185856, (-17)); (37721026247268152, (-17)); (86312112737125612, (-17)); (50060374818195341, (-17)); (36411163969830818, (-17)); (3246393882692411, (-17)); (52432639746610521, (-17)); (76969473814309908, (-17)); (92891588148956705, (-18)); (10297735602023059, (-16)); (94190973318154159, (-17)); (17147149327830116, (-16)); (60156134271380524, (-17)); (10989628783462008, (-17)); (56331634648740692, (-17)); (65865239681957843, (-17)); ((-95353166074576043), (-18)); (55917145787971323, (-17))];
  [(63709729543809834, (-17)); (73788191453080809, (-17)); (67498414961919695, (-17)); (79603021247350902, (-17)); (93931819851280574, (-17)); (68470416814436941, (-17)); (3388161200326677, (-16)); (3890574565484074, (-16)); (64606419211262001, (-17)); (96855383349242563, (-17)); (45514760572480817, (-17)); (62702124021907357, (-17)); (97243997362426604, (-17)); (1024201103982243, (-16)); (72105932434268982, (-17)); (43432828807306678, (-17)); (87136024961824798, (-17)); (50828927199336793, (-17)); (76115293439213538, (-17)); (7458734937737429, (-16)); (87327962396891357, (-17)); (9535474252759184, (-16)); (19790141947837392, (-17)); (23630693751636903, (-17)); (25616386862066282, (-17)); (11063237862799866, (-16)); (12962470644116972, (-16)); (12310246080634708, (-16))];
  [(1620136347020682, (-16)); (21984267293868287, (-17)); (18992825081498432, (-17)); (60296176389926437, (-17)); (12005875408735278, (-17)); (60027029611401028, (-17)); (24054156842971786, (-17)); (1475900815841763, (-16)); (92098197596539677, (-17)); (70806801215292647, (-17)); (26128695851431982, (-17)); (52617070683398059, (-17)); (84718661069317769, (-17)); (1709431900177325, (-16)); (18531977048643844, (-17)); (59018072465831706, (-17)); (60649351846963717, (-17)); (32982666876129052, (-18)); (54503473826552062, (-17)); (52395851047793174, (-17)); (16182746791898622, (-17)); (10948733501976007, (-16)); (29538919803149011, (-17)); (1194036667812764, (-16)); (69655422840391201, (-17)); (45520978484227148, (-17)); (22737280953234035, (-17)); (83720597564103161, (-17))];
  [(66683890112028055, (-17)); (58399478092131185, (-17)); (75960922666079844, (-17)); (96255159304273463, (-17)); (57103781581046531, (-17)); (50606631845314332, (-17)); (98747726459595409, (-17)); (78257023347465093, (-17)); (27292458410422538, (-17)); (77932079522456366, (-17)); (16117689948847069, (-17)); (29019121894089395, (-18)); (53365602548940061, (-17)); (3009462786336814, (-16)); (9503938566023209, (-16)); (17051377232936149, (-19)); (29652666732599764, (-17)); (61380723220573796, (-17)); (37697019717892877, (-17)); (71873639463396077, (-17)); (54914626636281438, (-17)); (28502425287696065, (-17)); (5534099105602448, (-16)); (2431488943003664, (-16)); (10490944240122274, (-17)); (84615336710076861, (-17)); (53462341690411508, (-17)); (26188042937342881, (-17))];
  [(49144157886262396, (-17)); (2854018117103917, (-16)); (15189949263214519, (-17)); (40964101602635195, (-17)); (56967497640152531, (-17)); (12398346223921364, (-17)); (14798743304375805, (-17)); (71500647527253691, (-17)); (8461707739465737, (-16)); (51617358381055656, (-17)); (54779463887471813, (-17)); (88222212722328386, (-17)); (22028952680953195, (-17)); (76625445360351907, (-17)); (82739707072126678, (-17)); (17054287779901145, (-18)); (41577996801081896, (-17)); (91359592013677582, (-17)); (420356588332923, (-16)); (47781189415117359, (-17)); (76033182928212917, (-17)); (3212814832333889, (-16)); (57904218389705331, (-17)); (71122597663698817, (-17)); (18973694813992559, (-17)); (37188458876618719, (-17)); (57411756649160328, (-17)); (14596050393813748, (-17))];
  [(8686758670782212, (-16)); (36747641705043876, (-17)); (72190298041711709, (-17)); (38302914901951124, (-17)); (20676053723149224, (-17)); (97247991597973416, (-17)); (20089952079552609, (-17)); (36251356514426902, (-17)); (85502992582470505, (-17)); (65178328748884928, (-17)); (87879760001164053, (-17)); (14111618928443281, (-17)); (99107265947231182, (-18)); (19327766273559766, (-17)); (48060743871612921, (-17)); (2832846205825601, (-16)); (15737555463509501, (-17)); (49611323865055956, (-17)); (84552082830160336, (-17)); (79960575318647142, (-17)); (39462394837869319, (-17)); (11548118620214722, (-16)); (12839358431794196, (-17)); (15526720491251045, (-17)); (62826519289026295, (-17)); (20476179033826208, (-17)); (34318624810840509, (-17)); (10724079226892889, (-16))];
  [(51396122345484596, (-17)); (50228309649012071, (-17)); (18759733405211432, (-17)); (50580194536609424, (-17)); (48384158483892736, (-17)); (13642764957364295, (-17)); (87089688141435495, (-17)); (5851042672816944, (-16)); (24474672650708595, (-17)); (89403395560677001, (-17)); (35345154095299758, (-17)); (2661670539090305, (-16)); (52255370658333677, (-17)); (92323306034575214, (-17)); (94724968804308651, (-17)); (97185447533920921, (-17)); (29582227517304538, (-17)); (69565192268129339, (-17)); (83089476049720545, (-17)); (68589831605515283, (-17)); (52668269327848938, (-17)); (19082638757724471, (-17)); (14281191484039621, (-16)); (11234083491195177, (-16)); (3869177143260345, (-16)); (87711623782155101, (-17)); (62919052895849636, (-17)); (22727438962328889, (-17))];
  [(96265625405552524, (-17)); (59933730619486369, (-18)); (93044978455677851, (-17)); (37435773680474305, (-17)); (74769244690669545, (-17)); (54926666375712707, (-17)); (99028567044382343, (-17)); (40073518785540274, (-17)); (47287974569164348, (-17)); (46638080725576758, (-17)); (24753369073219422, (-17)); (76226985012571857, (-19)); (74302219905865063, (-17)); (16704525007729099, (-17)); (59090722137970153, (-17)); (33367107864804646, (-17)); (10451556393651174, (-17)); (7962860575498808, (-16)); (4091794601504849, (-16)); (98956230084591046, (-17)); (39911367137748377, (-17)); (61876698498094684, (-17)); (44398485906302121, (-17)); (57752436673683194, (-17)); (38054825821521454, (-17)); (43424074042993294, (-17)); (71503838766918948, (-17)); (36367692436431043, (-17))];
  [(84179986180401978, (-17)); (82066643032002984, (-17)); (2583984021598158, (-16)); (97168754468244911, (-17)); (86478239294518611, (-17)); (31170674818590394, (-17)); (77394974473894851, (-17)); (11224890311274782, (-17)); (98195468230724425, (-17)); (49241673436788413, (-17)); (72130058504057581, (-17)); (48757469876818971, (-17)); (49404026997949135, (-17)); (15218897903812922, (-17)); (27062993385974377, (-17)); (16068840171079102, (-17)); (90566869768154645, (-18)); (24835485803311408, (-17)); (72608965641791012, (-17)); (14722042888910836, (-16)); (10543501059239302, (-16)); (83001844674619529, (-17)); (43119167560280425, (-17)); (29154763082036506, (-17)); (25614367509439684, (-17)); (78455765149079193, (-17)); (27692492959836429, (-17)); (7848328105015504, (-16))];
  [(2928348629500358, (-16)); (70915322738060982, (-17)); (42036794603079319, (-17)); (91186901392598241, (-17)); (33212098211641439, (-17)); (94476286573916457, (-17)); (99680746125541431, (-17)); (54298249561840939, (-17)); (34470663473606, (-14)); (60186435870849675, (-17)); (1927135525943805, (-16)); (78644698635401311, (-17)); (64214999812277229, (-17)); (5103140310709845, (-16)); (77034048459513937, (-17)); (91403947177717082, (-17)); (55508258131017585, (-17)); (9164694493578901, (-16)); (61509993679453168, (-17)); (12468430272785389, (-16)); (39709675216567397, (-17)); (81648102093333463, (-17)); (1749062011882129, (-15)); (79215801757010484, (-17)); (11814290528374207, (-16)); (15706043281330768, (-16)); (64575888018723593, (-17)); (1196860680033746, (-15))];
  [(41374947392617634, (-17)); (2996996307161448, (-17)); (16729104116367899, (-17)); (14945766286289053, (-17)); (76299547777991261, (-17)); (37394101264134194, (-17)); (69261177713499211, (-17)); (87286583333014545, (-17)); (63593832838518416, (-17)); (61223788864588258, (-17)); (4829893559639844, (-16)); (61451584251678359, (-17)); (31230795135400713, (-17)); (10995103960698371, (-17)); (45571599547115593, (-17)); (41721406974805375, (-17)); (22202316969517999, (-17)); (6075247260175396, (-16)); (19200788891058485, (-17)); (35037393667584071, (-17)); (8693610461509802, (-16)); (49750171560139972, (-17)); (28301854110967967, (-17)); (69178501901336142, (-17)); (39964877466727611, (-17)); (15708216670083786, (-17)); (63927775391057751, (-17)); (3277207703474771, (-16))];
  [(12094972964269068, (-17)); (1475180668911088, (-16)); (92924872107003886, (-17)); (3471034827289774, (-16)); (85262244202888149, (-17)); (74714004889964958, (-17)); (87291637794236543, (-18)); (86683547809205064, (-17)); (12990231402832075, (-17)); (49777688088532357, (-17)); (15775951311846526, (-17)); (85347586873162895, (-17)); (85699618582972037, (-17)); (90482468161626561, (-17)); (171031293722122, (-15)); (85430700833413409, (-17)); (62834575804825488, (-17)); (44895931590502258, (-17)); (91670207366890843, (-17)); (3287255223296815, (-16)); (1406816529383689, (-15)); (47801526179039167, (-17)); (36297463886934073, (-17)); (13422637103420496, (-16)); (1208927273642709, (-15)); (36193003107932786, (-17)); (14365926216641083, (-16)); (95179942728184042, (-17))];
  [(40969712298458916, (-17)); (98396283882051117, (-17)); (89291352367969212, (-17)); (51723318873658874, (-17)); (11829814654741666, (-17)); (79365504558688038, (-17)); (45165437786303331, (-17)); (57324764065155964, (-18)); (43034701076362314, (-17)); (28677033261715446, (-18)); (69980845684390647, (-17)); (5142691233064911, (-16)); (9385044093314221, (-16)); (82701861975782198, (-17)); (97725433924457872, (-17)); (88343263522226434, (-18)); (84854887466091589, (-17)); (95939583019643515, (-17)); (4414979802204706, (-16)); (98069631356312081, (-17)); (79077853301185164, (-17)); (14392371528175807, (-16)); (8846341711059823, (-16)); (90927879578907211, (-17)); (15452545287193928, (-16)); (10442511833458017, (-16)); (94916468405347987, (-17)); (17032298671912978, (-16))];
  [(18846155932212127, (-17)); (34291091845079813, (-17)); (68078825044661628, (-17)); (2695821499815575, (-16)); (48077499442244975, (-17)); (87560864304397434, (-17)); (48457385240498851, (-17)); (78652789619897989, (-17)); (53274410465172228, (-17)); (29787066586484112, (-18)); (99697875085709708, (-18)); (46828371899491072, (-17)); (83961664186993745, (-17)); (22775192217093643, (-17)); (33985611511787761, (-17)); (60594448699957326, (-17)); (49352303944331566, (-17)); (457794206472243, (-15)); (46443227159214395, (-17)); (54999412194269393, (-17)); (91623852739855649, (-17)); (91810037267909284, (-17)); (42802781363713949, (-17)); (71776830090957633, (-17)); (77429283798025506, (-17)); (44277188447441451, (-17)); (75683795245631869, (-17)); (98751792507584724, (-17))];
  [(68303146478603249, (-17)); (70208062036410634, (-17)); (2046532538505621, (-16)); (92698669469038775, (-17)); (7188279063639671, (-16)); (29384868436449496, (-17)); (53601127225031631, (-17)); (15503048334359792, (-17)); (91275462006814889, (-17)); (89885325615900091, (-17)); (58452931035767819, (-17)); (44876767628038161, (-18)); (87376206836326675, (-17)); (48829592366608432, (-17)); (64881263763813501, (-17)); (52493414326613586, (-18)); (98333230216041578, (-17)); (72462928706617624, (-17)); (75606602151652247, (-17)); (11428511884501145, (-16)); (7151875009775579, (-16)); (10074439012010989, (-16)); (61758093596891905, (-17)); (43007899607226757, (-17)); (23718118106772448, (-17)); (15675474430965974, (-16)); (10262681460107537, (-16)); (10580060867785201, (-16))];
  [(46517274939910369, (-17)); (40054030627244108, (-17)); (45788068191041464, (-17)); (99384756830303966, (-17)); (56646674717222179, (-18)); (64136100518486383, (-17)); (71112506021980915, (-17)); (63064495937796128, (-17)); (59717221983451296, (-17)); (20539565532782933, (-17)); (3976654333385331, (-16)); (32100027901384798, (-17)); (73606463911166298, (-17)); (34508079288476601, (-17)); (97338820192227948, (-18)); (9561528561511069, (-16)); (87628399545160707, (-17)); (81425542693163377, (-17)); (783625494834429, (-16)); (10670004631795398, (-16)); (61630105552145509, (-17)); (84140375915359455, (-17)); (99251167378862415, (-17)); (73973949173472231, (-17)); (82283893693365961, (-17)); (13473874032672997, (-16)); (38178957554094534, (-17)); (98943486523305968, (-17))];
  [(48190890287830745, (-17)); (71597155695538595, (-18)); (79162136646749504, (-17)); (96392811922450194, (-17)); (40662262678396022, (-17)); (76471309714700098, (-17)); (38926473747516721, (-17)); (61928050264176704, (-17)); (8886127432242108, (-16)); (39847930994076541, (-17)); (90885665487697087, (-17)); (77978059668533739, (-17)); (62575094190530434, (-17)); (87211942400064757, (-17)); (25306087795225818, (-17)); (17863642126073642, (-17)); (88499796534374942, (-17)); (69870116695855922, (-17)); (58128668423147978, (-17)); (15341365322330167, (-16)); (86145613054827119, (-17)); (17988986558694717, (-16)); (96058281382425559, (-17)); (3935832038794928, (-16)); (11544396985660867, (-16)); (14404371021537221, (-16)); (80044832240233676, (-17)); (17026603099027233, (-16))];
  [(23821112643742803, (-17)); (24689932396698, (-14)); (96155186714666718, (-17)); (56947189016428801, (-17)); (78010783541377093, (-17)); (93120981439841688, (-17)); (81190429034886313, (-17)); (59247815649620461, (-17)); (2940001562465191, (-16)); (65710312429961837, (-18)); (32309090353734493, (-17)); (77966658162772384, (-17)); (95007044893353154, (-17)); (52647758959890312, (-17)); (87386700590295763, (-17)); (66646699856951541, (-17)); (36781068799309258, (-17)); (85971455446828948, (-17)); (44521935272874669, (-17)); (12910901474285534, (-16)); (12533161397417851, (-16)); (12843141663458011, (-16)); (11688362601771152, (-16)); (12176139843614489, (-16)); (14900991695002874, (-16)); (93773596221888467, (-17)); (10285246188118697, (-16)); (12508563796022401, (-16))];
  [(62337799209823819, (-17)); (80882558172833097, (-17)); (61344287639400286, (-17)); (74644029117866384, (-18)); (85383084830118583, (-18)); (3712583901158496, (-16)); (13200338249917909, (-17)); (40451845674486009, (-18)); (48848460575163122, (-18)); (35957760495642777, (-17)); (40150923499747915, (-17)); (78947109023237649, (-17)); (922765209147689, (-15)); (19533972709468528, (-17)); (4891532516065733, (-17)); (35362123269032697, (-17)); (73446695695302844, (-17)); (66669907188587341, (-17)); (56793892750630293, (-18)); (24862598584471063, (-17)); (19177854380476606, (-17)); (43201835009171979, (-17)); (15848061998832372, (-17)); (15805245966256146, (-17)); (1613988108954601, (-16)); (35569679116518699, (-17)); (44396317663434576, (-17)); (60823790462778871, (-17))];
  [(69814035951270237, (-17)); (88095197314305373, (-17)); (44364485638730411, (-18)); (53539576316501247, (-17)); (5161352405330224, (-16)); (76450058597889747, (-17)); (20589716952491532, (-17)); (65228183478032387, (-18)); (8079290706076474, (-16)); (65015076102317071, (-17)); (46405838673500832, (-17)); (10244867170902117, (-17)); (59020141874322962, (-17)); (17673138345710648, (-17)); (84724029807723467, (-17)); (36347727747136793, (-18)); (3262629233565254, (-16)); (56423856774813708, (-17)); (12307695465521573, (-18)); (53016312125165688, (-17)); (49635075862301065, (-17)); (76756748332168756, (-17)); (16600591510654172, (-17)); (7780751171493365, (-17)); (61021614048905504, (-17)); (2915991764506925, (-16)); (26245337747162267, (-17)); (5006536094615136, (-16))];
  [(231553440938016, (-15)); (11541924013691485, (-17)); (9612194430511638, (-16)); (64634362591766237, (-17)); (15249160246221638, (-17)); (28262365034000114, (-17)); (56151254480753432, (-17)); (65514982730849891, (-17)); (94262240430662791, (-17)); (62570604081989034, (-17)); (74746631610831105, (-17)); (40678346974476198, (-17)); (90141271216989649, (-17)); (94612303529968766, (-17)); (2583145986809966, (-16)); (85805911488873521, (-17)); (67951066139899541, (-18)); (91983617635634218, (-17)); (57164353451627514, (-18)); (10873378401809979, (-16)); (7500258325077116, (-16)); (14199631968671556, (-16)); (11178320672535174, (-16)); (74963472250373742, (-17)); (16163265528084385, (-16)); (4277282709871989, (-16)); (10139188989110609, (-17)); ((-18903801499383124), (-17))];
  [(17724342937850646, (-17)); (26023379228097709, (-17)); (59009878545032313, (-17)); (30703631121837571, (-17)); (21402803690741667, (-17)); (13706013545836182, (-17)); (19484136520671713, (-17)); (64541357725386828, (-17)); (5215561577895278, (-17)); (22511236637623999, (-18)); (77370162236821194, (-17)); (45337179741506106, (-17)); (48914947098055472, (-17)); (64883483743128245, (-17)); (82745396420844397, (-17)); (50283455431291202, (-17)); (61849937038265423, (-17)); (11640334418424159, (-17)); (39676557041646809, (-17)); (37511007681282499, (-17)); (61507738981833815, (-17)); (5404450142580024, (-16)); (4681225677207026, (-16)); (66867457159124433, (-17)); (51339839742920712, (-17)); (22644467361416115, (-17)); (4441966549504282, (-16)); (40188902105324215, (-17))];
  [(5923242604696225, (-16)); (42568346597000484, (-17)); (91453223706813958, (-17)); (42817749735467148, (-17)); (76127594539932764, (-17)); (34696892971492799, (-17)); (84183190291049526, (-17)); (79813359546527141, (-17)); (4890888672442073, (-17)); (37451291968363754, (-17)); (73121378986869212, (-17)); (30198056904764692, (-17)); (8395721151663218, (-16)); (21427624911959386, (-17)); (37918327961542075, (-17)); (36262678635248613, (-17)); (66433225763848236, (-17)); (94137613623773964, (-17)); (22169464087143353, (-17)); (12793119750362685, (-16)); (13303470359842517, (-16)); (75272758189518452, (-17)); (52589895084704108, (-17)); (64359678981794133, (-17)); (22290131193037743, (-17)); (82806913894878476, (-17)); (11455241602989923, (-16)); (64965406313521012, (-17))];
  [(39501895483194227, (-17)); (49707539531942646, (-17)); (30826909698365568, (-17)); (50926523573556992, (-17)); (54442093746859477, (-17)); (52215631517322303, (-17)); (73086283178246791, (-17)); (42610664988580416, (-17)); (16503600152558329, (-17)); (95802886798707576, (-17)); (62220345168711366, (-17)); (13295308140879392, (-17)); (21031973596178022, (-17)); (25617089504338131, (-17)); (73591239754681692, (-17)); (6372495254521674, (-16)); (95685038554559187, (-17)); (53859791889953257, (-17)); (36870248262958594, (-18)); (55026588621020589, (-17)); (53217297750283687, (-17)); (4172003896457257, (-16)); (60840039376381583, (-17)); (39003777429324904, (-17)); (29542921888300505, (-17)); (62667095017202668, (-17)); (6650398256568526, (-16)); (61037514597148801, (-17))];
  [(81982922743732023, (-17)); (41986521131794308, (-17)); (89018048317611187, (-17)); (30072526572856395, (-17)); (43577848329252766, (-17)); (40976589429688148, (-17)); (97220868992560916, (-17)); (58647990432002672, (-17)); (93646115436862665, (-17)); (42714269786246739, (-17)); (90278225128474543, (-17)); (71096046156176551, (-17)); (58801108164461269, (-17)); (62279356063180513, (-17)); (13835239277869171, (-17)); (40742086226633623, (-17)); (64736062549012408, (-17)); (86002018247590928, (-17)); (34241388200766543, (-17)); (13108982100594677, (-16)); (10111488824324446, (-16)); (14383023973000673, (-16)); (92927591996384185, (-17)); (6201821703840803, (-16)); (99242086508462402, (-17)); (83989059993694526, (-17)); (75658598396655796, (-17)); (95863045843654193, (-17))];
  [(43711231054746214, (-17)); (71178390806566672, (-17)); (45148585208871006, (-17)); (39718874480108546, (-17)); (89410461383085615, (-18)); (25082716682690465, (-17)); (7141171245754675, (-16)); (48416375578197757, (-17)); (43981590641591817, (-17)); (7846391532665502, (-16)); (97009994140544131, (-17)); (54772704986824383, (-17)); (6627261517117351, (-16)); (70370516611853251, (-17)); (41178655682914678, (-18)); (39180243069487952, (-17)); (12249968459795668, (-17)); (21752374385995421, (-18)); (79993802668698977, (-17)); (10303682135834487, (-16)); (62997197447174325, (-17)); (6958345255421936, (-16)); (69380751928074502, (-17)); (57049717164639158, (-17)); (51603666006644922, (-17)); (64291516910633095, (-17)); (44717811449269407, (-17)); (40959506647628108, (-17))];
  [(32571371513268321, (-17)); (83349903757211752, (-17)); (19464611818005506, (-17)); (77001595530903899, (-17)); (84203962762340034, (-17)); (62600873541304436, (-17)); (84730008543682167, (-17)); (66278661475310674, (-17)); (34476631205017416, (-17)); (84778430600530696, (-17)); (18493962163640032, (-17)); (1208576244406081, (-16)); (98938134267553113, (-17)); (25119340473461094, (-17)); (64290585013067914, (-17)); (46883729890984605, (-17)); (58535412283646548, (-17)); (15968293730281113, (-17)); (6026629535414767, (-16)); (10169952005504603, (-16)); (86630688380755294, (-17)); (48415198590952291, (-17)); (76694400676803043, (-17)); (56425081789399445, (-17)); (48435561440178398, (-17)); (10171069177751551, (-16)); (10809941037176078, (-16)); (60075859676340626, (-17))];
  [(33909618562206012, (-17)); (10852494796485834, (-17)); (98078207298201936, (-18)); (5148960430607683, (-16)); (39595408622002193, (-17)); (53094301942745248, (-17)); (37718256398292405, (-18)); (50209785704701893, (-17)); (88640418267175614, (-18)); (75216366119263089, (-17)); (50421401666580146, (-17)); (9750057107530633, (-16)); (71701778499234481, (-17)); (8465509510597371, (-16)); (14282719117460374, (-17)); (87217225699101886, (-17)); (39815801175204779, (-19)); (31655784889971794, (-17)); (13095274241519284, (-17)); (4699695731813508, (-16)); (74598282171716046, (-17)); (59524831640152376, (-17)); (56092997606226869, (-17)); (76471962490775258, (-17)); (49082872306562536, (-17)); (53007076680931485, (-18)); (13519863532841569, (-17)); (11485478638729668, (-17))];
  [(53633743952704205, (-17)); (92718816039481988, (-17)); (26352489430782722, (-18)); (29318869994179242, (-17)); (89491403126540403, (-17)); (95340399250010877, (-17)); (84351239879825635, (-17)); (54806206904801691, (-17)); (11516915281756723, (-17)); (41630367850890526, (-17)); (98413666764065377, (-18)); (6163341884798228, (-16)); (22196912877588904, (-17)); (79546814127378074, (-17)); (47110587324388631, (-17)); (920242799644856, (-15)); (46345052704295275, (-17)); (76873847986692001, (-17)); (77778277609547708, (-17)); (27877087550270085, (-17)); (51409126533924598, (-17)); (59673756832000069, (-17)); (1284897063551985, (-15)); (16757294049028406, (-16)); (83761209921247781, (-17)); (97775912882312277, (-17)); (13279616089397528, (-16)); (94155291465684177, (-17))];
  [(22318272337089995, (-17)); (47777804974979976, (-17)); (72745565238057164, (-17)); (70514817568274679, (-17)); (28630856512234659, (-17)); (81189420367559872, (-17)); (5978102386347659, (-16)); (20901901839349568, (-17)); (50797317804309994, (-17)); (46837149189622918, (-17)); (35252783707747459, (-17)); (10387650678143945, (-17)); (60934784031409694, (-17)); (26202037447834403, (-17)); (65491957050518268, (-17)); (50822239288133586, (-17)); (54679248283777271, (-17)); (81337096532136033, (-17)); (20300457484613676, (-17)); (60159263951399788, (-17)); (32735338267440772, (-17)); (708710895461515, (-15)); (78550482747618733, (-17)); (27785837359889387, (-17)); (78366544300922403, (-17)); (83413923902285236, (-17)); (37857838966012941, (-17)); (98060173643029902, (-17))];
  [(21489955293624619, (-17)); (36247538202699547, (-17)); (65195965460794236, (-17)); (1097723736777253, (-16)); (19080973317540106, (-18)); (95277758812842794, (-17)); (66887665947485919, (-17)); (50966246187264819, (-17)); (47948749250901679, (-17)); (73830969576324479, (-17)); (40930867897703838, (-20)); (32517535500853223, (-17)); (80475051745480775, (-17)); (2213167372060767, (-16)); (13877614440107322, (-17)); (54138059233378388, (-17)); (26682936333933227, (-17)); (34972926107484681, (-17)); (67807875205097246, (-17)); (51774264403272552, (-17)); (33552536288211293, (-17)); (47278758756871098, (-17)); (40483935140805793, (-17)); (30619888784438942, (-17)); (54512236642029155, (-17)); (49348551500260168, (-17)); (3401676913641869, (-16)); (71788831612192661, (-17))];
  [(6426665848474199, (-16)); (80608173247661374, (-17)); (65450197655240028, (-17)); (98208481801737224, (-17)); (17204912087178148, (-17)); (68637541021501414, (-17)); (26028483251238688, (-17)); (87112978891815041, (-17)); (63241769558582384, (-17)); (36104529763109405, (-18)); (2656141533114772, (-16)); (25270100792067784, (-17)); (90084791830426381, (-17)); (43805072300163872, (-17)); (73321753627529096, (-17)); (76236358945664351, (-17)); (69831802842255541, (-18)); (62927522713007145, (-17)); (25635857745064616, (-17)); (65663306559610524, (-17)); (1036468053538099, (-15)); (91738925441212293, (-17)); (11979009327352899, (-16)); (11244455514887206, (-16)); (12651155240784449, (-16)); (71705199184177348, (-17)); (36989448088127902, (-17)); (62630182452239069, (-17))];
  [(69453428513569737, (-17)); (56647792072914027, (-17)); (3387151391036396, (-16)); (11907837855469428, (-17)); (74707438950385441, (-17)); (96266043144057623, (-19)); (37049522581340644, (-17)); (81947560568418876, (-17)); (79648349037345811, (-17)); (18934064594358313, (-17)); (27172039602449871, (-17)); (17999370664425063, (-17)); (15079922456586037, (-17)); (30191234811323764, (-17)); (51893938029670217, (-17)); (51751125580602064, (-17)); (96874066695818584, (-17)); (16599508013668718, (-18)); (58089456948393003, (-17)); (24482828190320849, (-17)); (42583012776316981, (-17)); (20121955965706673, (-17)); (39729765777165837, (-17)); (9599390324275523, (-16)); (48499483381445285, (-17)); (89750070042006769, (-17)); (11616140317121819, (-16)); (78578987663150435, (-17))];
  [(32618416733160538, (-17)); (2833430784985711, (-16)); (69963895989447333, (-17)); (94143940576498508, (-17)); (12861070185378576, (-17)); (8730891472119271, (-16)); (50355311054516205, (-17)); (26113246253806288, (-17)); (60432474514157897, (-18)); (23774119782707936, (-18)); (11325133366239859, (-18)); (55745933296831052, (-17)); (39239052533084706, (-17)); (12486437361010805, (-17)); (83436072673944717, (-17)); (44384371682062851, (-17)); (52128536084929322, (-17)); (38739564050667485, (-17)); (52462398179302039, (-17)); (72187928848608807, (-17)); (1736286738484166, (-16)); (5091720867770495, (-16)); (10458190433954673, (-16)); (25331068720728411, (-17)); (83113799440498493, (-17)); (80743186099934594, (-17)); (33345075140077329, (-17)); (73882435850967709, (-17))];
  [(46335951596370661, (-17)); (92854465043559464, (-17)); (5619177689083521, (-16)); (83109202204273402, (-17)); (88465131704747524, (-17)); (18926398533218347, (-17)); (43788581209169919, (-17)); (12336755906239971, (-17)); (28518152327213664, (-17)); (88525917058532788, (-17)); (21467938355281524, (-17)); (97032090891974698, (-17)); (77344745467588016, (-17)); (6846843957865173, (-16)); (95756371872468415, (-17)); (66923265496283824, (-17)); (61889409301215559, (-18)); (37916938023902047, (-17)); (21931813815792389, (-17)); (70227490120677838, (-17)); (21463432263561186, (-17)); (22600907051775615, (-18)); (10947478631842447, (-16)); (80195005320117108, (-17)); (23296081360530679, (-17)); (21750940865427337, (-17)); (45644045619457854, (-18)); ((-25865034400206141), (-18))];
  [(13538923287439708, (-17)); (32877627066209747, (-17)); (39184599899409844, (-17)); (43822530480708943, (-17)); (65089653263539948, (-17)); (74568767431253191, (-17)); (56197244610285446, (-17)); (19159644506178064, (-17)); (73740876478605222, (-17)); (97405434824115567, (-18)); (71178345329326709, (-17)); (27022422893963838, (-18)); (97077068848610226, (-18)); (75374267558718144, (-17)); (98122272041330549, (-17)); (79489065364347633, (-19)); (51604106142748252, (-17)); (28011651308080898, (-17)); (70823208701539575, (-17)); (19223046240184136, (-17)); (3132056196709439, (-16)); (41981590460049301, (-17)); (55319383895485985, (-17)); (90014687141582184, (-17)); (10452988074386285, (-16)); (60801884363024516, (-17)); (50972448500283563, (-17)); (95814431333769556, (-17))];
  [(87209323487128798, (-17)); (40390725791509519, (-17)); (81032299379848016, (-17)); (32416487400142679, (-17)); (39498918520108606, (-17)); (17655451121880505, (-17)); (28125556595669621, (-17)); (70264637190065615, (-17)); (37951747461786844, (-17)); (25352547420844485, (-17)); (12327066159732758, (-17)); (10621625938451917, (-17)); (41929395332855357, (-17)); (79011368563804063, (-17)); (25248948078592293, (-17)); (65604841826213378, (-17)); (43494654694168333, (-17)); (21765066167789826, (-17)); (94303992541592396, (-17)); (24211606239177957, (-17)); (3848788882084262, (-16)); (25784991309366834, (-17)); (9397883984814499, (-16)); (91914193497613539, (-17)); (89558803546087562, (-17)); (688479185107155, (-15)); (93694829448813222, (-17)); (71130453508255465, (-17))];
  [(12400573565875872, (-18)); (92559519001317403, (-17)); (94637619688426255, (-17)); (72221506539393976, (-17)); (11264510250509929, (-17)); (78191181821828015, (-17)); (97863092537598539, (-17)); (24277018199090239, (-17)); (96748797026069078, (-17)); (40427507867050039, (-17)); (39194402524894445, (-17)); (27376684447517841, (-18)); (16015319982861764, (-18)); (30465560202881625, (-17)); (16602463554622848, (-17)); (89321875995800482, (-17)); (92363163345833277, (-17)); (91748391804456886, (-17)); (92567730598486797, (-17)); (14953150355973516, (-17)); (34765947232765448, (-17)); (48655824863252084, (-17)); (10735827636962496, (-16)); (44634920801343486, (-17)); (12805047693875211, (-16)); (17835466983568757, (-16)); (81262173160176854, (-17)); (23013188232311137, (-16))];
  [(40927629656816256, (-17)); (48904209614303273, (-17)); (85716947060137338, (-17)); (5840006492967168, (-16)); (35415241034566058, (-17)); (47927505423573591, (-17)); (84721573376629211, (-17)); (17328126742571981, (-17)); (28579325688543522, (-17)); (27732111914227475, (-17)); (90502413968854611, (-17)); (72726239435388751, (-17)); (36648460046926112, (-17)); (86526277620848324, (-17)); (92247535667172509, (-17)); (29713585012434851, (-17)); (77451829545808648, (-18)); (83200849809379596, (-17)); (22989923216509955, (-17)); (1138449497556959, (-15)); (7272880589575208, (-16)); (11341816641160687, (-16)); (11454618772463612, (-16)); (73307051384311983, (-17)); (11205390867330727, (-16)); (61174655377743259, (-17)); (25577896121877552, (-17)); (32799212959360247, (-17))];
  [(97179413036335427, (-17)); (63781916201821687, (-17)); (78262867024570104, (-17)); (12541190319278028, (-17)); (60216590005074389, (-17)); (84150134737641835, (-17)); (60514467812622308, (-17)); (80676356876570243, (-17)); (70178390371715205, (-17)); (13272121860984332, (-17)); (62475482285972206, (-17)); (35509168878973996, (-17)); (81875627743697976, (-17)); (23473457736061654, (-17)); (25128053883523271, (-17)); (80037951120101569, (-17)); (49305285749828276, (-17)); (72329501979844957, (-17)); (14862348556225302, (-17)); (11061045560677611, (-16)); (12872754703817184, (-16)); (13882185838018848, (-16)); (71327048763669543, (-17)); (94159635141454412, (-17)); (9534962470672721, (-16)); (56995018409725995, (-17)); (84157049488138491, (-17)); (10700819738249701, (-16))];
  [(88925560867072484, (-17)); (74410047108408583, (-17)); (48037293394481584, (-17)); (51690983460956341, (-17)); (33904698220373386, (-17)); (91693461228249218, (-17)); (56794523914801032, (-17)); (61378464439783131, (-17)); (97404700354483953, (-17)); (78707842338234169, (-17)); (48814679432441466, (-17)); (2298058445296195, (-16)); (24453410432345024, (-17)); (9767702612107021, (-18)); (24997430416761512, (-17)); (19941059251986737, (-17)); (54039358471550814, (-17)); (50518532993606158, (-17)); (49783192936961573, (-17)); (56314512973881659, (-17)); (45761216833225304, (-17)); (79131000330263834, (-17)); (56729249122784264, (-18)); (57953289273990877, (-18)); (28064216801748698, (-17)); (6859665484681996, (-16)); (57384576019036104, (-17)); (11742344031334551, (-16))];
  [(99446733544013455, (-18)); (46861496972361438, (-17)); (56105263419750884, (-17)); (92755218957590291, (-17)); (99078903383021544, (-17)); (31562309312978898, (-17)); (80793652408472216, (-17)); (51969288644322009, (-17)); (48214584536644223, (-17)); (61555459367465981, (-17)); (56627116248512355, (-17)); (27713641005679779, (-17)); (95443028202225833, (-18)); (47740557221633018, (-17)); (90589331903062376, (-17)); (96968539410029009, (-17)); (38853491990594302, (-17)); (11032668910608667, (-17)); (82215809877850266, (-18)); (62033520050124824, (-17)); (73941361384229998, (-17)); (39024598836184204, (-17)); (17119129273454252, (-16)); (14474025017770686, (-16)); (71319048237618476, (-17)); (38327853883908203, (-17)); (47305368196650832, (-17)); (28111480605892086, (-17))];
  [(38387778482964863, (-17)); (48226252711653372, (-17)); (30462423877219336, (-17)); (60141853760512165, (-17)); (70911103839941259, (-18)); (6050861036327031, (-16)); (81187692638478159, (-17)); (29899348408292126, (-17)); (95408150620470245, (-17)); (81689888373911057, (-17)); (89717988110600277, (-18)); (70607948936207787, (-17)); (91875793533329853, (-17)); (65849051923106428, (-17)); (41199548974636291, (-18)); (35256653941664551, (-18)); (48540772957730549, (-17)); (54690814544942046, (-17)); (514290233613799, (-15)); (90189422294505084, (-17)); (949831545965302, (-16)); (10704870446247927, (-16)); (49579375094059203, (-17)); (24946636811465353, (-17)); (4693301834737777, (-16)); (82999779857534128, (-17)); (17335939952307741, (-17)); (91106992857778102, (-17))];
  [(34002694624618746, (-17)); (5446203621379142, (-16)); (72154068912781977, (-19)); (70747223202656295, (-17)); (21814639414103221, (-18)); (87152211167218718, (-18)); (73073969554505847, (-18)); (32409975212213449, (-17)); (30495885784036192, (-17)); (64004529223127382, (-17)); (15327592870887741, (-17)); (9934230147715013, (-16)); (28387435334197353, (-17)); (38648530499286748, (-17)); (66671818877628242, (-17)); (13755221016414743, (-17)); (69710524606548063, (-17)); (20166933006158461, (-17)); (50591095093968597, (-17)); (48927890697628618, (-17)); ((-14478856855680278), (-17)); (16059645614446047, (-17)); (52168507895057958, (-17)); (13247219893337117, (-18)); (10803294667619735, (-17)); (59511278765105147, (-17)); (41549203273698371, (-17)); (20782878018528128, (-17))];
  [(38072172254990178, (-17)); (51784350973386795, (-17)); (48733679614915082, (-17)); (64034837580893433, (-17)); (90842375821943888, (-17)); (5554699814232793, (-16)); (4802629581286133, (-17)); (41010033986166672, (-17)); (2231945491722499, (-16)); (27793100142673888, (-17)); (85738632765217959, (-17)); (36583910240886941, (-17)); (69211139969452695, (-17)); (75629020148290216, (-17)); (90874848636353589, (-17)); (59368416862986517, (-17)); (3987969690844323, (-16)); (42642173312033382, (-17)); (33726070133439368, (-17)); (68483305175488329, (-17)); (11920904263540208, (-16)); (83344319392652577, (-17)); (90293110773915508, (-17)); (14733147092202175, (-16)); (96609558370199256, (-17)); (45030331498135101, (-17)); (74821755939796319, (-17)); (49370115524323088, (-17))];
  [(38671021366584502, (-17)); (12395449443720019, (-17)); (95124773958949338, (-17)); (10689445019407706, (-17)); (36636509020274854, (-17)); (49143475970992412, (-17)); (29320478964471408, (-17)); (19646556848658447, (-17)); (59159905203399688, (-17)); (31940569219471815, (-17)); (60778694278243395, (-17)); (67062828056212409, (-17)); (58393368057764505, (-17)); (81744565247540746, (-17)); (96440309684734471, (-17)); (81646196439001828, (-17)); (74182132905170772, (-17)); (94304913186327988, (-17)); (76619925665707755, (-17)); (40139003069447349, (-17)); (46333576008625776, (-17)); (11007457819836433, (-16)); (54772425714992479, (-17)); (64856321477458534, (-17)); (15093327450277441, (-16)); (50310888314865421, (-17)); (61449215831319171, (-17)); (13960436196285537, (-16))];
  [(75430622701234395, (-17)); (77711525628101152, (-17)); (46182136614144809, (-17)); (85224913538317515, (-18)); (38869945631050207, (-17)); (14297457978072692, (-17)); (85613650168596889, (-17)); (53887582342115259, (-17)); (85779876796899612, (-17)); (68591557615763543, (-17)); (49611752994124247, (-17)); (86109099657580035, (-17)); (77334367268093041, (-17)); (72701987930512468, (-17)); (87828631531541779, (-17)); (56140423874204937, (-17)); (84309441060445545, (-17)); (14402139031665973, (-17)); (16683975230501336, (-17)); (62384901201982523, (-17)); (67239464037414898, (-17)); (72899420163123696, (-17)); (58256320580888343, (-17)); (75059712401570788, (-17)); (64749430930745211, (-17)); (62116208013369523, (-17)); (77690846363903387, (-17)); (49457166893405058, (-17))];
  [(71842141914791025, (-17)); (38930691084569402, (-17)); (8855266276685434, (-16)); (23556251885271007, (-17)); (64714139965388195, (-17)); (9738152448863302, (-16)); (8875727743007038, (-16)); (61786286190090567, (-17)); (77046461593047055, (-17)); (31194878322231312, (-17)); (39779315166043827, (-17)); (80458016788580555, (-17)); (74976262970099972, (-17)); (16224951330832027, (-17)); (60335308673208321, (-17)); (73434485077816258, (-17)); (10873688309769858, (-17)); (93399647557388554, (-17)); (4324923249441045, (-16)); (9691957700287166, (-16)); (10890619405301099, (-16)); (15588413670497501, (-16)); (77668502097045944, (-17)); (84558570188846871, (-17)); (11462393695157633, (-16)); (4695343397172756, (-16)); (79276594650658572, (-17)); (10691623721512209, (-16))];
  [(87744032657853399, (-17)); (6482964678023676, (-16)); (17283698049946938, (-17)); (74197658824888246, (-17)); (39200901711952585, (-17)); (89248281547687935, (-18)); (8087262285993676, (-16)); (85326355926312369, (-17)); (31671861062429174, (-17)); (29786796052106324, (-18)); (14273506240366463, (-17)); (57512809284326449, (-17)); (47269566632526694, (-17)); (46196210788204872, (-17)); (38994227203721821, (-17)); (58440156163074386, (-17)); (68809734675741696, (-17)); (80086860062183363, (-17)); (46117599347820792, (-17)); (92213434436958064, (-17)); (71174492122696509, (-17)); (22309581573627782, (-17)); (11670032242711628, (-16)); (9486616437838522, (-16)); (29890648855643931, (-17)); (1564700761112251, (-15)); (11457768005027968, (-16)); (33408988305517939, (-17))];
  [(71995029438579661, (-17)); (44138396117088807, (-18)); (18578498091875928, (-17)); (30430965373499652, (-17)); (75646730208796109, (-17)); (2185341845809966, (-16)); (70640256268105683, (-17)); (88338135205530266, (-17)); (79294663213910421, (-17)); (96787603075320738, (-17)); (13341037314774362, (-17)); (82084369326792328, (-17)); (61719942662566007, (-17)); (9814713102363376, (-16)); (52545082039502922, (-17)); (71299178840153465, (-18)); (43492688014410474, (-17)); (4421254626643556, (-17)); (71139421999233254, (-17)); (17877029189341759, (-17)); (95395050776398171, (-17)); (50358197836790441, (-17)); (4761331963157347, (-16)); (90538510374703285, (-17)); (32130672581775238, (-17)); (77051596639024766, (-17)); (92767416111796175, (-17)); (68691811869918362, (-17))];
  [(93358198467937392, (-17)); (9229993041247132, (-16)); (34082660752279559, (-17)); (6444080866616223, (-16)); (21235405376801664, (-17)); (23711493816585338, (-17)); (59242005530420694, (-17)); (37376038305711468, (-17)); (59357608464923584, (-17)); (96599737251215489, (-17)); (54857224078106959, (-17)); (26336376174286524, (-17)); (10496180525026211, (-18)); (42684382693045719, (-17)); (94538472918871996, (-17)); (49751371430465952, (-17)); (30712594064326049, (-17)); (85196742832036398, (-17)); (25517792463334299, (-19)); (48245676939955517, (-17)); (21948368662086884, (-17)); (18120949097229502, (-17)); (36794988923525862, (-17)); ((-11912875583077617), (-17)); (32369169351113997, (-17)); ((-14774330773013758), (-18)); ((-32821881221763766), (-17)); ((-30612895830958477), (-19))];
  [(71435583436497074, (-17)); (2363959283498891, (-16)); (21824793579562696, (-17)); (88554585801533769, (-17)); (85823848984748319, (-17)); (17503983550192714, (-17)); (37402520927493244, (-17)); (90765305350647352, (-17)); (15518191721535013, (-17)); (19401878512917392, (-17)); (21572707901455157, (-17)); (78961565739036299, (-17)); (65078477114898403, (-17)); (53398094801984175, (-17)); (34967396219151359, (-17)); (42268368974704429, (-17)); (19683676407300443, (-17)); (32052037320552951, (-17)); (79321913904091002, (-17)); (10088239395304106, (-16)); (13053980190429695, (-16)); (25686372748880926, (-17)); (879241439485271, (-15)); (87440680088097111, (-17)); (24331199859185465, (-17)); (70262897536907798, (-17)); (10535099752779045, (-16)); (21345335712138469, (-17))];
  [(38017067598141141, (-17)); (996816328266528, (-15)); (4295883679634771, (-17)); (94790979798493169, (-17)); (25114280232299913, (-17)); (75714333559615665, (-17)); (51137336537681854, (-17)); (692011847937819, (-16)); (99604053642403112, (-17)); (29116897134580955, (-17)); (89506018126065245, (-17)); (40245976316561605, (-17)); (42475093006050901, (-18)); (63706353955976669, (-17)); (15720829220322441, (-17)); (96483935950833577, (-17)); (18417471862221879, (-17)); (44706034836164865, (-17)); (10094489534386564, (-17)); (91275116114607902, (-17)); (90377955642365038, (-17)); (56061535363866422, (-17)); (10243384264772732, (-16)); (71383732168974268, (-17)); (1237783918171578, (-15)); (52595385961773133, (-17)); (17574489732017712, (-17)); (46688351561044172, (-17))];
  [(42392512648154179, (-17)); (45542733579167882, (-17)); (55527464147239147, (-17)); (43161301828490428, (-18)); (88213155123219356, (-17)); (13761064089660247, (-17)); (18143315896393963, (-17)); (56843775836997867, (-17)); (63458573887457714, (-17)); (38110549578229025, (-17)); (11510467698187032, (-17)); (33052047938615869, (-17)); (9931671291841816, (-16)); (42727382300336247, (-17)); (39777192700433028, (-17)); (62737015070597901, (-17)); (30847702097670537, (-17)); (66078584709678534, (-18)); (38068722475987415, (-17)); (18846267458955135, (-17)); (86563666172288822, (-17)); (66942690750610168, (-17)); (24203854738827082, (-17)); (93577492739073076, (-17)); (60887948930177971, (-17)); (18763864262417729, (-17)); (4909340972263419, (-16)); (41116119621972091, (-17))];
  [(97462287256247349, (-17)); (61862316410584417, (-17)); (29096479663585506, (-17)); (60644588617439921, (-17)); (35511340332828567, (-17)); (8908490526000864, (-16)); (70282979224437969, (-17)); (48543893510996061, (-17)); (47981591559188741, (-17)); (72584371916867285, (-17)); (25284588565943289, (-17)); (65041371758480282, (-17)); (12333804309475394, (-18)); (56581797659828514, (-17)); (68778556471290853, (-17)); (10476777513152757, (-17)); (32519978343011802, (-17)); (16501465532180792, (-17)); (53369766227543358, (-17)); (16901386437020724, (-17)); (88254457728772634, (-18)); (51821046105308843, (-17)); (58088104102014637, (-17)); (3462872667933421, (-16)); (83342060115239613, (-17)); (71115793400067773, (-17)); (46226875555705815, (-17)); (5972235192294405, (-16))];
  [(87516583001893966, (-17)); (59921622996658797, (-17)); (92118790838401732, (-17)); (87903001122339386, (-17)); (60516872376604225, (-17)); (39223245336087564, (-17)); (17255096592074748, (-17)); (6186572077852448, (-18)); (24230241830323274, (-17)); (29919488966453889, (-17)); (6740907338429003, (-17)); (75564812621909994, (-17)); (35845907844159985, (-17)); (63373815776531783, (-17)); (22522114268345006, (-17)); (58217477326290545, (-17)); (9942092271111802, (-16)); (26522551144540285, (-17)); (93331779796717851, (-17)); (57549515846133903, (-17)); (35635644756532558, (-17)); (2320344490013003, (-16)); (92572313322085975, (-17)); (56998296714860019, (-17)); (79544806483987363, (-17)); (14044497064258159, (-16)); (85892645952563595, (-17)); (12436466055834738, (-16))];
  [(45584991102616368, (-17)); (11782522342794166, (-17)); (33809751366278784, (-17)); (40522677888875347, (-17)); (68121252076233674, (-17)); (32237045456240132, (-17)); (56927573773435125, (-17)); (28963027330358992, (-17)); (49521699377497386, (-17)); (44688828229038602, (-17)); (37222613192387721, (-17)); (96906886078725252, (-17)); (86842786174581077, (-17)); (96527138483652353, (-17)); (6066043978976402, (-16)); (89929723420814311, (-17)); (65026626651077502, (-17)); (68533992542975708, (-17)); (19005507040881708, (-17)); (87579796226355744, (-17)); (94662361383648697, (-17)); (73553433646154298, (-17)); (11799681847064927, (-16)); (98895601435807068, (-17)); (96184642994843295, (-17)); (60481709801565253, (-17)); (70169102103997261, (-17)); (48207400464355832, (-17))];
  [(61915913552221469, (-17)); (40427273064483771, (-17)); (57563004542841889, (-17)); (53564283717643102, (-19)); (46375902426856119, (-17)); (70115631784209698, (-17)); (80508767807844128, (-17)); (97747257466223414, (-17)); (16763749810357065, (-17)); (38665968267350681, (-17)); (18359724405135847, (-17)); (13956329705790194, (-18)); (47257574781104605, (-17)); (40885289219103782, (-17)); (8673372556608685, (-16)); (48868704706375654, (-17)); (17648360680404984, (-18)); (33998106614297363, (-17)); (42801458787079938, (-17)); (48293008621937478, (-17)); (56664833079242327, (-17)); (23168072894464556, (-17)); (43051243850475607, (-17)); (94257916413246634, (-17)); (78296875817042122, (-17)); (27705221671556407, (-17)); (52226599410462338, (-17)); (23280862793523649, (-17))];
  [(72643462812155213, (-17)); (50270210046422181, (-17)); (26344506090129793, (-17)); (2166288941793193, (-16)); (22559533433315637, (-17)); (45464386468924411, (-17)); (94293955099734306, (-17)); (68325468066761164, (-17)); (93435760269416146, (-17)); (66408431975006554, (-17)); (84195204076271768, (-17)); (73258090067560155, (-17)); (78749251224037253, (-17)); (84234215365052245, (-17)); (73614751688561753, (-17)); (13157256528015182, (-17)); (85852468827600548, (-17)); (52937287551226142, (-17)); (66798412236384508, (-17)); (11335881756423412, (-16)); (89159358242674402, (-17)); (12897276737403469, (-16)); (51438212174541487, (-17)); (44317044050704368, (-17)); (6777519486949608, (-16)); (10889088754962586, (-16)); (8456643451605752, (-16)); (11463880001937685, (-16))];
  [(5024463990380672, (-16)); (79122090332774175, (-17)); (96246990936141474, (-17)); (24623951039871983, (-17)); (29518740358394668, (-17)); (89925915692852754, (-17)); (75907907492940141, (-17)); (62526030908689689, (-18)); (84910788030916717, (-17)); (10006149733552294, (-17)); (75904935286253639, (-17)); (13323750180985727, (-17)); (51732689765200646, (-17)); (13068411981498107, (-18)); (77600449939130844, (-17)); (24135551322582405, (-17)); (61803058510240749, (-17)); (74995069709924089, (-18)); (89586758918450404, (-17)); (81679388638584249, (-17)); (68090299828247813, (-17)); (13407660595992494, (-16)); (3412409110720992, (-16)); (1923512185089977, (-16)); (83835510274693914, (-17)); (10188208987861638, (-16)); (57689141472874494, (-17)); (14679593355097511, (-16))];
  [(63041109900115133, (-17)); (97042517395881822, (-17)); (27745529458405116, (-17)); (31597248927986998, (-17)); (44271351831180961, (-17)); (7589212736778812, (-16)); (28967749292177103, (-17)); (42986356554239669, (-17)); (70690171248365519, (-18)); (6136154299536386, (-16)); (87512593569140373, (-17)); (61632792549005277, (-17)); (85316344275331968, (-18)); (97678943481663361, (-17)); (63517741426239105, (-17)); (27476421218390923, (-17)); (39390502438589337, (-17)); (527840085120444, (-15)); (15345063412302073, (-17)); (57046897569924382, (-17)); (83276261936072182, (-17)); (87092678268348744, (-17)); (69426984902683486, (-17)); (10170646045109009, (-16)); (96049196587321795, (-17)); (26388844273371231, (-17)); (37499690883925912, (-17)); (51551927253554231, (-17))];
  [(19204585054720824, (-17)); (23968056947265404, (-17)); (26357870221314839, (-17)); (33433303929307634, (-17)); (35464309722587095, (-17)); (41479715579566678, (-17)); (98574275074069451, (-17)); (36739460632329857, (-17)); (88244143024898047, (-17)); (9734194834990384, (-18)); (31556911673247978, (-17)); (9129350684899582, (-16)); (34399168881382891, (-17)); (62285626871526167, (-17)); (98739705661118415, (-17)); (76004198425615299, (-17)); (72262822452051656, (-17)); (75260412339455329, (-17)); (6446906405213797, (-16)); (70421844452419613, (-17)); (52472312122286902, (-17)); (76432265825046963, (-17)); (11991021980894421, (-16)); (77851826982805017, (-17)); (12443880177396589, (-16)); (10268236303595364, (-16)); (67767953640932188, (-17)); (10725121523375156, (-16))];
  [(47643703572226059, (-17)); (66148408701090111, (-17)); (45414541636958738, (-17)); (71128167117982544, (-17)); (84843698988843741, (-17)); (8820407113069304, (-16)); (64553551883110327, (-17)); (90522891554066842, (-17)); (54512008659941935, (-17)); (88196442932287655, (-17)); (765717183046279, (-15)); (10844467265802116, (-17)); (18378146176835175, (-17)); (12357419028214767, (-17)); (31122082117515559, (-17)); (38077576228358911, (-17)); (98325892568303452, (-17)); (72658797148556964, (-17)); (81125970618657561, (-17)); (78012735673070266, (-17)); (99295827356542898, (-17)); (86539998631790382, (-17)); (37732197531460632, (-17)); (48649963010310593, (-17)); (39276115170096132, (-17)); (14226366995449597, (-16)); (18126270541767009, (-16)); (15482268322546011, (-16))];
  [(5342490947093661, (-16)); (67177638534065554, (-18)); (36660258766395315, (-17)); (68390746918774303, (-17)); (18836110159144759, (-17)); (87692544964289953, (-17)); (73473475755964357, (-17)); (21022053551999487, (-18)); (62499004768268329, (-17)); (23542019820916815, (-17)); (73562414467919535, (-17)); (58073374645026943, (-17)); (8166871244514583, (-16)); (12333614151872108, (-17)); (32932764102984668, (-17)); (14579464928519437, (-17)); (74778443273638251, (-17)); (15468128157985284, (-17)); (70178469600194004, (-17)); (14134080400019315, (-16)); (19481351685573128, (-17)); (13686860221459254, (-16)); (36884797230201216, (-17)); (71701737522156042, (-18)); (41298480134379895, (-17)); (11069916486546609, (-16)); (12236452598505211, (-17)); (97681693815695447, (-17))];
  [(56371223793733216, (-17)); (90776498494069369, (-17)); (40248213370677777, (-17)); (67054791448265338, (-17)); (55858468386396709, (-17)); (16809560628647047, (-17)); (84506356656252746, (-17)); (12324583762257058, (-17)); (68235167013754794, (-17)); (99338711218495945, (-17)); (98773583492535755, (-17)); (49432840248168086, (-17)); (31436765635183994, (-17)); (4946970345843773, (-16)); (16149840506547841, (-17)); (81378437902495593, (-17)); (82080738059174718, (-17)); (16623266318025365, (-17)); (16589167786489911, (-17)); (10719923843883263, (-16)); (76520107311167118, (-17)); (44928269748528371, (-17)); (11006927156005746, (-16)); (50335988542067633, (-17)); (69400163841578255, (-17)); (83624610651368503, (-17)); (73557111281316079, (-17)); (368324903093877, (-15))];
  [(76485243717955476, (-17)); (69209467278633308, (-18)); (62574390879452302, (-17)); (63414007799317973, (-17)); (45098834721222758, (-17)); (82794626893351531, (-17)); (8828123587929283, (-16)); (98653802386689615, (-17)); (4054398656183501, (-16)); (10894466405626868, (-17)); (21505674971415967, (-17)); (96908842621532898, (-17)); (93455866410919031, (-17)); (92610930895022014, (-17)); (60122111072015205, (-17)); (32683048931398229, (-17)); (56269572910305099, (-17)); (67183807358596481, (-17)); (32317823871772799, (-17)); (15336827846469734, (-16)); (13744828479019522, (-16)); (12637025638922157, (-16)); (13855217799235895, (-16)); (69657056739575818, (-17)); (1245874466842168, (-15)); (11195733670401333, (-16)); (68127193724346169, (-17)); (10389387121322096, (-16))];
  [(17234176060211936, (-17)); (92131845666378986, (-17)); (96597244477881272, (-17)); (94791221575292905, (-17)); (95238352321519826, (-17)); (31901965355922035, (-17)); (98422696064817905, (-17)); (24689492273776925, (-17)); (30795754298822053, (-17)); (25407363257198146, (-17)); (5520268284284191, (-17)); (85277004566275294, (-18)); (33201298295051285, (-17)); (89338147244987576, (-17)); (8825219591303991, (-16)); (18255293190291788, (-17)); (10597848436280255, (-17)); (81329901873912536, (-18)); (50596896032543925, (-17)); (42368284813998613, (-17)); (2032745501748551, (-16)); (16391146085271954, (-17)); (13130197815780189, (-16)); (16647431247652382, (-16)); (10213622426666726, (-16)); (61201213415677624, (-17)); (30093256466232604, (-17)); (26876696283304302, (-17))];
  [(10550006745083962, (-17)); (28451237516632222, (-17)); (90071551304873243, (-17)); (98947032532580625, (-17)); (14299644270914325, (-17)); (91483735408739908, (-17)); (50144244786785708, (-17)); (25389865899000119, (-17)); (34920106410914609, (-17)); (60429445788825387, (-17)); (16073680491342124, (-17)); (89906634852787848, (-17)); (66819561692649243, (-18)); (28563538011346123, (-17)); (61911106923337988, (-17)); (66708006334176662, (-17)); (71710681703356427, (-17)); (71437083434949078, (-17)); (32920448666130531, (-19)); (81598811352191225, (-17)); (28114456068966415, (-18)); (44274408630862949, (-17)); (98687639368226554, (-17)); (23222269332044385, (-17)); (74236828761598006, (-17)); (10059103966825982, (-16)); (1955729565576072, (-16)); (10776189271255507, (-16))];
  [(11543057102731547, (-17)); (34993245473706702, (-17)); (89954351420376688, (-17)); (95350944811720983, (-17)); (44427594927479996, (-17)); (52870388707486682, (-17)); (55835259887435285, (-17)); (29280362628732015, (-18)); (25713092282633399, (-17)); (24628778712516863, (-17)); (78287520219870099, (-17)); (14455857105854408, (-17)); (54341693741715646, (-17)); (99767060690714837, (-18)); (52377593892657015, (-17)); (6538140992424224, (-18)); (87618438246520447, (-17)); (32481937079611711, (-17)); (21753797900362049, (-17)); (70266502853925994, (-17)); (41634953356901938, (-17)); (96604089502762291, (-17)); (50762648550618095, (-17)); (22584906692562082, (-17)); (25527272361253445, (-17)); (71446777421503194, (-17)); (51087111216184922, (-17)); (10285728548148918, (-16))];
  [(86470477844462046, (-17)); (35328676691641747, (-17)); (4917448261534082, (-16)); (67632387518280124, (-17)); (14745148929965435, (-17)); (19098788389311017, (-17)); (27848671125288571, (-17)); (39736312179646904, (-18)); (60841543678073151, (-17)); (90972763510098908, (-17)); (21393659370403506, (-17)); (99106956258624845, (-17)); (2059498769455278, (-16)); (55430073944664804, (-17)); (96850107906328686, (-17)); (93767314479122132, (-17)); (82032031354540436, (-17)); (20640565199863425, (-17)); (35231691436280799, (-17)); (20221973154041999, (-18)); ((-10716356400525842), (-17)); ((-46329051520918874), (-18)); (59242987398864821, (-17)); (39603812385714476, (-18)); (55904751575394562, (-17)); (91637140663008188, (-17)); (24853390387007523, (-17)); (52977208807587339, (-17))];
  [(73627084729277703, (-18)); (84520254485733681, (-17)); (70225258264254409, (-18)); (8760658807614653, (-16)); (96931847781137881, (-17)); (61932668563279314, (-17)); (63389034019030843, (-18)); (35381486238839366, (-17)); (33119221095176921, (-17)); (47392983150514023, (-17)); (88461551980598696, (-17)); (32060247130244512, (-17)); (70414841042400833, (-17)); (27455307257339334, (-17)); (65467018451585213, (-17)); (60467250684734863, (-17)); (82466649358342958, (-17)); (74942076900574883, (-17)); (40152922990887752, (-17)); (69541828542688988, (-17)); (14585940135067763, (-16)); (70492014138472348, (-17)); (65441093512493442, (-17)); (85398569926117074, (-17)); (63480545490388418, (-17)); (9681967506423258, (-16)); (14843539797317495, (-16)); (80656778005994179, (-17))];
  [(41901807759941612, (-17)); (58456186189947645, (-17)); (94658345190552384, (-17)); (61020000310389189, (-17)); (48195628842644966, (-17)); (47675233837168085, (-17)); (4374951972792771, (-16)); (34613264077911687, (-17)); (33095127234337385, (-17)); (37333849997916413, (-17)); (86846181448356008, (-17)); (58015317053377291, (-17)); (64924338355561728, (-17)); (19466532980208306, (-17)); (10769665839531006, (-17)); (73412471914488331, (-17)); (83330225557993876, (-17)); (97608439913172973, (-17)); (89313381586604179, (-18)); (1057116449975783, (-15)); (98673915778948351, (-17)); (11885649414719588, (-16)); (48518006859728863, (-17)); (41964654625718645, (-17)); (45900859317681197, (-17)); (95505304949806558, (-17)); (86087384999130279, (-17)); (10052184443089405, (-16))];
  [(43894902565641047, (-17)); (97470604646471726, (-17)); (90793166501096911, (-17)); (31625984357682912, (-17)); (80297762440100673, (-18)); (82945447274584727, (-17)); (1183305423697778, (-16)); (85853247627583729, (-17)); (59458578042910548, (-17)); (26650220483150011, (-17)); (39748421460761618, (-17)); (32348999893544883, (-17)); (40100256717982274, (-17)); (95376310942418296, (-17)); (49180344586664093, (-18)); (65796985089525661, (-17)); (1950759432506165, (-16)); (74792602704271649, (-17)); (20378353712149289, (-17)); (31017267375135116, (-17)); (66845207238914628, (-17)); (85490462976177417, (-17)); (57049012366691187, (-17)); (14730635610286327, (-16)); (14625384890674571, (-16)); (26469481050967386, (-17)); (22845541925647905, (-17)); (75427541952302024, (-17))];
  [(54945472130838469, (-17)); (43743918497889789, (-17)); (32574334287758744, (-17)); (43612693675565162, (-17)); (33339661114812891, (-17)); (91215993641774118, (-17)); (81450950181622006, (-17)); (44621496687273554, (-17)); (15662803597924735, (-17)); (6357253210053242, (-16)); (35429595946074, (-14)); (94949525214970243, (-17)); (54784183323516367, (-17)); (46059231817782398, (-17)); (14207397333441851, (-17)); (4950531978895526, (-16)); (19476871449351618, (-17)); (77053233722387704, (-17)); (66205603351909559, (-17)); (71804264868848144, (-17)); (44739599833203236, (-17)); (88380671885145556, (-17)); (72963912764937133, (-17)); (47541002720428815, (-17)); (52452044878977733, (-17)); (69481461528151356, (-17)); (40910314217528471, (-17)); (67674394229509738, (-17))];
  [(22489816876934854, (-17)); (30037599865652631, (-17)); (97232562367229569, (-17)); (66582755720803588, (-17)); (68588882781425975, (-17)); (1668937381545299, (-16)); (28746246835398392, (-17)); (75115050337757527, (-17)); (17270990572082479, (-18)); (93413607848810087, (-17)); (39799167336571195, (-17)); (85670934999003534, (-17)); (47660301512952952, (-17)); (30496650243666446, (-17)); (36124303763591592, (-17)); (44838981465380678, (-17)); (88855731929613635, (-17)); (87286816952387958, (-17)); (72761312526266564, (-17)); (58749429220964411, (-17)); (79099177835946266, (-17)); ((-29309671005302163), (-17)); (41061388829366974, (-17)); (61951528215178886, (-17)); ((-21630277817740642), (-18)); (99135582093669572, (-17)); (13403819732002871, (-16)); (49617284638084937, (-18))];
  [(2659281087790516, (-16)); (45874270486040714, (-17)); (9330060269553947, (-16)); (72895359836267015, (-17)); (68128225233804296, (-17)); (75722785505049361, (-17)); (91563591399189037, (-17)); (39271441036643684, (-17)); (34812354061651885, (-17)); (28678238167004566, (-17)); (17523223595409254, (-18)); (10851864723005311, (-17)); (86493019279018846, (-17)); (24360670145167185, (-17)); (30201554697618072, (-17)); (15361540456363409, (-17)); (76705518118079796, (-18)); (59195016296991954, (-17)); (67445716246900922, (-17)); (86775528431165039, (-17)); (4075884713531861, (-16)); (37071488041123585, (-17)); (44146854872050378, (-17)); (37262567766501575, (-17)); (46330783238861734, (-17)); (1022291957735717, (-15)); (62340325420212972, (-17)); (59357700112693412, (-17))];
  [(18490670845545898, (-18)); (38539453485335717, (-18)); (51951196315809178, (-17)); (92416055575925726, (-17)); (28373126082681288, (-17)); (46720337955823521, (-17)); (28102509736414183, (-17)); (9376201215658041, (-16)); (16817421783399933, (-17)); (55887704158096063, (-17)); (34530412218766426, (-17)); (50942934346817181, (-17)); (24537143844870746, (-17)); (51646410729043102, (-17)); (73581468442568276, (-17)); (73637600284244475, (-17)); (39744706988597434, (-17)); (42893882005225026, (-17)); (93573827180264213, (-17)); (63774449381739173, (-17)); (4054363271393665, (-16)); (34036768206524326, (-17)); (10374493284847801, (-16)); (94698837439312045, (-17)); (56804831904131747, (-17)); (79584430999081124, (-17)); (10445684373596804, (-16)); (48264251215823573, (-17))];
  [(12546192759380093, (-17)); (95207595126008071, (-18)); (74891710139709011, (-17)); (752690132174479, (-15)); (67318168441244541, (-17)); (84379500118442419, (-18)); (80454823645724316, (-18)); (76688131574604179, (-17)); (73087579158932703, (-17)); (21835608720959743, (-17)); (28096012220616107, (-17)); (13294840591569779, (-17)); (33592963466363013, (-17)); (10013663678227758, (-17)); (35698056490230612, (-18)); (26849926706226979, (-17)); (91936060061564773, (-17)); (51432483223594394, (-17)); (70721448141462528, (-17)); (20133043119142136, (-17)); (40933568849497948, (-17)); (44546088479353352, (-17)); (7545585535757314, (-17)); (25254158848982844, (-17)); (26843249450606776, (-17)); (68336426955345131, (-17)); (10892748695013057, (-16)); (11647933377284114, (-16))];
  [(95977200039893962, (-18)); (41447416450304753, (-17)); (21239870726636167, (-17)); (95369720136956371, (-17)); (59554211284686775, (-17)); (44616250485032427, (-17)); (26778174586501358, (-17)); (285910825653655, (-15)); (63797311038442739, (-17)); (17296436492996214, (-17)); (20967056837027853, (-17)); (7931613434237399, (-16)); (73919604569084407, (-17)); (19889626839903463, (-17)); (2337370303486882, (-16)); (13186950522474239, (-17)); (77785440517692683, (-17)); (29588832235501117, (-17)); (29946379488439845, (-17)); (9842281691544974, (-16)); (72717541300255939, (-17)); (85116120955006458, (-17)); (30248999497929518, (-17)); (25974626375202581, (-17)); (23520113106078638, (-17)); (55449575583525712, (-17)); (6354141494616673, (-16)); (53275669295097949, (-17))];
  [(89854793324390736, (-17)); (39247142744369135, (-17)); (72371958211315812, (-19)); (32108757808330846, (-17)); (76141310229978354, (-17)); (62651128212132712, (-17)); (57926713362489368, (-17)); (788411893042965, (-15)); (22975317643312076, (-17)); (50635723767315122, (-17)); (9007061963262204, (-16)); (21854018825652455, (-17)); (14184804292426068, (-17)); (35627562934089496, (-17)); (14708839171623689, (-17)); (67547970915277744, (-17)); (29185842909960058, (-17)); (5385171219712761, (-16)); (93630073950399972, (-17)); (89632942311928021, (-17)); (85751246131764602, (-17)); (43094443807121907, (-17)); (7039263838714509, (-16)); (85634795576315392, (-17)); (34577720996708811, (-17)); (73369195633267037, (-17)); (12022178403955659, (-16)); (59880834361647184, (-17))];
  [(33412714868795534, (-17)); (74755490216786791, (-17)); (95799110424572009, (-18)); (93648430007456485, (-18)); (61498628785321885, (-17)); (21994460086530088, (-17)); (11067129561969646, (-18)); (92365373197686829, (-17)); (55019683201922209, (-17)); (47202973565726847, (-17)); (96210652890532733, (-17)); (73696362075616395, (-17)); (70254593723785497, (-17)); (62342789344311744, (-17)); (78721269748146472, (-17)); (5125507544454343, (-16)); (98195771588191794, (-17)); (47018594233034794, (-17)); (15239604680470753, (-17)); (28456035458869355, (-17)); (17116825532598643, (-16)); (67711101041871236, (-17)); (16380606379788828, (-17)); (12264359260104709, (-16)); (51746326561835576, (-17)); (30350370478761868, (-17)); (11668592072671502, (-16)); (33746009968542323, (-17))];
  [(10257249012108327, (-17)); (65411256398205131, (-17)); (63984403036076898, (-17)); (39286917940043209, (-17)); (84841175384400058, (-17)); (83626131738227194, (-18)); (22034828482783919, (-17)); (20363496569547723, (-17)); (37980046414859947, (-17)); (64858647560689708, (-18)); (24361656139167964, (-17)); (38111399098021881, (-17)); (50924889326819034, (-17)); (53857529821096661, (-17)); (34890140933655334, (-17)); (15263049597976708, (-17)); (90393844393036016, (-17)); (80631782050858247, (-17)); (12430877343182256, (-17)); (29023063129223842, (-17)); (58261889834046166, (-17)); (36628139954345318, (-17)); (23693741204206065, (-17)); (69284232993330674, (-17)); (41941475339088868, (-17)); (45368349748961401, (-17)); (13135211244922775, (-16)); (66312466900701561, (-17))];
  [(66194433522636931, (-17)); (86605307562906764, (-17)); (23508854342352314, (-17)); (53021163477413069, (-17)); (96909120782451541, (-17)); (26374515233785201, (-18)); (93490185575817364, (-17)); (73311306953044308, (-17)); (23923161211717381, (-17)); (9512878176759394, (-16)); (51534517129195556, (-17)); (8305544196105662, (-16)); (86662908318907639, (-17)); (97639038911683496, (-17)); (68743922883150932, (-17)); (16527371468205176, (-17)); (39800980444338385, (-17)); (43485563791117388, (-17)); (81986579692195616, (-17)); (10388312149940691, (-16)); (11828026202874082, (-16)); (14248658437492079, (-17)); (79242813329582129, (-17)); (12846182473284662, (-16)); (72733963016757303, (-18)); (99079807240873308, (-17)); (10532947372055186, (-16)); (18244068088784238, (-17))];
  [(54479207467304225, (-17)); (53619665493379842, (-17)); (43102069412667277, (-17)); (63577120409191346, (-17)); (62045772318738424, (-18)); (20995888051504441, (-17)); (20641480842396398, (-17)); (42904986004023893, (-17)); (97173121185569478, (-17)); (16312196545028024, (-17)); (68866754447441614, (-18)); (23339002822949384, (-17)); (1762604886954211, (-16)); (18639077386936787, (-17)); (40107993414540788, (-17)); (71215574932768488, (-17)); (13999656820960604, (-18)); (96674222074396687, (-17)); (62942661740220462, (-17)); (20627715747865671, (-17)); (10671986332559509, (-17)); (23493001743475789, (-17)); (48256526906956954, (-17)); (39567351727467781, (-17)); (83266896995625506, (-17)); (65983030678078414, (-17)); (25260734085975345, (-17)); (7506769139459375, (-16))];
  [(36545123436020377, (-17)); (362523541182043, (-15)); (32868270473657513, (-17)); (58650441894892269, (-17)); (65817290396246009, (-17)); (28978818949692697, (-17)); (35297804768686203, (-17)); (15298266077072509, (-17)); (79951077804262183, (-17)); (20341148546846333, (-17)); (60472715699965562, (-17)); (91736485556698799, (-17)); (59334528052926361, (-17)); (22111426970744652, (-17)); (23831305000413538, (-17)); (74544846775481777, (-17)); (9744682420684424, (-16)); (16667645300543166, (-17)); (53279768048003651, (-17)); (95674939252102631, (-17)); (91003750403730266, (-17)); (90390223733355812, (-17)); (48776167239823615, (-17)); (35811102632997316, (-17)); (73192937131422842, (-17)); (73573620067355083, (-17)); (65229096886039595, (-17)); (83294900851806364, (-17))];
  [(96115751158017848, (-18)); (7479531410081377, (-16)); (59213772244723395, (-17)); (17516669982481081, (-17)); (10559108935943595, (-17)); (38564260592738842, (-17)); (12360516956447798, (-18)); (69457583130129608, (-17)); (89889802656611706, (-17)); (84755346135955956, (-17)); (20640817125493438, (-17)); (23592319282465035, (-17)); (54925664949563779, (-17)); (476465305498598, (-15)); (97445485020195199, (-17)); (3855828334578647, (-16)); (6242464519494515, (-16)); (1758070731841217, (-16)); (84563289441774592, (-17)); (57374634947450862, (-18)); (38421486121594139, (-17)); (58977408248236485, (-17)); (14039555604993992, (-17)); (63094831510129401, (-18)); (48720936930688641, (-17)); (13984855067628504, (-17)); (85948666648799654, (-17)); (11520725287990556, (-16))];
  [(55644637338428848, (-17)); (97903678541309547, (-17)); (86155765217308222, (-17)); (36076170977731559, (-17)); (31276467594751522, (-17)); (76379642720320351, (-17)); (23943725709687558, (-17)); (24331131564628095, (-17)); (70839576971554297, (-18)); (19972351262198118, (-17)); (42665032871193431, (-17)); (3207293567897761, (-16)); (62844812628583246, (-17)); (53143054891211494, (-17)); (2564787067068216, (-16)); (54161975399498119, (-17)); (84228915222548728, (-17)); (46235347246635627, (-17)); (73492155458149777, (-17)); (4916987925341284, (-16)); (62480652486011801, (-17)); (65472815866997669, (-17)); (51992874366699138, (-17)); (70351062999047687, (-17)); (7158185033102904, (-16)); (80806673391650974, (-17)); (10912460803132207, (-16)); (11580469401318323, (-16))];
  [(37473666303832132, (-17)); (45318890734750117, (-17)); (45883154167828821, (-17)); (25461307462376082, (-17)); (83252580199393844, (-17)); (61074037640156709, (-17)); (63708501570606468, (-17)); (12981639100462306, (-17)); (39904072810324875, (-17)); (51327426263570708, (-17)); (93065302629058921, (-17)); (92706649707468003, (-17)); (76892503565615733, (-17)); (67472596340808966, (-17)); (68989375381899398, (-17)); (67725804107331, (-14)); (28465737492162346, (-17)); (28274352703713024, (-17)); (62647403297752857, (-17)); (94507386810356175, (-17)); (13137336616251538, (-16)); (12422861267048393, (-16)); (76216610250154715, (-17)); (97694285634252809, (-17)); (95391019120650433, (-17)); (53831864642217497, (-17)); (45221410014785096, (-17)); (53586385178924389, (-17))];
  [(64155655445607873, (-17)); (59020559438022069, (-17)); (50392511589491795, (-17)); (65888722864892335, (-17)); (37303241249312258, (-17)); (63959719054696329, (-17)); (51537588230601772, (-17)); (34961503139821204, (-17)); (1256313149129219, (-16)); (52600068224460272, (-17)); (36185313354647564, (-17)); (52664193337189302, (-17)); (25795182580277487, (-17)); (99578560578416409, (-18)); (85704599175343799, (-17)); (28948675284391201, (-17)); (2758546488394571, (-16)); (72838110580045434, (-17)); (43071356600794453, (-17)); (58386928583641773, (-17)); (35649252757072225, (-17)); (46436542625440969, (-17)); (44968317472933927, (-17)); (19320689434307012, (-17)); (36896615223344181, (-17)); (64671481987427937, (-17)); (36219134647862139, (-17)); (48152206937712677, (-17))];
  [(94668469864150384, (-17)); (19940738699080807, (-17)); (56182082757743812, (-17)); (53083934974146618, (-17)); (61795192884669192, (-17)); (53172520470650253, (-17)); (78525157778512866, (-17)); (82384284831073762, (-17)); (29453858654406928, (-17)); (12240532468629584, (-17)); (842963400538846, (-15)); (36698740892932447, (-17)); (12449052241588232, (-17)); (68752955053744891, (-17)); (30721989571847841, (-17)); (9817527079481343, (-16)); (11198437679972406, (-17)); (16645052888395373, (-17)); (79575927037247773, (-17)); (10953766611033731, (-16)); (54914770240689581, (-17)); (72994805682838815, (-17)); (15878417375251801, (-16)); (11777045892115083, (-16)); (85823877795792414, (-17)); (80580756208073223, (-17)); (7842295901540508, (-16)); (38052215815691037, (-17))];
  [(59156628831684033, (-17)); (65205798776868718, (-18)); (91795358872842459, (-17)); (61581924731881332, (-17)); (99517014844954244, (-17)); (44587359730377085, (-18)); (82442450962391733, (-17)); (7751623367798508, (-16)); (49306845379297903, (-17)); (5246304139745358, (-16)); (18942952367401744, (-17)); (78864498244994929, (-17)); (42112923293926119, (-17)); (29500669709030047, (-17)); (22773823448381181, (-17)); (85529478528497949, (-17)); (16602593937680921, (-17)); (89712357418054878, (-17)); (45217594847989262, (-17)); (68927064839404328, (-17)); (10850845099226758, (-16)); (3019546762299935, (-17)); (1001071227420496, (-15)); (10154138299605839, (-16)); (56676471769036507, (-17)); (72133981241304346, (-17)); (11860565740382543, (-16)); ((-19304966239261451), (-18))];
  [(84532518701488324, (-17)); (70748364855734713, (-17)); (63123774628255902, (-17)); (98390495901912545, (-17)); (50959630242876619, (-17)); (50414546208818356, (-18)); (49137639782798748, (-17)); (78195031650054725, (-17)); (33993911451894354, (-17)); (64721646187972481, (-17)); (62809144370851966, (-17)); (31396413359518394, (-17)); (53831783405002287, (-17)); (71138487291883845, (-17)); (17236995873297678, (-17)); (57419119182836365, (-17)); (5724197708305101, (-17)); (80444199385811499, (-17)); (28341171759598349, (-17)); (11471165484862098, (-16)); (9621346084572332, (-16)); (41150971405787684, (-17)); (12313597889114476, (-16)); (10656299202020016, (-16)); (51637959424488844, (-17)); (43322310404401743, (-17)); (25537979160869306, (-17)); ((-14692118028333279), (-17))];
  [(54779705790411815, (-17)); (34521213393621086, (-17)); (32234043417862324, (-17)); (46102989228557034, (-17)); (75897223182092555, (-17)); (45128143298754197, (-17)); (86303516415952797, (-17)); (37765502967060982, (-17)); (32801953877463141, (-17)); (25045238589628849, (-17)); (60190992983694747, (-17)); (50238920865649139, (-17)); (48345610375971049, (-17)); (92792590810544473, (-18)); (66902835880454836, (-17)); (48102720425689893, (-17)); (41348391179554478, (-17)); (13594319026130131, (-17)); (68585578121070379, (-17)); (96163477830362443, (-17)); (8235254589554114, (-16)); (59338091648802216, (-17)); (68297836539859746, (-17)); (66484160853529306, (-17)); (4361943532533285, (-16)); (90086367716657878, (-17)); (56340865492702796, (-17)); (44891923100820236, (-17))];
  [(85519478109159053, (-17)); (29039620433385682, (-17)); (19906615039098252, (-17)); (47468031606466499, (-17)); (21713049996352252, (-17)); (13023994593554467, (-17)); (93744020321098898, (-17)); (39894093484249182, (-17)); (48312898660858306, (-18)); (853271933213398, (-15)); (16953026318034736, (-17)); (46781563651480562, (-17)); (53602816598192538, (-17)); (84491854470743155, (-17)); (22501010074154582, (-17)); (52893314145094272, (-17)); (22946416047539198, (-17)); (27791294357079643, (-17)); (68742588290172035, (-17)); (50303515052854364, (-17)); (23838151054020007, (-17)); (34619504866876295, (-18)); (11983728003987459, (-16)); (49345998648422135, (-17)); (20457665076527976, (-17)); (7631874768424709, (-16)); (33446667814548342, (-17)); (67879750160282207, (-18))];
  [(18748585160177622, (-17)); (16735119966882939, (-17)); (36713481174773921, (-17)); (49728333633223487, (-18)); (46958561604719751, (-17)); (42770719952220937, (-17)); (93567466850137282, (-18)); (46774208400288808, (-17)); (85809622942920638, (-17)); (55003022243457789, (-17)); (34535599272020046, (-17)); (84147352335144887, (-17)); (4983384664730095, (-17)); (45710145099032007, (-17)); (40487776476112769, (-17)); (52122467712572895, (-18)); (77751540119095686, (-18)); (18983148442727504, (-17)); (80213725242539358, (-17)); (22047085624767961, (-18)); (42060563328881717, (-17)); (37340189513226751, (-17)); (67304523996062501, (-18)); (32845890304864472, (-17)); (35991525729203422, (-17)); (78946238660601603, (-18)); (46475943709667011, (-17)); (76281614253252972, (-17))];
  [(54349726393910225, (-17)); (47732785450585979, (-17)); (73787800921499602, (-17)); (23241986886275212, (-17)); (26985641852539044, (-17)); (85313357502399412, (-17)); (83474609937743993, (-17)); (6029635035763502, (-16)); (36929618024580879, (-17)); (10801215940326792, (-18)); (28111049021148748, (-17)); (74753168299085893, (-17)); (34503851647984363, (-17)); (53128426078523039, (-17)); (75303464361900929, (-17)); (99432697759960542, (-17)); (48474223101390557, (-17)); (86814438057615706, (-17)); (80744958181907134, (-17)); (61084194962591698, (-17)); (54089949681888216, (-17)); (96917438385382837, (-17)); (12906684353050251, (-16)); (10539904236797568, (-16)); (14004969935797844, (-16)); (11353389288726312, (-16)); (94942783323682467, (-17)); (13939955257595844, (-16))];
  [(9640205987135354, (-16)); (49714072530826614, (-17)); (23164344539829751, (-17)); (33647957636496362, (-17)); (3181222986173724, (-16)); (34614028026150734, (-17)); (21145473855023134, (-17)); (84582050513888818, (-17)); (66852547581220723, (-17)); (7809596553432363, (-16)); (27289476958231329, (-17)); (43791812684136233, (-17)); (71836238569819733, (-17)); (79815681870640764, (-17)); (94661542939248899, (-17)); (48485136959272701, (-18)); (85275211484346469, (-17)); (51580925767979346, (-18)); (72182861108891905, (-17)); (21085629940716258, (-17)); (71076236153217542, (-17)); (62788511968009708, (-17)); (32961432051285955, (-17)); (38416931921099234, (-17)); (43656951481965306, (-17)); (9158126353258631, (-16)); (10962072243794805, (-16)); (83491647416010573, (-17))];
  [(48258053323552685, (-17)); (76765047948652787, (-17)); (524241208812809, (-15)); (74369319311599313, (-17)); (3657667374403849, (-16)); (93698223721811791, (-17)); (24178813477286565, (-17)); (50957535212823868, (-17)); (83177752556413687, (-18)); (40808571440119834, (-17)); (84089747854235997, (-17)); (42846143468086928, (-17)); (48487045387647076, (-17)); (39831946580410071, (-17)); (25318973615324125, (-17)); (40886274861788663, (-17)); (44829483611776855, (-17)); (81272070476154856, (-17)); (76327721684439176, (-17)); (94831440453581195, (-17)); (97496539675536853, (-17)); (10369998305802826, (-16)); (51719716401348792, (-17)); (55469640159442757, (-17)); (53886691208045212, (-17)); (91456746409161194, (-17)); (79515857170631099, (-17)); (97578716269377153, (-17))];
  [(59536924787932188, (-17)); (8305210061750522, (-16)); (22217836364510801, (-18)); (73436311123883247, (-17)); (76865889198651516, (-17)); (61109564221292045, (-17)); (23246241160862424, (-17)); (70440582581477285, (-17)); (28863630104588223, (-17)); (67241320866222354, (-17)); (82077934754440485, (-17)); (28429733728718232, (-17)); (53184129129929836, (-17)); (14688509243405823, (-17)); (79032348658856599, (-17)); (29485439762760135, (-17)); (73346742452871161, (-17)); (41605207983324399, (-17)); (78964447899032797, (-17)); (93926752857428175, (-17)); (13247806282632659, (-16)); (61217420123910704, (-17)); (36510735378537668, (-17)); (43986697907670647, (-17)); (51046355603470539, (-17)); (94542590231893697, (-17)); (14189169607040697, (-16)); (7129988505649405, (-16))];
  [(5358498721199586, (-16)); (29756815646561929, (-17)); (25695437443565994, (-17)); (53471434917477745, (-17)); (12291896871364039, (-17)); (93843879359541449, (-17)); (41291039492320902, (-17)); (74955056261450881, (-17)); (64327820148395798, (-17)); (11137608144276112, (-18)); (36564924653963593, (-17)); (14869261747841278, (-17)); (1493010847594608, (-16)); (68854900273079611, (-18)); (36730954631857471, (-17)); (91234473705822661, (-17)); (82517643849310995, (-17)); (5602461800830385, (-16)); (77593963971363422, (-18)); (33836222925206927, (-17)); (23899133096744907, (-17)); (33291789071766492, (-17)); (60822169331532727, (-17)); (74835972706903042, (-17)); (94892758890882156, (-17)); (77530636823546173, (-17)); (37182514733084826, (-17)); (79467941530641584, (-17))];
  [(16413835706083257, (-17)); (14292244151293865, (-17)); (58223013966577331, (-17)); (87490179681240865, (-17)); (87557837633795477, (-17)); (86755094032674573, (-17)); (56246606579697711, (-17)); (89167276933962636, (-17)); (65024413683883708, (-17)); (42462157686526014, (-17)); (81158489946087398, (-17)); (18736615344692564, (-17)); (56898918815826216, (-17)); (81354303104723136, (-18)); (68122656551973604, (-17)); (64517706019423415, (-17)); (58133045535704764, (-17)); (11363736707424432, (-17)); (45251871474578975, (-17)); (87064534660044135, (-17)); (10442503717034444, (-16)); (11937885225034501, (-16)); (9013935002930431, (-16)); (1118614260729359, (-15)); (8668725727908847, (-16)); (63391336406424714, (-17)); (7728727123205521, (-16)); (87300502072493247, (-17))];
  [(92462519248004194, (-17)); (3205806711379271, (-16)); (29961626443615863, (-17)); (69782544739588315, (-17)); (91519313431577509, (-17)); (69732531715845902, (-17)); (91495964084180725, (-17)); (56655749823624146, (-17)); (57220948991763121, (-17)); (48806243260879123, (-17)); (2462638555087413, (-16)); (97743647511391818, (-17)); (30455940967777895, (-17)); (95397652443011416, (-17)); (98821298759974496, (-17)); (62380699299767317, (-17)); (70961089322813375, (-17)); (28253910475426358, (-18)); (83803416531735508, (-18)); (73901265630024426, (-17)); (99112955969989525, (-17)); (78465262326278684, (-17)); (18426264075491972, (-16)); (16831956645652439, (-16)); (13911498002822809, (-16)); (8935576927505986, (-16)); (57152590082711063, (-17)); (48120580238809163, (-17))];
  [(52617240632560391, (-17)); (38640426172839393, (-17)); (16100686358853122, (-17)); (94581757320223614, (-17)); (50560093973218379, (-17)); (93177393949667564, (-17)); (18874994001168044, (-17)); (47863460135496871, (-17)); (33127026228475998, (-17)); (2654592693263419, (-16)); (83766157220084803, (-17)); (25300639224416976, (-17)); (82505894424314508, (-17)); (69813592315250528, (-18)); (75463670041725195, (-17)); (47711190878650145, (-17)); (18070421899685529, (-17)); (90671904683489624, (-18)); (69979157904995237, (-17)); (98489097747906673, (-17)); (9161434387552434, (-16)); (8250316160132658, (-16)); (72740099884727316, (-17)); (55533376661649581, (-17)); (83261053556855213, (-17)); (33891472670533457, (-17)); (46133936059279906, (-17)); (3817656918258483, (-16))];
  [(36328176063793705, (-17)); (70083736829546917, (-17)); (43206419320236922, (-17)); (56551193332241623, (-17)); (88527431598948692, (-17)); (7274807668940827, (-16)); (17455373094319115, (-17)); (97147968118875383, (-17)); (36040411316779808, (-17)); (54703336963383364, (-17)); (77175067535048714, (-17)); (60411281640718839, (-17)); (60040404133871461, (-17)); (61428068719731166, (-17)); (13754008724997568, (-17)); (84119072730767441, (-17)); (81740873273583581, (-17)); (30608952893204844, (-17)); (65379027706239923, (-17)); (7488904617694836, (-16)); (16371356226123939, (-16)); (10327866144413187, (-16)); (55855842594016025, (-17)); (15216038685447153, (-16)); (81683805473417648, (-17)); (69817987115479152, (-17)); (16206643527743889, (-16)); (96796282370058939, (-17))];
  [(86397501379244057, (-17)); (71452607232601595, (-17)); (98853070456022818, (-17)); (38824928237486933, (-17)); (47790297063868481, (-17)); (20229319832772841, (-17)); (14639470622845674, (-17)); (49515653493164513, (-17)); (35628065139336873, (-17)); (7477939769725106, (-16)); (73859611708945494, (-17)); (69826059390486583, (-18)); (57662675981288791, (-17)); (36389186898011416, (-17)); (42173755543976343, (-17)); (28778896731252279, (-17)); (48217853000401711, (-18)); (18344823413489031, (-17)); (49163085848199317, (-17)); (72614044148336576, (-17)); (90303037672518371, (-17)); (80578394103426376, (-17)); (2409870452122013, (-16)); (3942516180591662, (-16)); (19538417953626386, (-17)); (59687056860837667, (-18)); (25950761828829261, (-17)); (12062973869029277, (-17))];
  [(6999509388530929, (-16)); (71902053094311213, (-17)); (41837435962212621, (-17)); (14736596539208402, (-17)); (89172334924599062, (-17)); (16497936950657321, (-17)); (47252337222925567, (-17)); (19975394571427418, (-17)); (88491882032159919, (-17)); (68956738750690938, (-17)); (53621259411811251, (-17)); (83229167493060008, (-17)); (82265270994091111, (-17)); (60075908092147445, (-17)); (55621035585482692, (-17)); (39841547482613859, (-17)); (36503920298633441, (-17)); (51076986080490294, (-17)); (4416612360075548, (-16)); (45256382207246959, (-17)); (95786600517448361, (-17)); (84174945936395595, (-17)); (38456297346359136, (-17)); (88189994458024223, (-17)); (53228725779076114, (-17)); (27067139614604696, (-17)); (61557141830077755, (-17)); (47603925711538719, (-17))];
  [(72240447831989607, (-17)); (36760044060297425, (-18)); (695505010932844, (-15)); (94011220100916482, (-17)); (81949242922923549, (-17)); (73586270275226573, (-17)); (28635256286141741, (-17)); (37307747243591816, (-17)); (95856298095938364, (-17)); (69334475177984145, (-17)); (52958304601082529, (-17)); (33622066373469428, (-18)); (91723289394419538, (-18)); (10582109341809121, (-17)); (53470961335149891, (-17)); (76043742083301358, (-17)); (73367640897806241, (-17)); (92626633563561134, (-17)); (96301958764117701, (-17)); (64748801792500399, (-17)); (34696236926290414, (-17)); (62435426946527883, (-17)); (47987830726417902, (-17)); (66657300730972824, (-17)); (90024385215810432, (-17)); (13663054982337806, (-16)); (13263332017625495, (-16)); (17731216148759295, (-16))];
  [(58640427681891771, (-17)); (47027866153999687, (-17)); (53929822414158279, (-17)); (56514345168821145, (-17)); (23934413249320385, (-17)); (95508935675725337, (-17)); (5654182096655157, (-16)); (17481535792596148, (-17)); (26736644362473161, (-17)); (43381479539812617, (-17)); (691207533417315, (-15)); (17391787223902433, (-17)); (92579994156906287, (-17)); (95053081972067399, (-17)); (77466680275547828, (-17)); (10247023971086189, (-17)); (50068516162126986, (-17)); (59219213704750862, (-17)); (76954996255177821, (-17)); (11017570322012482, (-16)); (52972346640503298, (-17)); (97455128400960922, (-17)); (99579937404418872, (-17)); (53425322746521509, (-17)); (13698644057859983, (-16)); (97816725195590259, (-17)); (41009792811179602, (-17)); (10307251234721473, (-16))];
  [(93152708728430489, (-17)); (95094768958234954, (-17)); (71807804361124139, (-17)); (92791299681613904, (-17)); (22621728286859033, (-17)); (2589061252598549, (-16)); (22930176342419317, (-17)); (52948138886657314, (-17)); (67821587937302785, (-17)); (77958923217804854, (-17)); (14325440002825651, (-17)); (60856136101958747, (-17)); (79026774628719754, (-17)); (72843950901822452, (-17)); (72618936620111318, (-19)); (69490023944955159, (-17)); (7928538459080704, (-16)); (92014299167179903, (-17)); (66260707054880963, (-17)); (37265568290046225, (-17)); (22918213352729605, (-17)); (44006098757105083, (-17)); (11171422075127719, (-16)); (97274814399471476, (-17)); (97355854503303241, (-17)); (11990697001839106, (-16)); (54606284584109499, (-17)); (70354790502985276, (-17))];
  [(95876057162975759, (-19)); (88919253406106114, (-17)); (3733171289500925, (-17)); (46750545219536765, (-17)); (91897873379325434, (-17)); (44390875988215484, (-17)); (13572209050277328, (-17)); (96807573014261505, (-17)); (32450587992263746, (-18)); (80632433227676781, (-17)); (38040664290305137, (-17)); (32548625597518566, (-17)); (85611094847410141, (-17)); (17084008590662592, (-17)); (40432506686752501, (-17)); (9575251618230477, (-16)); (79694944857846084, (-17)); (31612824143892815, (-17)); (8077516191113373, (-16)); (35014552952083344, (-17)); (13133639392848386, (-16)); (25072640291799819, (-17)); (31677243407065631, (-17)); (11431122540786138, (-16)); (20355851929166183, (-17)); (48393328123522095, (-17)); (17992479268373744, (-16)); (39075341523498142, (-17))];
  [(8273587561551764, (-16)); (97320800682357977, (-17)); (17297419596023, (-14)); (10939298658264485, (-17)); (59212373807585539, (-17)); (97992217855593922, (-17)); (13695950679532143, (-17)); (35655944172398035, (-18)); (80994667324427838, (-17)); (25655513445451794, (-17)); (63899823873019479, (-17)); (89489643614893033, (-17)); (12410753363089955, (-17)); (58423484364759659, (-17)); (69296451381055324, (-17)); (81505753803213765, (-17)); (47885062216161778, (-17)); (75604373115931778, (-17)); (93328297412165218, (-17)); (45292700152957083, (-17)); (99350962786369157, (-17)); (11752711419683577, (-16)); (52324013213761866, (-17)); (89257824866488389, (-17)); (15295862116639531, (-16)); (44560170669390681, (-17)); (80230632751633657, (-17)); (16385269532184041, (-16))];
  [(67983096515124297, (-17)); (51593370946392192, (-17)); (11770996858391747, (-17)); (72133133802634264, (-17)); (62101782671283279, (-17)); (67344133628124014, (-17)); (80663601178744182, (-17)); (57000968637529748, (-17)); (28232793455402805, (-17)); (32895707787908235, (-17)); (64948300516355917, (-17)); (58957966307307719, (-17)); (43141924308842228, (-18)); (49125786168018459, (-17)); (60804072092202877, (-17)); (16936435969565133, (-17)); (59721573269180872, (-17)); (19633939826733249, (-17)); (86373187976668797, (-17)); (87700542234974621, (-17)); (7202540068576383, (-16)); (5791702733054005, (-16)); (84869908882674494, (-17)); (69097474248261526, (-17)); (57382079970262601, (-17)); (13110333772086513, (-16)); (98642056596601324, (-17)); (55798142410390383, (-17))];
  [(50350507137303147, (-17)); (98337922626363949, (-17)); (92577793375091844, (-17)); (59503236850254049, (-18)); (71584709956219728, (-17)); (94602410092410039, (-17)); (3969693832753618, (-16)); (62349186035405713, (-17)); (9792981110754323, (-16)); (32317545753008314, (-17)); (103358889276983, (-15)); (3190880679856879, (-16)); (78603765679854964, (-17)); (5560540936120123, (-16)); (51369870535465378, (-17)); (59149831677301024, (-17)); (66254028029082934, (-17)); (25631391806009363, (-17)); (32578628555014821, (-17)); (33031447220717958, (-17)); (72690669788598417, (-17)); (10839754827589974, (-16)); (45763916775715296, (-17)); (12019757185705908, (-16)); (15442279714869036, (-16)); (43164675620409354, (-17)); (10654816588393694, (-16)); (12542743513066343, (-16))];
  [(48020898045092608, (-17)); (30772598952818453, (-17)); (3254616188410131, (-16)); (40494030452813901, (-17)); (81574417278509592, (-17)); (89861649601871019, (-17)); (85210779848368379, (-17)); (77983509240869464, (-17)); (30579504089673271, (-17)); (25735767091894046, (-17)); (67023963767775441, (-17)); (23949404261997553, (-17)); (2227495034765683, (-16)); (18466573814849185, (-17)); (97393942618313356, (-18)); (86923151396774956, (-17)); (70796671684921209, (-18)); (36359871107660313, (-17)); (19605906646147697, (-17)); (63465633814129252, (-17)); (68249949407397048, (-17)); (62065306912126295, (-17)); (87170547750926874, (-17)); (84035763556855536, (-17)); (44273535724739244, (-17)); (30518342748545568, (-17)); (44701814171507903, (-17)); (38428442893593018, (-17))];
  [(65538313863336051, (-17)); (18827258350382714, (-17)); (59307045700264904, (-18)); (43515108435657868, (-18)); (97528148440585094, (-17)); (93539579290001873, (-17)); (23322917808997534, (-18)); (50610808455846046, (-17)); (17327397062058703, (-17)); (94574715396284748, (-17)); (12957506588455736, (-19)); (6659485324789407, (-16)); (68555387700908166, (-17)); (76339239346041776, (-17)); (40866501887823337, (-17)); (91203414893563228, (-17)); (73489661906219617, (-17)); (63408462271826227, (-17)); (42548099172883769, (-17)); ((-32044513042076883), (-17)); (6264962059265583, (-16)); (45228510966273439, (-17)); (1341736648419482, (-16)); (13202666746975871, (-16)); (96761297148182734, (-17)); ((-31722090060863455), (-19)); (11425665971945262, (-16)); (97324041950103002, (-17))];
  [(82638489799375814, (-17)); (84595364441367971, (-17)); (10430503288264481, (-17)); (92909208112311048, (-17)); (56006031872716411, (-17)); (6611168159184394, (-16)); (62016728637834062, (-17)); (29182970918149331, (-17)); (9170106606239431, (-16)); (10737659331934746, (-17)); (66492783437773417, (-17)); (35152050714060679, (-17)); (7060017292176598, (-16)); (61993011438557, (-14)); (74486823922699374, (-17)); (71566973112708132, (-17)); (88044925888097669, (-17)); (90514117737381883, (-17)); (87785663343014408, (-18)); (13439503481241062, (-16)); (96907057930884677, (-17)); (99060678206704544, (-17)); (16370094184880026, (-16)); (11147127107888957, (-16)); (1245771892363055, (-15)); (16214619121989648, (-16)); (12409471798673175, (-16)); (81902808817555484, (-17))];
  [(26750928775635019, (-17)); (37167165176563599, (-17)); (63290945320107261, (-17)); (92009992078471048, (-17)); (79524862883575687, (-17)); (63260644954608447, (-17)); (25880192821963899, (-17)); (76930661257014066, (-17)); (48368690002545067, (-18)); (96364376698879939, (-17)); (91261590085258026, (-18)); (44595555146661137, (-18)); (33776465561632951, (-17)); (15173639069530853, (-17)); (12648485133931697, (-17)); (45783080177911872, (-17)); (60256286946543713, (-17)); (67510529454772283, (-17)); (32031216037308186, (-18)); (18391771704352136, (-17)); (34542233260607236, (-17)); (89620789262317563, (-18)); (2949154632614539, (-16)); (50226896455399883, (-17)); (13567482392629568, (-17)); (76165826084085508, (-17)); (6461927892427769, (-16)); (42493468356374325, (-17))];
  [(55556904773798232, (-17)); (37611562131304299, (-17)); (34555697328680268, (-17)); (89105646744927169, (-17)); (61012646284341221, (-17)); (57443428805722452, (-17)); (10787186044235064, (-17)); (86062246129036102, (-17)); (83538346344538938, (-17)); (74226488619031139, (-18)); (94843733128252372, (-17)); (89468453435237738, (-17)); (81320086350120735, (-17)); (12085173420420436, (-17)); (7645317087714153, (-16)); (57243616510169593, (-17)); (44888129334906568, (-17)); (11186091854132207, (-17)); (33404546818367153, (-17)); (14340232916662252, (-16)); (1617924751973381, (-15)); (15361690340956407, (-16)); (78455849917975296, (-17)); (98730075321187205, (-17)); (9433701659906033, (-16)); (4091849841194492, (-16)); (54110483211789762, (-17)); (51407822377317014, (-17))];
  [(37389298106006663, (-17)); (27308635419530691, (-17)); (50512387216458532, (-17)); (60183855610782122, (-17)); (17374408286615617, (-17)); (79467370166059104, (-17)); (55078699005458787, (-17)); (93547224196178402, (-17)); (84270663714481664, (-17)); (33323128491311094, (-17)); (92792104102926087, (-17)); (90103896801953842, (-17)); (86450799945606005, (-18)); (65988239277670369, (-17)); (62071019239346037, (-17)); (90440579434184476, (-17)); (82304841261568595, (-17)); (17871892847790316, (-17)); (71076877198676347, (-17)); (96039728217561193, (-17)); (44052248963481744, (-17)); (12847533145442906, (-16)); (11382975474399761, (-16)); (11003070315649592, (-16)); (16122335625087472, (-16)); (92409740192231327, (-17)); (93745754790063618, (-17)); (13104631187220956, (-16))];
  [(84038401295318255, (-18)); (5072967179362774, (-16)); (85713316243604409, (-17)); (97165372407504358, (-17)); (60655109490451942, (-17)); (17954917850941843, (-17)); (3933225696618472, (-16)); (19955221564721293, (-18)); (99249150883056625, (-17)); (53910988263393478, (-17)); (68729196459058572, (-17)); (28846203861410535, (-17)); (62358003263889805, (-17)); (80895349671620065, (-17)); (17195596223901333, (-17)); (41621747840181889, (-17)); (46396219049622667, (-17)); (63279778225486072, (-17)); (90948118671366207, (-18)); (86575603012225921, (-17)); (60069204722739644, (-17)); (11053112269498047, (-16)); (76153594815961423, (-17)); (65710056177656384, (-17)); (10335239206258546, (-16)); (80101749506812281, (-17)); (51285400326465458, (-17)); (29335877290750972, (-17))];
  [(21769193570519385, (-17)); (89792427965145483, (-17)); (16216213016839731, (-17)); (78341468414686322, (-17)); (27788684205532788, (-17)); (91668640065365015, (-18)); (15618979442101089, (-17)); (5336431744629011, (-17)); (31999040210992213, (-17)); (98652144048890844, (-17)); (71428438525769922, (-17)); (58523273521714658, (-17)); (12424164665497128, (-17)); (86227272223723128, (-17)); (17498466230037846, (-17)); (28902122205044878, (-17)); (52568625050735573, (-17)); (77911094743180775, (-17)); (73179873964096254, (-17)); (71855701047601173, (-17)); (17735476060165942, (-17)); (10869510736578789, (-17)); (75598105588850939, (-17)); (53812750015176003, (-17)); (22072267279604274, (-17)); (7161400222342077, (-16)); ((-42840202485306234), (-18)); (25539628673256526, (-17))];
  [(86419905067659963, (-17)); (70874794999221413, (-17)); (63763111454034793, (-17)); (72930565594119823, (-17)); (66693042950050097, (-17)); (96652854733027449, (-17)); (27539757161540268, (-17)); (71774651982999815, (-17)); (17301765341328001, (-17)); (51796640613943912, (-17)); (26749109684443184, (-17)); (48080177127255208, (-18)); (64436473562581698, (-17)); (54805328632933259, (-17)); (94042918524857144, (-17)); (99625209211071175, (-17)); (76754138342965783, (-17)); (345905465228869, (-15)); (1403246240540944, (-16)); (48478097941958326, (-17)); (72652165464739604, (-17)); (4128763234498854, (-16)); (10772684412026374, (-16)); (14484299814399, (-13)); (1231081461948468, (-15)); (96327204696872559, (-17)); (90585350432849909, (-17)); (99806163495546096, (-17))];
  [(96263037004899388, (-17)); (51687251528946321, (-17)); (91616517665050035, (-17)); (34711808995413995, (-17)); (94451406698023221, (-17)); (48698253656418633, (-17)); (39324047160994224, (-17)); (74144521970456589, (-17)); (28503421810817287, (-17)); (68203161492304465, (-17)); (6276657917008639, (-16)); (67455162262850576, (-17)); (26995324955844746, (-17)); (77021238194269537, (-18)); (29919564509768182, (-17)); (25968852574838952, (-17)); (21771452896303889, (-18)); (54148302768211576, (-17)); (93484429415913939, (-17)); (48498328576877275, (-17)); (11005234850273959, (-16)); (58146936068791999, (-17)); (75596646620767455, (-18)); (39119911367811733, (-17)); (92758187032988715, (-18)); (20598311836952687, (-17)); (93543354806031875, (-17)); (18061353810715147, (-17))];
  [(58580118968520334, (-18)); (65740061232448377, (-17)); (14822445634804959, (-17)); (47461515191329173, (-17)); (39155300749012667, (-17)); (35444938198578535, (-17)); (50880395021722591, (-17)); (29370681015201583, (-17)); (76148489780913531, (-17)); (45100651239832146, (-17)); (81995540292269975, (-17)); (90150429430670453, (-17)); (13030254437506161, (-18)); (55801510865982396, (-18)); (49481057802601536, (-17)); (47889238976030701, (-17)); (63626445031023848, (-17)); (57285760068657221, (-17)); (81014116032868233, (-18)); (58155141152895828, (-17)); (68827839118969758, (-17)); (47532902221033457, (-17)); (45687608528195051, (-17)); (21578098078407615, (-17)); (5066146317854836, (-16)); (43646427835785984, (-17)); (54656769099836922, (-17)); (39060553028889838, (-17))];
  [(44395754404521526, (-17)); (74124762204579342, (-17)); (87456328279354345, (-17)); (25060589650075882, (-17)); (85230830136098201, (-17)); (97422965997341571, (-17)); (27916005407160371, (-17)); (55764623924777712, (-17)); (625516741239593, (-15)); (13635092638716617, (-17)); (59060063092274184, (-18)); (91433015397947559, (-17)); (45154698919958114, (-17)); (10365791331694962, (-17)); (51656226074332112, (-17)); (64983076756687908, (-17)); (43974753441809655, (-17)); (89980387423802566, (-17)); (218817224120334, (-15)); (32587561952368282, (-17)); (9819507752158807, (-16)); (11152495681107908, (-16)); (32760968871150875, (-17)); (83464458615076609, (-17)); (94719235024202275, (-17)); (43858518186957401, (-17)); (11650360738574992, (-16)); (13376375395635054, (-16))];
  [(29782882954743128, (-17)); (45133623977100656, (-17)); (63707883405175325, (-17)); (84448173397368065, (-17)); (67147045218675527, (-17)); (85157006878526453, (-18)); (29439138486753558, (-17)); (28784546973255642, (-17)); (28132035660512689, (-17)); (1364929020774881, (-16)); (53863816756393135, (-17)); (95650440940685078, (-17)); (86644737609202327, (-17)); (47801974226802901, (-17)); (22832488390919869, (-17)); (8809234872738988, (-16)); (81910563641443324, (-17)); (25134038228386268, (-17)); (47531789638862942, (-17)); (1237373635215147, (-15)); (11170114172420529, (-16)); (58773302209767975, (-17)); (63707851319061526, (-17)); (64885127301640977, (-17)); (55453434192428164, (-17)); (67582836827994164, (-17)); (72967308409504872, (-17)); (65960561866353729, (-17))];
  [(47201385691401065, (-17)); (35955060444427389, (-17)); (20207498891406261, (-17)); (29711250549557844, (-17)); (81167090921759344, (-17)); (34904386891898875, (-17)); (79216971034555461, (-17)); (2418542825597646, (-16)); (44410977423021702, (-17)); (32963388272636951, (-17)); (81976435131074743, (-17)); (79501244137083715, (-17)); (70887748346514645, (-17)); (17701773086629879, (-17)); (8314487493228474, (-16)); (35410719309585947, (-18)); (97538874151902744, (-17)); (98217602283863337, (-17)); (21692712197116704, (-17)); (11085206955981977, (-16)); (11837227886680257, (-16)); (77472679303393377, (-17)); (23082943956058999, (-17)); (65705349769910704, (-17)); (28977290722944071, (-17)); (82729973813031377, (-17)); (12805259339914421, (-16)); (65315315139082386, (-17))];
  [(88299144202296076, (-17)); (74150459169059868, (-17)); (34130421070320172, (-17)); (26130870532398642, (-17)); (91246456351094862, (-17)); (65853965968253769, (-18)); (98456134383278304, (-17)); (99676399927399528, (-17)); (82341883584734044, (-18)); (62608763081632335, (-17)); (36072359822830835, (-17)); (97893860359168283, (-17)); (94040433929412959, (-17)); (50617678037995184, (-17)); (81972825527501136, (-17)); (3922103586058947, (-16)); (13596073025094146, (-17)); (719479979721936, (-15)); (11456125908876758, (-17)); (93999074790720094, (-17)); (16454458695418723, (-16)); (47573590008220007, (-18)); (57527119908009972, (-17)); (12156532658279287, (-16)); (71620457501401225, (-18)); (10969711293537215, (-18)); (48794091373296317, (-17)); ((-53218006071148502), (-18))];
  [(50474150386335548, (-17)); (94614848234734594, (-17)); (32205671275959635, (-17)); (15261904015737793, (-17)); (95628637183452325, (-17)); (5414542847767484, (-16)); (50350869249367536, (-17)); (77710154703968615, (-17)); (14477690974568636, (-17)); (61157919144921336, (-17)); (44892018938681988, (-17)); (96832364971923346, (-17)); (32310138738730965, (-17)); (51054244505697843, (-18)); (72412270946264023, (-17)); (8593141905292806, (-16)); (26601071250213715, (-18)); (77134730877508351, (-17)); (23653306924266559, (-17)); (22791449797567603, (-17)); (10774419502154629, (-16)); (55492471672280952, (-17)); (3388746129212723, (-16)); (90893540146991958, (-17)); (34085541094404803, (-17)); (5265924343857975, (-18)); (40392244429228474, (-17)); (24884397862231417, (-17))];
  [(10846366051026179, (-18)); (51065197092078574, (-18)); (75591206199466243, (-17)); (37415006544228124, (-17)); (47430872634631893, (-17)); (94203712047093857, (-17)); (375173780801073, (-15)); (17871111030175368, (-17)); (20147450171770098, (-17)); (85520298629231561, (-17)); (9883765866369647, (-16)); (21883961230994675, (-17)); (53445920177454753, (-18)); (77888964786347659, (-18)); (65348234429229402, (-17)); (41442775305529844, (-17)); (74062545135064684, (-17)); (82359263536884875, (-17)); (93591720945935719, (-17)); (35810167931923981, (-17)); (45613015064020385, (-17)); (12140321968359273, (-16)); (33308938979105007, (-17)); (28271801419158576, (-17)); (20857155307112957, (-17)); (76095711692162515, (-17)); (68173060869453472, (-17)); (11215748127129681, (-16))];
  [(16278214892247722, (-17)); (45866241095648075, (-17)); (64990678282635173, (-17)); (27844465263066298, (-17)); (16059280380815166, (-18)); (61039073571088653, (-17)); (46475763499717071, (-17)); (81696658253990195, (-17)); (14125320072427738, (-17)); (48257324134484436, (-17)); (34024087227962541, (-17)); (33240971293847676, (-17)); (60052153420833565, (-17)); (15294212482536151, (-17)); (6852661891620585, (-16)); (80206573253041258, (-18)); (77413801470621579, (-17)); (68816549183088593, (-17)); (91601190973178859, (-17)); (42899907210211907, (-17)); (56535264589833789, (-17)); (45655077788621662, (-17)); (19634580460387407, (-17)); ((-730467623022929), (-17)); (30653943114780668, (-17)); (75512878464405286, (-17)); (93195642441399873, (-17)); (9588676665719339, (-16))];
  [(22430000357237079, (-17)); (53871059171032742, (-17)); (24614989854358205, (-17)); (34349102554415201, (-17)); (84174904886111968, (-17)); (9248959465232236, (-16)); (12053064812803294, (-17)); (99833655595756454, (-17)); (64256311470391358, (-17)); (41538562921786615, (-17)); (24467174364642974, (-17)); (10269956113696854, (-17)); (40965883865554431, (-17)); (53469659485852605, (-17)); (55236921075384537, (-17)); (22510558059412367, (-17)); (35364023823052537, (-17)); (86244564756218933, (-17)); (24871160983705498, (-17)); (15648482778716166, (-17)); (66945610252773924, (-17)); (48636358196048401, (-17)); (33458322040430688, (-17)); (97524491946576675, (-17)); (87720601893782779, (-17)); (34455884229007067, (-17)); (10194700031496431, (-16)); (10156203891017614, (-16))];
  [(69275310531697476, (-17)); (31980395900661596, (-17)); (25053861849650105, (-17)); (6183115681875414, (-16)); (67287210372099404, (-17)); (45045058996458109, (-17)); (57834126234519689, (-17)); (35907707628828089, (-17)); (88253178114817443, (-17)); (83486121516906064, (-17)); (25561761077467759, (-17)); (20452398678169847, (-17)); (65821911524522136, (-17)); (472767965088421, (-15)); (72361027509000964, (-17)); (5329564748941078, (-16)); (91978594133662861, (-17)); (36201772633811413, (-17)); (99391967967239836, (-17)); (59656645084490378, (-17)); (46261267868677969, (-17)); (73309753241570363, (-17)); (67353904510873219, (-17)); (68397156965897865, (-17)); (79213746007471053, (-17)); (13884610051342432, (-16)); (10907869685546854, (-16)); (1381190594761748, (-15))];
  [(52036245107741819, (-17)); (95077506721088634, (-17)); (62467856678032363, (-17)); (70613561826581295, (-18)); (30410900397948992, (-17)); (53749557926816771, (-17)); (82874180935998409, (-18)); (12905516591101773, (-17)); (95954225356065181, (-17)); (2967881452363782, (-16)); (75390806435758451, (-17)); (25575611315071656, (-17)); (75166215462941699, (-17)); (27520557994685479, (-17)); (59838762523503841, (-18)); (29340168033624903, (-17)); (82554189549159096, (-17)); (60344729997228752, (-17)); (4449960208979592, (-16)); (43136573111377069, (-17)); (85277840431421348, (-17)); (13748539328815719, (-16)); (16187886578578761, (-17)); (31332346773729092, (-17)); (50901523935074389, (-17)); (41364286337164352, (-17)); (88913872045458442, (-17)); (12498400605585882, (-16))];
  [(12361383869396803, (-17)); (23280939131079992, (-17)); (21310170888355751, (-17)); (68486818465224697, (-17)); (2983821531065306, (-16)); (84907472154816455, (-17)); (36438318258929903, (-17)); (96173875885367943, (-17)); (84713502392611617, (-17)); (47045231353312911, (-17)); (21341053635787022, (-17)); (29992502003801935, (-17)); (46827200044371997, (-17)); (25866307873299532, (-17)); (84327319598220907, (-17)); (16331855788841498, (-17)); (69271208878771418, (-17)); (96160450888266091, (-17)); (99686142835535752, (-17)); (42668546756527659, (-17)); (57162535944895287, (-17)); (71738559477929176, (-17)); (63585052105868212, (-17)); (38102416097142877, (-17)); (84380001193042165, (-17)); (11877597180296615, (-16)); (13504388764311037, (-16)); (18775535212077625, (-16))];
  [(54487113872966864, (-17)); (86772251594130412, (-17)); (83575614916248719, (-17)); (25819906851976548, (-17)); (9020954571162132, (-16)); (92305650439373532, (-17)); (62393088878727676, (-17)); (29527611037453461, (-17)); (9691417343256703, (-17)); (27631356772124127, (-17)); (61166213419497828, (-17)); (48881366754822442, (-17)); (39783050919267215, (-17)); (13340031357985471, (-17)); (99302749063732298, (-17)); (52637880552367233, (-17)); (50802657099813675, (-17)); (53497850976646111, (-17)); (69912140900028996, (-17)); (66070216579835706, (-17)); (10871371823443619, (-16)); (10070297657125642, (-16)); (50681210192406378, (-17)); (92637270786605741, (-17)); (84730476421813428, (-17)); (79166608221579615, (-17)); (10932176117870347, (-16)); (95727365790411123, (-17))];
  [(9022267289933017, (-16)); (15668452840778091, (-17)); (41288999888490485, (-17)); (41575564309681035, (-17)); (66362852890969215, (-18)); (87692133458270893, (-17)); (33489897412721026, (-17)); (56771230833589414, (-17)); (71064194529857905, (-17)); (54468240180897887, (-17)); (20297039985486731, (-17)); (92458901975413532, (-17)); (38931130366093414, (-18)); (44263536655848579, (-17)); (32716455896636798, (-17)); (47919959135312029, (-17)); (66882475878149272, (-17)); (92863883840783978, (-17)); (7753177614786525, (-16)); (10993275703245685, (-17)); (33697281413112727, (-18)); (68722719714921032, (-17)); (56079670899058587, (-17)); (33859453757874419, (-17)); (87336251267782683, (-17)); (81593469839368549, (-17)); (530102445165896, (-15)); (1588889939266418, (-15))];
  [(429928030848027, (-15)); (23284027895755621, (-17)); (53029921089800125, (-17)); (42545916339969636, (-17)); (40971090611088512, (-17)); (49154576277352802, (-17)); (66767273889684176, (-18)); (88057010438416083, (-17)); (93289240309806365, (-17)); (84473894514422199, (-17)); (91105565576439518, (-17)); (33149645447392495, (-17)); (45952424007596371, (-17)); (95239852569040939, (-17)); (12380966236251389, (-17)); (85669448039490415, (-17)); (95836066545521692, (-17)); (20883181968578113, (-17)); (50260175435224563, (-17)); (56765574812483688, (-17)); (85706607615509811, (-17)); (10610607030306476, (-16)); (62723330412993161, (-17)); (12055274912831304, (-16)); (14759113965801158, (-16)); (6038721916426294, (-16)); (90479609906438685, (-17)); (11439025823574041, (-16))];
  [(79953443958593162, (-17)); (13857547341774334, (-17)); (80106468481970816, (-17)); (58201089708958609, (-17)); (50183931172459373, (-17)); (79487334429234302, (-17)); (96594484437959105, (-17)); (42771760218862187, (-17)); (80566105011264466, (-17)); (50862505358149734, (-17)); (98203415671588534, (-17)); (57701325135027759, (-17)); (68397934571541774, (-17)); (13834987950459043, (-17)); (80766947757086771, (-17)); (46235586726464994, (-18)); (39016198116673584, (-17)); (38914528219983813, (-17)); (65601480497621867, (-17)); (16934537786614356, (-16)); (86537729101579064, (-17)); (17937789737793195, (-16)); (27658451268331752, (-17)); (36984010071430939, (-17)); (4332576320783661, (-16)); (10630174586422061, (-16)); (56746837777492809, (-17)); (10708930388908935, (-16))];
  [(31473669676467786, (-17)); (96897676794217058, (-17)); (25179581039845278, (-17)); (16768849998391078, (-17)); (20345289071290151, (-17)); (78605151573351451, (-17)); (15171779570586397, (-17)); (96608850846713434, (-17)); (25360948849547815, (-17)); (72935158357540031, (-17)); (11631520593831213, (-18)); (4252067417060299, (-16)); (89050228797610143, (-17)); (39751190672818038, (-17)); (1993616028807953, (-16)); (82082722919189233, (-17)); (95756005075262363, (-17)); (71895503104306513, (-17)); (86191566310116485, (-18)); (10311657606141253, (-17)); (66022512744030992, (-17)); (41197685310258403, (-17)); (24535098689339788, (-17)); (10355903090412686, (-16)); (57441235596911644, (-17)); (28388984095018144, (-17)); (54973064664556814, (-17)); (1003948368977541, (-15))];
  [(98301104645762072, (-17)); (97125826793841175, (-17)); (53290804610244269, (-18)); (52448550197851618, (-17)); (43778733826655236, (-17)); (53253756409661834, (-17)); (76478862688884119, (-17)); (6864488315015993, (-16)); (45235117810979752, (-17)); (69948417018451448, (-18)); (32035379912720552, (-17)); (71540919648914858, (-17)); (85704592370049415, (-17)); (79402573166918544, (-17)); (88424132151517365, (-17)); (40053631972731585, (-17)); (40492614673380389, (-18)); (99811617973025624, (-17)); (23483669218216785, (-17)); (13064961393786227, (-16)); (1172372988418001, (-15)); (79402542773110962, (-17)); (15159463131440694, (-16)); (13946995302022864, (-16)); (71939412959510252, (-17)); (67443484480994864, (-17)); (56981432862856674, (-17)); (63640538466720686, (-17))];
  [(47203313035766092, (-17)); (73625647465538047, (-17)); (83481627631711741, (-17)); (69605674671052953, (-17)); (14360439950046988, (-18)); (60508954337208998, (-17)); (5621768856146806, (-16)); (44453581695991162, (-17)); (68821999960307345, (-17)); (52057278439164278, (-17)); (4053779208605689, (-16)); (10425369628723002, (-17)); (31185042609776881, (-17)); (83036631671769712, (-17)); (18270075685589804, (-18)); (48197628717771368, (-17)); (6534442493320346, (-16)); (601297447283066, (-15)); (89286652247980303, (-17)); (52013972052492674, (-17)); (36357168896706488, (-17)); (6416493681460258, (-16)); (90521317067453944, (-17)); (74410190776031171, (-17)); (11849931495884101, (-16)); (12176854534982344, (-16)); (60624911459772124, (-17)); (13503656698662421, (-16))];
  [(91804131536675748, (-17)); (17078867040094625, (-17)); (57197478804561608, (-17)); (75790889874087264, (-17)); (30752331703535207, (-17)); (34631888401634836, (-17)); (2574263632453111, (-16)); (37482481967683501, (-17)); (30063963503700319, (-17)); (48643620697240797, (-17)); (17217816956013521, (-17)); (35804725750152089, (-17)); (65088982391220696, (-17)); (65045818309357417, (-17)); (83573102191844029, (-17)); (50710750364713797, (-17)); (38461782300800007, (-17)); (35083154647862314, (-17)); (6001223656799517, (-16)); (45452025160616882, (-17)); (36346654783045229, (-17)); (32449495830141839, (-17)); (10901545395735179, (-16)); (5422618827427641, (-16)); (61904786731731565, (-17)); (68738822627275065, (-17)); (4056662805210885, (-16)); (45076131092112803, (-17))];
  [(81813251956563549, (-17)); (15173078430217146, (-17)); (71289310359511782, (-17)); (62029259585628349, (-17)); (38083541292183098, (-17)); (74766410314332976, (-17)); (50537611875936561, (-17)); (59892141235238305, (-17)); (3413516500358279, (-16)); (27831744931241276, (-17)); (48732209537914162, (-17)); (75040491342737736, (-17)); (14487575589949697, (-17)); (81415311581463867, (-17)); (40034303096593249, (-17)); (10412354927896272, (-17)); (58083945699849926, (-17)); (44721982420768525, (-17)); (24030152513128544, (-17)); (81850582004534744, (-17)); (45235622961485872, (-17)); (87608280012475226, (-17)); (98060936956912725, (-17)); (39623417899114083, (-17)); (97024227511366079, (-17)); (84355520653689653, (-17)); (43455510960362931, (-17)); (83339236465933786, (-17))];
  [(55937045103680028, (-19)); (57366806087066702, (-17)); (71583043643866373, (-17)); (9322329290544229, (-17)); (4670885155500325, (-16)); (53838658738724254, (-17)); (65698105752843183, (-18)); (37472005639764483, (-17)); (47875434227218916, (-17)); (42488767636498537, (-17)); (99306480065681968, (-17)); (68662933222886413, (-18)); (42767055686598443, (-17)); (54951790266414668, (-17)); (31178276895045498, (-17)); (75072330064782677, (-17)); (79326351004263107, (-17)); (77713016394286727, (-17)); (58869406171136096, (-17)); (76993511116743421, (-18)); (88348239446437737, (-17)); (10862215669641528, (-16)); (9900085011844148, (-17)); (73328000627994072, (-17)); (90068806916499744, (-17)); (137415757133589, (-15)); (93488022230017798, (-17)); (11271239389209988, (-16))];
  [(53922183822045067, (-17)); (35845195061463875, (-17)); (98927016952316149, (-17)); (25972643349580227, (-17)); (76171801512050619, (-17)); (56484160000460448, (-17)); (71363888799433972, (-17)); (11607374857942221, (-17)); (59239106556778676, (-17)); (9903583040850964, (-16)); (50813959212780224, (-17)); (91998983995767636, (-17)); (48544786553811814, (-17)); (89580840099101033, (-17)); (19720322288329317, (-17)); (12561861310673073, (-17)); (44571681289789278, (-18)); (29917557830793839, (-17)); (15073018823557105, (-17)); (3232591460363422, (-16)); (58843517446858651, (-17)); (32716366985192658, (-17)); (4882674246306094, (-16)); (78453544699266398, (-17)); (8814650609559298, (-16)); (38138349114515899, (-18)); (89942665216136863, (-18)); ((-2029795649214336), (-17))];
  [(57814603318986579, (-17)); (10705316640637697, (-17)); (58810234188598287, (-17)); (64016183665685766, (-17)); (51912493806111915, (-17)); (96476236320513253, (-17)); (5221615693917927, (-16)); (73187352433233177, (-17)); (63063094162672628, (-17)); (99517072247087224, (-17)); (83360050125582608, (-17)); (12988940629948598, (-17)); (36685635834849928, (-17)); (92639464908865277, (-17)); (63057866450019617, (-17)); (10127562942507629, (-17)); (21031081477964708, (-17)); (23231096680404739, (-17)); (42110596242899678, (-17)); (88382283994750677, (-17)); (70511925506017148, (-17)); (11769826020825762, (-16)); (75583706738045042, (-17)); (65309168848213561, (-17)); (11302492855999333, (-16)); (36730076770519893, (-17)); (45682307063777805, (-17)); (51049260423117371, (-17))];
  [(75428760830582553, (-17)); (81745017461974512, (-17)); (14275416790513096, (-17)); (19726617922416811, (-18)); (98269441385583733, (-17)); (56946181386285522, (-17)); (44930868638980648, (-17)); (32966779068931884, (-17)); (56960281584833194, (-17)); (11516651717151061, (-17)); (54742627549312362, (-18)); (41925538950362129, (-17)); (32901463610321302, (-17)); (190012062674765, (-15)); (18761898791226583, (-17)); (35560923841008862, (-17)); (79515786357675255, (-17)); (78357983795055286, (-17)); (87945977917506102, (-17)); (16084738041594607, (-17)); (52898817358245676, (-17)); (42904371803324048, (-17)); (28999772565907811, (-17)); (45851301569271569, (-17)); (34499172886082352, (-17)); (940192808059366, (-15)); (17167308122911444, (-16)); (10961454137742801, (-16))];
  [(30935095177428029, (-17)); (5525324688806762, (-16)); (86609184000130268, (-17)); (21308177480799684, (-17)); (51610548633576103, (-17)); (13607413002402258, (-17)); (77099589343486807, (-17)); (85118983013915006, (-17)); (85566132438514297, (-18)); (42426907468396202, (-17)); (6015892114594269, (-16)); (47912972639288154, (-17)); (42375533863306813, (-17)); (20729426203809531, (-17)); (71385383075404185, (-17)); (6562839154921003, (-16)); (92328824760143335, (-17)); (93729277772767527, (-17)); (38609957254766902, (-17)); (58111205764824381, (-17)); (90781356059327589, (-17)); (43338649731294843, (-17)); (63033338321491306, (-17)); (88043677107151153, (-17)); (65399527964614651, (-18)); (70161794954273893, (-17)); (1217384015729871, (-15)); (5955703774113581, (-16))];
  [(28740301517118183, (-17)); (40572542949208856, (-17)); (34430011310276076, (-17)); (46698432538695756, (-17)); (5303146723971518, (-16)); (20987574646821217, (-18)); (55922209619889696, (-19)); (76390179733363361, (-17)); (23712416925957802, (-17)); (60003018322590218, (-17)); (36126685476935005, (-17)); (92880222369789978, (-17)); (32501735622147176, (-17)); (67531182269932233, (-17)); (74434683145313318, (-18)); (50517854334562085, (-17)); (90154970316952965, (-18)); (90880634045381925, (-17)); (33905697549125335, (-17)); (39001028886184247, (-17)); (67116269720793253, (-17)); (19522511605795489, (-18)); (35769006076616827, (-17)); (82978536039336537, (-17)); (30650602446780811, (-17)); (24983005068509548, (-17)); (50574948537895348, (-17)); ((-53858573860545864), (-18))];
  [(24115347437814405, (-18)); (20678760880752334, (-17)); (55458367522358032, (-17)); (71167018135488114, (-17)); (61638158113400088, (-17)); (95426215816071658, (-17)); (2212640964407705, (-16)); (27889872911717273, (-17)); (43869311266836652, (-17)); (60638597369404856, (-17)); (14425504717497917, (-17)); (65610878369315151, (-17)); (7779420990028294, (-16)); (77310129364682545, (-17)); (77380752735452307, (-18)); (2999033698514757, (-16)); (70823867798958551, (-18)); (61812265371346653, (-18)); (66473238582133443, (-17)); (60816425909410188, (-17)); (54714258997198284, (-17)); (79257298609384685, (-17)); (43942134809793243, (-17)); (51665390322442728, (-17)); (94053407715153015, (-17)); (21250733039229422, (-17)); (24632892609520837, (-17)); (39133765984613711, (-17))];
  [(23820335614467625, (-17)); (52576218549031406, (-17)); (95539746428712446, (-17)); (59797948559200009, (-17)); (12181231634654544, (-17)); (50579544054126957, (-17)); (25492093529189619, (-17)); (26849545127398511, (-17)); (40907195996382428, (-17)); (84451140224553201, (-17)); (95957994433744553, (-17)); (21462584852081334, (-17)); (36425154063649468, (-17)); (38398325978959802, (-17)); (21672595505383141, (-18)); (60159272574818989, (-17)); (82735121841833137, (-17)); (82346602923916001, (-17)); (44550000514022003, (-17)); (7206661156575368, (-16)); (45323139508511545, (-17)); (10394919913965834, (-16)); (39051797500538166, (-17)); (32379971458104329, (-17)); (62672770148615786, (-17)); (79469505122899886, (-17)); (22676191009768509, (-17)); (70844256338642242, (-17))];
  [(51619335960943236, (-17)); (28022492210588512, (-17)); (78127093589027596, (-17)); (80282105779261614, (-17)); (78003334769907084, (-17)); (65178343228082281, (-17)); (57816588070929698, (-17)); (25702995532877482, (-17)); (84769677378390917, (-17)); (8309494538304385, (-16)); (61955391499082424, (-17)); (33558668731847241, (-17)); (56850947596853507, (-17)); (43971299362911753, (-17)); (46944463011819249, (-17)); (49959421034290263, (-17)); (23844359864930387, (-17)); (96048923692619392, (-17)); (58394091983971974, (-17)); (9653517783074459, (-16)); (72712488380770379, (-17)); (10603175780980052, (-16)); (77770352626188632, (-17)); (61451666338070665, (-17)); (80218030874826574, (-17)); (71565148859724448, (-17)); (63881924485225272, (-17)); (60320863968639316, (-17))];
  [(28101715177452324, (-17)); (38947947769021274, (-17)); (79379865979767616, (-17)); (38143160288039024, (-17)); (78222247590262273, (-17)); (86815009402421595, (-18)); (32007929883998643, (-17)); (35052122049608414, (-17)); (51848084000293149, (-17)); (78941978954805303, (-17)); (71182470092516636, (-17)); (6555757108097322, (-16)); (74944500061515507, (-17)); (42069241186130513, (-17)); (83513851837214115, (-17)); (16312829087832159, (-17)); (30416745587677296, (-17)); (6481809370981414, (-16)); (47353515148121306, (-17)); (61882971835062295, (-17)); (10331213698754422, (-16)); (50101299546358002, (-17)); (30711834093630497, (-17)); (63534117000931256, (-17)); ((-73893469601854569), (-18)); (33893507838882064, (-17)); (59617606997882999, (-17)); (10865265399179394, (-17))];
  [(45466274707223697, (-17)); (96369560084769301, (-17)); (33398224130383125, (-17)); (68514298453082911, (-17)); (95848785526731572, (-17)); (77959451455864481, (-17)); (25975492482634843, (-17)); (11416004357994147, (-17)); (23552954083399902, (-17)); (64685589920701869, (-17)); (27867676711216705, (-17)); (80977127979060504, (-17)); (19576645700767492, (-17)); (5629210273055516, (-16)); (16850661396658917, (-18)); (82391311335204998, (-17)); (38369877696470089, (-17)); (70283968957132714, (-17)); (24893657704423577, (-17)); (48786815737697975, (-17)); (54667892169110177, (-17)); (59208134473773133, (-17)); (65528861875621947, (-17)); (85523067192277613, (-17)); (61565857118910472, (-17)); (55398669417060997, (-17)); (67449784260857815, (-17)); (63693954660542229, (-17))];
  [(24726208243116332, (-17)); (39723130229519765, (-17)); (38891067321251005, (-17)); (68865370536179149, (-17)); (86118924283374876, (-17)); (31280236436334363, (-17)); (4760834078419538, (-16)); (56754561837179451, (-17)); (67596212246186238, (-17)); (41181643581566285, (-18)); (57483143470832765, (-17)); (76163980027262412, (-17)); (71740871352952318, (-17)); (68484730068495658, (-17)); (9988459361049864, (-16)); (89748583299546703, (-17)); (10840274958649632, (-17)); (70421667622952533, (-17)); (65102764307963168, (-17)); (10161654897384436, (-16)); (12985943771961275, (-16)); (94155815361887607, (-17)); (12929957431618317, (-16)); (16485885843258288, (-16)); (11777880424878737, (-16)); (81717952457638432, (-17)); (10107886497804675, (-16)); (69240763289382146, (-17))];
  [(20584692603831212, (-17)); (73613798598444191, (-17)); (30470136323715691, (-17)); (43954993291518085, (-17)); (75829360466328311, (-17)); (31347086190612983, (-17)); (22635750589503245, (-17)); (63194647798123837, (-17)); (51709133462135082, (-17)); (60369643636500658, (-17)); (2386448296291156, (-16)); (13971049341640884, (-17)); (78248283441533251, (-17)); (38959851262343659, (-17)); (81361841602736629, (-18)); (46253462606082818, (-17)); (5888962194480577, (-16)); (50702571940694541, (-17)); (27492418907325045, (-17)); (31133958274655593, (-17)); (77067251717188889, (-17)); (51883288354386214, (-17)); (28786959122903621, (-17)); (71290424966362864, (-17)); (41315426289795953, (-17)); (43319358745520298, (-17)); (88875654185171449, (-17)); (43781926862599735, (-17))];
  [(76597486085794475, (-17)); (21333096868919454, (-17)); (14589858777853226, (-17)); (56955396057421825, (-17)); (4368428752341379, (-16)); (63465884814520224, (-17)); (15518481744695278, (-17)); (73774296389450944, (-17)); (68018631922897699, (-17)); (49284650013047149, (-17)); (16919656888352341, (-17)); (85090308299461848, (-17)); (74276494351183997, (-18)); (62933153816419973, (-17)); (38196226844042724, (-17)); (68841992392551654, (-17)); (97347423700803182, (-17)); (41305245445253747, (-17)); (51148431788413118, (-17)); (28988046288553471, (-17)); (36315476267397501, (-17)); (540101806358804, (-15)); (75433587363238619, (-17)); (86467553782732165, (-17)); (9253194630926338, (-16)); (10561821669312217, (-16)); (87877808817576808, (-17)); (9677810077702671, (-16))];
  [(55842673258925335, (-18)); (91109720275313233, (-17)); (56511304557498199, (-17)); (24086468370984215, (-17)); (89279793446188593, (-17)); (61855880101231286, (-17)); (66967687024604927, (-17)); (1999289254874026, (-16)); (22711832383838504, (-17)); (6124871334870482, (-16)); (28675107157982282, (-17)); (59504542341084576, (-17)); (77668116733359305, (-17)); (99743056392530616, (-17)); (69684283967552774, (-18)); (69335855273561153, (-17)); (26332875283006751, (-17)); (57075859062927059, (-17)); (12276378820764111, (-17)); (67110352132279738, (-17)); (63923256603095469, (-17)); (5188017924401932, (-16)); (65951500030748722, (-17)); (14085446454161599, (-16)); (98600091128306055, (-17)); (2248698370310161, (-16)); (47399229688470745, (-17)); (34672418941448757, (-17))];
  [(65137873190010087, (-17)); (79939114503894282, (-17)); (22715875009534003, (-17)); (7651903773029336, (-16)); (76675601584848363, (-17)); (58640504038694441, (-17)); (89673047402587258, (-17)); (39755166519422236, (-17)); (43802050392461045, (-17)); (95494257376975611, (-17)); (65961799583672598, (-17)); (76296776901496111, (-17)); (56027056948122411, (-17)); (99877209136698086, (-17)); (66461023177253442, (-18)); (61842870982112919, (-17)); (87808003504445964, (-17)); (61109680346369322, (-17)); (61925462726057823, (-17)); (10941803414789339, (-16)); (78025413546091549, (-17)); (76467912276721395, (-17)); (15482565357424125, (-16)); (13182519874333254, (-16)); (89021560259635457, (-17)); (13793495038874555, (-16)); (10731490955953242, (-16)); (90046920536086505, (-17))];
  [(55015052609316262, (-17)); (51591919221123494, (-17)); (5158809934980062, (-16)); (16409434144230339, (-17)); (97794874417629918, (-17)); (78569825570589491, (-17)); (64890121566473391, (-17)); (14535554494194691, (-17)); (99972744536601488, (-17)); (48275135417699655, (-17)); (37356945410067666, (-17)); (75784438386562891, (-17)); (1339393134027056, (-16)); (24188980478806132, (-17)); (20372587570369038, (-17)); (20693182874100569, (-17)); (18518630813476689, (-17)); (42574647486667627, (-17)); (9794442730524946, (-16)); (21400394460802069, (-17)); (8347030054295882, (-16)); (78675219735815316, (-17)); (24815283560973733, (-17)); (3780993630002436, (-16)); (4986133029898645, (-16)); (693054308832601, (-15)); (57787303250868349, (-17)); (13256605844497138, (-16))];
  [(79388590652783697, (-18)); (8899728162544186, (-16)); (49891650008825261, (-17)); (63234826331347582, (-18)); (20311843267958596, (-17)); (44780040286747758, (-17)); (93559824206341358, (-17)); (80727225655896906, (-17)); (9676671256933197, (-16)); (60010795483688195, (-17)); (20752451095894042, (-17)); (98876359129120017, (-17)); (13948701103219474, (-17)); (92463880105130736, (-17)); (820632720530171, (-15)); (17188358490517808, (-18)); (1264721320943184, (-16)); (71358789007513579, (-17)); (77118135185811054, (-17)); (15878134946964173, (-17)); ((-42373888000435803), (-18)); (35972186355210145, (-17)); (11571481610018788, (-17)); (52417482047338049, (-17)); (70323063342401859, (-17)); (73956535908454224, (-17)); (49092226565623642, (-17)); (89296021048032936, (-17))];
  [(89450616250552362, (-17)); (98331385176131381, (-19)); (64610762856081727, (-17)); (18959326848889313, (-17)); (99132982759073673, (-19)); (53248280257990643, (-17)); (5023012514606161, (-16)); (15978274686700034, (-17)); (97520050581714224, (-17)); (28034108888980858, (-17)); (65354051352543463, (-17)); (56231304544290528, (-17)); (81923900023472507, (-17)); (50383799948771124, (-17)); (61241819145803411, (-17)); (26277371426066864, (-17)); (73922117172670077, (-17)); (64436239638127923, (-17)); (22188615000995005, (-18)); (97084091402874573, (-17)); (14269518835206979, (-17)); (14881906740935538, (-16)); (55152054982751619, (-17)); (52297443983150782, (-18)); (84720336158841758, (-17)); (64326785753020921, (-17)); (1694331368533105, (-17)); (80404429767942653, (-17))];
  [(2597491698871004, (-16)); (27040952657041584, (-17)); (86559513492426099, (-17)); (93949730855826907, (-17)); (84388071810820775, (-17)); (14023136485388221, (-17)); (46053015273782349, (-17)); (97592517617093699, (-17)); (87322485640114023, (-18)); (89609652778872761, (-17)); (43522888935656778, (-17)); (82569524550203233, (-17)); (80951506957471964, (-17)); (3497839658594748, (-17)); (8085658775484319, (-16)); (70847664769489449, (-17)); (48807638647642171, (-17)); (37691814968226067, (-17)); (11171209711184438, (-17)); (10798231388920096, (-16)); (14112535833770619, (-16)); ((-13211097755073542), (-17)); (66812766237942811, (-17)); (975869079474047, (-15)); ((-391103299613208), (-15)); (63346515268631465, (-17)); (63219791672416448, (-17)); (10535119612879212, (-17))];
  [(40822203032237492, (-17)); (6686393986278456, (-16)); (10160496947242126, (-17)); (52327464935136569, (-17)); (87489378261762363, (-17)); (17874024429965341, (-17)); (64027424316362991, (-19)); (93717095783486515, (-17)); (89844955481804489, (-18)); (60845450925224753, (-17)); (71485728516222646, (-17)); (96088750868680639, (-17)); (17770370834566362, (-17)); (63018053376389382, (-17)); (9355787009787051, (-16)); (65536265715840869, (-17)); (34872504461858, (-14)); (93998239102640679, (-17)); (15224559189814646, (-17)); (64275958345329032, (-17)); (12387856934149921, (-16)); (23371903020824544, (-17)); (58716636276104517, (-17)); (15891350010114755, (-16)); (25868153930583759, (-17)); (40634769462760539, (-17)); (82393584871827064, (-17)); (16164839314536625, (-17))];
  [(33382308115680581, (-17)); (44438772204686927, (-17)); (64189010254934076, (-17)); (22449872796618009, (-17)); (63022239599226759, (-17)); (51563129750276659, (-17)); (59789165264084354, (-17)); (38432856966369444, (-19)); (39292248730558199, (-17)); (4762206444111502, (-16)); (99531780470266262, (-17)); (81579354348102762, (-17)); (66167847488732379, (-17)); (32921354296289618, (-17)); (59385509109239887, (-17)); (78522948409924798, (-17)); (17332820902196322, (-17)); (33790582516292056, (-17)); (91880802214563906, (-17)); (83126041026112607, (-17)); (97392655542294981, (-17)); (11968488105825601, (-16)); (62864104001682319, (-17)); (43979028517306801, (-17)); (67155234022268773, (-17)); (63431710253518725, (-17)); (2424855458213665, (-16)); (55628670292442595, (-17))];
  [(71667533948399875, (-17)); (12625475875395087, (-18)); (50924669151134372, (-17)); (73100390529260273, (-17)); (36352526468976576, (-18)); (22801240617653651, (-19)); (75763302795664411, (-17)); (84665431251188972, (-17)); (99416095984184827, (-17)); (55789508604349114, (-17)); (16032754879086042, (-17)); (55318495686702718, (-17)); (70559333665980195, (-17)); (24527404896639249, (-17)); (13241183821592339, (-18)); (73069619081328807, (-17)); (89709868565343054, (-17)); (89655850707560636, (-17)); (75199948474851908, (-17)); (82728827143904515, (-17)); (61555945108126398, (-17)); (62286684961116601, (-17)); (80083547002708222, (-17)); (62631441481903227, (-17)); (82914735995996747, (-17)); (16782039074732515, (-16)); (68521496515607216, (-17)); (89629091431053098, (-17))];
  [(44969619923042359, (-17)); (59686056068457172, (-17)); (44001891493367129, (-17)); (77984538882772747, (-17)); (81811719767236268, (-17)); (86080084551203495, (-17)); (65805033192847018, (-17)); (69501958542533682, (-17)); (11920971589875362, (-17)); (5592490887746181, (-16)); (27073515464946907, (-17)); (35532133840248603, (-17)); (74766470947306951, (-17)); (21773790014616212, (-17)); (99245534166036442, (-17)); (98424180996324651, (-17)); (55745889199458754, (-17)); (10722048765867198, (-17)); (25952873114709174, (-17)); (85732388761653688, (-17)); (90801877541085474, (-17)); (49006650827137582, (-17)); (12400331630170669, (-16)); (12627101552001159, (-16)); (79044964875136248, (-17)); (65922129737429558, (-17)); (74478182941109095, (-17)); (54665541731749645, (-17))];
  [(34272428629894769, (-17)); (50414158828305133, (-17)); (14493486393953325, (-17)); (65263056215388915, (-17)); (82655569704551057, (-17)); (25619601360117961, (-17)); (47544178308662544, (-17)); (98037642616706588, (-17)); (63992962290114785, (-17)); (34014782039478608, (-18)); (47941897678134449, (-17)); (85531242739626356, (-17)); (87516839554194736, (-17)); (95393351226259104, (-17)); (28954250933963532, (-18)); (64966267283626133, (-17)); (25738298858289865, (-17)); (25901915439790768, (-17)); (32655217377659884, (-17)); (11388568098323415, (-16)); (18049161414637296, (-16)); (8484526453760215, (-16)); (6753442394250555, (-16)); (11677901540673443, (-16)); (56949900037542023, (-17)); (41505653889228888, (-17)); (66659046300345848, (-17)); (31353970844323592, (-17))];
  [(36100048492643211, (-17)); (83088180903295517, (-17)); (12369607582440623, (-17)); (77272644416406244, (-17)); (29622631519437259, (-17)); (41033220480874499, (-17)); (69242276968389693, (-17)); (80919132220882695, (-17)); (56318230997583885, (-17)); (43142527398200992, (-17)); (34636358259843691, (-17)); (17677519460768354, (-17)); (75544963075427618, (-17)); (31042629928518228, (-17)); (80219515755848037, (-17)); (67340209691849995, (-17)); (43241773959639462, (-18)); (67662115954431656, (-17)); (3944941968777419, (-16)); (84598733103347834, (-17)); (90177273875354724, (-17)); (58055169780345994, (-17)); (1110362628371566, (-15)); (75479547997992325, (-17)); (72490460231390363, (-17)); (67410318918766543, (-17)); (30419222345338598, (-17)); (45165158445246584, (-17))];
  [(33796355844096027, (-17)); (92861130087020483, (-17)); (12284098201160842, (-17)); (18792074432971007, (-17)); (80733160654419978, (-17)); (67111766202264511, (-17)); (48741697975399756, (-17)); (68834392995151839, (-17)); (40717449181614362, (-17)); (62356662357383097, (-17)); (90542858146956229, (-17)); (17431134577692975, (-17)); (57491258489926411, (-17)); (21320427040763068, (-17)); (30194101930786144, (-17)); (88686888339713787, (-17)); (44864176697273594, (-17)); (89711076976891146, (-17)); (1115693524165019, (-16)); (62018233378448373, (-17)); (15248599963456688, (-16)); (76167212408274043, (-17)); (50063988879003163, (-17)); (90586791412459955, (-17)); (60876708819316905, (-17)); (18651532043236527, (-17)); (72801138286104439, (-17)); (69039319399729615, (-17))];
  [(8908613903833521, (-16)); (20160121615608451, (-17)); (67453732520471377, (-17)); (73993618475589873, (-17)); (40935316704396718, (-17)); (10299535120360992, (-17)); (96070563145230603, (-17)); (50243724885032948, (-17)); (93816148770766195, (-17)); (27985691342711116, (-17)); (93567627941979936, (-17)); (32915041148685109, (-17)); (98477797427528446, (-17)); (39609606850872781, (-18)); (30625198288962552, (-17)); (76442275947848326, (-17)); (73289291371095477, (-17)); (47977846090355669, (-17)); (64769072754035939, (-17)); (20915273341253511, (-16)); (89304916303975679, (-17)); (15283486409717666, (-16)); (91882536788540492, (-17)); (49966179261117738, (-17)); (71721221141363145, (-17)); (16226701029656754, (-16)); (71233754345490619, (-17)); (1061719503089763, (-15))];
  [(75935736343626814, (-17)); (98375728072158508, (-17)); (66874114320274236, (-18)); (96162369271600445, (-17)); (26938351592476684, (-17)); (35830744905044865, (-17)); (48639544360339371, (-17)); (12567186244460737, (-18)); (81468083573957073, (-18)); (12998571862730068, (-17)); (63737118348976229, (-17)); (7753518776616144, (-16)); (54069350302559249, (-17)); (42117329381812119, (-17)); (48773179925145849, (-17)); (996919130206816, (-15)); (79463211321598581, (-17)); (4888369530516079, (-16)); (2307517523711976, (-16)); (14853362601751385, (-16)); (75901552388738713, (-17)); (38466497486687201, (-17)); (12715686073110528, (-16)); (50615723027597648, (-17)); (29776182726692624, (-17)); (12275995776787207, (-16)); (87401659380782926, (-17)); (27783558698415045, (-17))];
  [(57246026659535598, (-18)); (36415824330220803, (-17)); (55089959726901849, (-17)); (14702617153290065, (-17)); (98651646229533918, (-17)); (68332211337345317, (-17)); (45505107198429262, (-17)); (21172196672890276, (-17)); (28456355303334835, (-17)); (40609705552040465, (-17)); (68551918124802014, (-17)); (11453156623842009, (-17)); (20805766324951613, (-17)); (3502729295074084, (-16)); (26384353268208738, (-17)); (76798704312189758, (-17)); (69249010725432347, (-17)); (88405848827243338, (-18)); (1555922356729712, (-16)); (18342252358939135, (-17)); (62785421403895403, (-17)); (63815833814425804, (-17)); (41790830518616051, (-17)); (61744427221867559, (-17)); (59857115517391468, (-17)); (15738158202542946, (-17)); (60187572398304945, (-17)); (61792333916416842, (-17))];
  [(96988663507734718, (-17)); (27442675097754987, (-17)); (31281820941990046, (-17)); (42721036734062012, (-17)); (45666582777994047, (-17)); (21113649353199593, (-18)); (43077360736161341, (-17)); (1846356607967844, (-16)); (45581245293824091, (-17)); (74492903336023542, (-17)); (65664763233029222, (-17)); (36255647566568272, (-17)); (81494956885279768, (-17)); (37378851934448787, (-18)); (61882914662306587, (-17)); (7741557625798372, (-16)); (41485896032901171, (-17)); (3829276026868963, (-16)); (82260454637973912, (-17)); (8849030429656306, (-16)); (54049289329727035, (-17)); (46060989145553344, (-17)); (15842708223306992, (-17)); (25467098142970857, (-17)); (24037335935995149, (-17)); (63878375292366418, (-17)); (42132298298153992, (-17)); (40103181723671794, (-17))];
  [(86861317128583693, (-18)); (79251239626516312, (-17)); (5217193659459286, (-16)); (66580908420365237, (-17)); (84026265353731489, (-17)); (41823919506326879, (-17)); (84378960567670946, (-17)); (51653044456871222, (-17)); (79177619982203795, (-17)); (85037341066943395, (-17)); (21371285477970903, (-17)); (2162316978361889, (-17)); (44377077013606836, (-17)); (48867923424144077, (-17)); (16141275674458222, (-17)); (15393249927056663, (-17)); (82707264606843556, (-17)); (181885862552294, (-15)); (71323769834155604, (-17)); (50171783698097416, (-17)); (47501795880291975, (-17)); (48958450851543256, (-17)); (46277281181467678, (-17)); (63693277006419224, (-17)); (42492243361871523, (-17)); (11310786787807698, (-16)); (13155943042895899, (-16)); (1088219802524363, (-15))];
  [(43101458743189736, (-17)); (51973240861253267, (-17)); (77946240822889634, (-17)); (57278520545220879, (-17)); (37693215460440455, (-17)); (32366983089264656, (-17)); (50401610995216772, (-17)); (12543822784285741, (-17)); (5336674395049934, (-17)); (35857740313463082, (-17)); (42724454451136218, (-17)); (46696676536045034, (-18)); (28505328754205583, (-17)); (46205591074198327, (-17)); (18553015460823163, (-17)); (47741230887590613, (-17)); (64740997910968201, (-17)); (57100308825283719, (-18)); (31530643760596178, (-17)); (41997265894728919, (-17)); (30816742093583294, (-17)); (37696206576950736, (-17)); (59143599919852385, (-17)); (37752305924175028, (-17)); (42069090869514286, (-17)); (57234251969382366, (-17)); (45000980740276836, (-17)); (56458807896500784, (-17))];
  [(39905398284034088, (-17)); (33809390780247961, (-17)); (20716555497206535, (-17)); (86936761940589591, (-17)); (49423550592079912, (-17)); (41958605718859932, (-17)); (24681883277103123, (-17)); (96355642613594694, (-17)); (31522351732107856, (-17)); (71228018041350205, (-17)); (7299489923592265, (-16)); (27528130667494199, (-17)); (89864236481158055, (-17)); (42539445906423257, (-17)); (22003709479927325, (-17)); (98279520414556742, (-17)); (1832474133987112, (-16)); (38039287552778756, (-17)); (30853913498297991, (-17)); (96635733910455446, (-17)); (13306135734005995, (-16)); (64804852056275009, (-17)); (7001561397222229, (-16)); (12269322948637988, (-16)); (53324106973055274, (-17)); (38670876215063466, (-17)); (46161964407450595, (-17)); (24554200357760642, (-17))];
  [(28052836021281491, (-17)); (66714716030640575, (-17)); (7806020571980663, (-16)); (85265328070825441, (-17)); (94634837874482003, (-17)); (36510600511558222, (-17)); (10758118785358639, (-17)); (7413731159908189, (-16)); (33430841717585758, (-17)); (81481849090269864, (-17)); (73061925914367665, (-17)); (3452390484398884, (-16)); (43125019662338093, (-17)); (82260108048339831, (-17)); (4632383110775421, (-16)); (37072903072972563, (-17)); (61333221321900599, (-17)); (17790752089257911, (-17)); (22852836318219072, (-17)); (77173634444262562, (-17)); (12137158124357159, (-16)); (61988768400575345, (-17)); (88492640250789556, (-17)); (12936048633126156, (-16)); (63588047635172606, (-17)); (59087123191344448, (-17)); (90158037668039437, (-17)); (51128058183526226, (-17))];
  [(85372474089782036, (-17)); (72027764016906692, (-18)); (61317776799549362, (-17)); (68571397477928298, (-17)); (89653854318113579, (-17)); (63712668850929999, (-17)); (48960946127043026, (-17)); (39691192757788829, (-17)); (71842548784473426, (-17)); (56477487416465377, (-17)); (44917396019620082, (-18)); (63867131117939424, (-17)); (32922811173876154, (-17)); (91442305610383479, (-17)); (5122322803038214, (-16)); (70458799280449513, (-18)); (34856881735597645, (-19)); (37952221022892907, (-17)); (13023578731859242, (-17)); (2881758678473188, (-16)); (61401450079442643, (-17)); (40922811958790167, (-17)); (10921792622990136, (-16)); (89056173194353283, (-17)); (94364321765148917, (-17)); (11397074468345722, (-17)); (32636341187998325, (-17)); (17625778506218662, (-17))];
  [(62973817385770992, (-17)); (82344344038841455, (-17)); (33834186863584514, (-17)); (23094551407694142, (-17)); (45702163905219995, (-17)); (8519539420615978, (-16)); (83278397483062216, (-17)); (45008231083346673, (-17)); (32161217526465613, (-18)); (22859627422553097, (-18)); (55034373753374455, (-17)); (27707608932836436, (-17)); (78836597289671928, (-17)); (67323535647594879, (-17)); (43892363680469781, (-17)); (52053931837763678, (-17)); (96043518698771346, (-17)); (16779338008167832, (-17)); (67233868102293071, (-17)); (10659100898568055, (-16)); (93501881367111184, (-17)); (45607926190400871, (-17)); (95592490969641197, (-17)); (9878286278558015, (-16)); (62802624678186225, (-17)); (120597330043439, (-14)); (11768052641117011, (-16)); (50681416705732707, (-17))];
  [(96604355724829272, (-17)); (71626885632442705, (-17)); (83249776547876142, (-17)); (57642187592301086, (-17)); (54815603126095858, (-17)); (92351333919747125, (-17)); (9112189930303104, (-16)); (9956136846359962, (-16)); (87379129024439195, (-17)); (93502044618586333, (-17)); (94863511544074453, (-17)); (50491283902908346, (-17)); (45273647980467613, (-17)); (31276510492555787, (-17)); (3511803188131859, (-16)); (70098324315634475, (-17)); (35879238745786213, (-17)); (24337979614633354, (-18)); (65839645378720901, (-17)); (11770468309743893, (-16)); (11459806114084927, (-16)); (15081227069950092, (-16)); (81045581219004392, (-17)); (88079648742664474, (-17)); (95687919675257938, (-17)); (96157956329696193, (-17)); (96025254591071618, (-17)); (10163177409513096, (-16))];
  [(93616030335967104, (-18)); (85931447570236408, (-17)); (68603500838958087, (-17)); (41571421760250771, (-17)); (3054617972457413, (-16)); (80884935463981456, (-18)); (26941245495616084, (-17)); (78710339421398456, (-17)); (54460030535118287, (-17)); (99961547351750313, (-17)); (98870062553401916, (-18)); (52083333616442007, (-17)); (87761092723077205, (-17)); (22230436792228359, (-17)); (16143255262575329, (-17)); (70274930597400864, (-18)); (82835929657675045, (-17)); (62880117793610779, (-17)); (91931949960594372, (-17)); (35205711490512404, (-17)); (47160465152699765, (-17)); (24352818271830909, (-17)); (13149700906383596, (-17)); (12567334746537473, (-17)); (49739308379079646, (-18)); (67109718485776504, (-17)); (97056914300388009, (-17)); (52884928398708364, (-17))];
  [(72025982079688577, (-18)); (71380127261141657, (-17)); (55611610523047883, (-17)); (26170378233780334, (-17)); (99785236583494119, (-17)); (7108632954965145, (-16)); (62023568934755391, (-17)); (90547843957566887, (-17)); (87126551448146405, (-17)); (80521867563438454, (-17)); (13906774330624894, (-17)); (58547409726585276, (-17)); (41221881980363517, (-17)); (89424608969897423, (-17)); (98437873093810213, (-17)); (49114031862650065, (-17)); (57754333168427929, (-17)); (23627013317725976, (-17)); (51708146070740901, (-17)); (36462515820053504, (-17)); (64562037195531541, (-17)); (53767457065506163, (-17)); (64538232392966788, (-17)); (17044549006026477, (-16)); (13210553192088006, (-16)); (48908887195297218, (-17)); (12111602520667519, (-16)); (99073434040754527, (-17))];
  [(66018442545077127, (-17)); (88037384587322021, (-18)); (50410295195512089, (-17)); (49879816549834122, (-17)); (20337656830209383, (-18)); (28840531995280605, (-17)); (91039989886978523, (-17)); (73569724962282579, (-17)); (65880325824185471, (-17)); (64774357888582657, (-17)); (18143168425761369, (-17)); (24578920157701933, (-17)); (90470981040349696, (-17)); (59465859350723405, (-17)); (68840921196896487, (-17)); (60451731612988491, (-17)); (43063961653208949, (-17)); (76679573599625162, (-17)); (78515005587946241, (-17)); (97362683011005069, (-17)); (67148615723127481, (-17)); (68230021669269758, (-17)); (10419907266968922, (-16)); (46838314792669383, (-17)); (68972334840917604, (-17)); (10706786426738795, (-16)); (5848537540685298, (-16)); (70843236520193575, (-17))];
  [(74683810717677634, (-17)); (13744960057713584, (-17)); (19262208068010256, (-17)); (29497069271136322, (-17)); (29222859442405624, (-17)); (10993283027376965, (-17)); (84944641360049589, (-17)); (53517965905353404, (-18)); (1195156010123215, (-16)); (89320164989829764, (-17)); (90676451156871296, (-17)); (94016162073819343, (-17)); (71038135998156737, (-17)); (5380016100729359, (-16)); (72067674606243848, (-17)); (55408453504565436, (-17)); (65816497504746185, (-17)); (50346219109409729, (-18)); (42191319222727219, (-17)); (86319202457487509, (-17)); (39416214471654715, (-17)); (19576938868361998, (-17)); (56014334367121943, (-17)); (25335768944827497, (-17)); (11878581535027306, (-17)); (79781800096475119, (-17)); (23297098329245111, (-17)); (18218857871522437, (-17))];
  [(27047584928490465, (-18)); (35492500020573792, (-17)); (27595697097693273, (-17)); (97244535075434624, (-17)); (28800262452074288, (-17)); (87685917999479701, (-17)); (93721259010718427, (-17)); (50571098593177355, (-17)); (53203426321380387, (-17)); (5019706455673052, (-16)); (92518694785780897, (-17)); (5299975958147638, (-16)); (68843198662854099, (-17)); (74220386712266573, (-17)); (28487049747822779, (-17)); (11342824412365649, (-17)); (25529945518391772, (-17)); (31550522952860893, (-17)); (75284428100799716, (-18)); (15449506786010279, (-16)); (80751759782108767, (-17)); (13174553164312386, (-16)); (71031817383418316, (-17)); (41441503329819146, (-17)); (73418770619443185, (-17)); (46092059065638596, (-17)); (17866056675773834, (-17)); (41015879307474457, (-17))];
  [(58605822051163603, (-17)); (54526128759544912, (-17)); (47649212402555496, (-17)); (58198047216240656, (-17)); (9300175700145431, (-16)); (2681211446836661, (-16)); (32201313872530735, (-17)); (53763615239752605, (-17)); (64840641305931557, (-17)); (6838696061634868, (-16)); (25829399528635366, (-17)); (22970771576996296, (-17)); (35302470844260436, (-17)); (20443789305096827, (-19)); (27276387609543862, (-17)); (16692291936110681, (-17)); (28896074477702938, (-17)); (12280269884401807, (-17)); (38327973617209543, (-17)); (34455796927885751, (-17)); (53719641497217041, (-17)); (34664506095472636, (-17)); (77482764967262363, (-18)); (19447562338389313, (-17)); (83909151196983028, (-18)); (3708650510752618, (-16)); (54420482642460555, (-17)); (39274944881376356, (-17))];
  [(7126058171252253, (-16)); (76292472248876542, (-17)); (33307903475336964, (-17)); (91625887942461282, (-17)); (17457747466219464, (-17)); (72759623767000081, (-17)); (49415430166311991, (-17)); (1524891582246598, (-16)); (6226731706403339, (-16)); (70456301016225953, (-17)); (60464265954116969, (-17)); (89500278578581871, (-17)); (42310730252597017, (-17)); (90585573126907892, (-17)); (68760447397743674, (-18)); (95747884595836164, (-18)); (25682286862368842, (-18)); (45998384347081411, (-17)); (68103850827594203, (-17)); (11078930951558066, (-16)); (1611292348298376, (-16)); (10049075464781037, (-16)); (10929861316958474, (-16)); (61874246916380815, (-17)); (73968097050354953, (-17)); (47452659132422947, (-17)); ((-44434093237071551), (-18)); (59844291485942713, (-17))];
  [(61715935838971259, (-17)); (51020256304129818, (-17)); (5779160063894474, (-16)); (73886342222161216, (-17)); (78291793518675856, (-17)); (28221843568319915, (-18)); (48425061324205843, (-17)); (97176345680026177, (-17)); (31558746931167392, (-17)); (90669020920334198, (-17)); (71153845060824172, (-17)); (77753418869796931, (-17)); (67165601639345995, (-17)); (76313255986660866, (-17)); (69836748100318158, (-17)); (34632669434449981, (-17)); (77620248241691125, (-17)); (70923477282800074, (-17)); (26464928986324954, (-17)); (98612163518205642, (-17)); (13779403180592125, (-16)); (1409071400186967, (-16)); (88064741082354281, (-17)); (1103435036267141, (-15)); (92412736624798222, (-18)); (85333879136986601, (-17)); (10371098152623279, (-16)); (66825796226923043, (-18))];
  [(95456235950794821, (-17)); (83182880727328812, (-17)); (44340270740112486, (-18)); (41253824711049325, (-17)); (70841165054235433, (-18)); (23952122382222252, (-17)); (72976269595258203, (-17)); (82773182837970483, (-17)); (47807542700248895, (-19)); (61578163373398331, (-17)); (98688422015954202, (-17)); (36674115726700229, (-17)); (72017262792177605, (-17)); (59069042459568455, (-18)); (18317701927939489, (-17)); (27425808927951267, (-17)); (56452366555291222, (-17)); (87621757463957284, (-18)); (19367479272777055, (-17)); (14510226456084263, (-16)); (11516282691625843, (-16)); (23801141909347165, (-17)); (2209391483586049, (-16)); (19212283272296535, (-17)); (42745878511508087, (-18)); (69694323018131688, (-17)); (52971230937601743, (-17)); (11434767058829476, (-17))];
  [(5937842388114698, (-16)); (45248819926585004, (-17)); (14110125268025819, (-17)); (39098788773526316, (-17)); (5105004260968935, (-16)); (47398281901418504, (-17)); (33327840589088886, (-18)); (43217852697330805, (-17)); (33616451039634609, (-17)); (77238313355792843, (-17)); (94308349691217186, (-17)); (81288724783835198, (-17)); (2469700736256043, (-16)); (94660459795348206, (-17)); (522722986499079, (-16)); (9380831802259697, (-16)); (56377499135959352, (-18)); (45601362311134974, (-17)); (28482910686478979, (-17)); (55745109246539037, (-17)); (78890301181272349, (-17)); (68619898716301553, (-17)); (68511141955235189, (-17)); (10520437129045768, (-16)); (7367212427807539, (-16)); ((-12401049181382719), (-18)); (18419886880387051, (-17)); (23000485373017057, (-17))];
  [(50686360605460345, (-17)); (95583884433485322, (-17)); (57517223168532494, (-17)); (42809877484192871, (-17)); (76416484780963534, (-17)); (33873466406536001, (-17)); (10587201829109649, (-17)); (83968553789160727, (-17)); (73064117323283484, (-17)); (57946303694570533, (-17)); (92086421927744044, (-17)); (41395587651629673, (-17)); (14470381894246387, (-17)); (33215193153998956, (-17)); (16321772871791806, (-17)); (45387701021330107, (-17)); (89844008308478973, (-17)); (31578480809508147, (-17)); (85871845785355594, (-17)); (65513717792750537, (-17)); (12913712068080159, (-16)); (70667940082975111, (-17)); (27995401037913314, (-17)); (80469304898662741, (-17)); (54794426214997605, (-17)); (70804486230171371, (-17)); (18522104584301529, (-16)); (1216509828201529, (-15))];
  [(61205313887050383, (-17)); (752382440972997, (-15)); (72098941923971049, (-17)); (75668590096866328, (-18)); (71236613520398051, (-17)); (63675776749841539, (-17)); (5510289214711841, (-16)); (18531589680704152, (-17)); (73731891672292893, (-17)); (95802675309421881, (-18)); (56699867874485921, (-17)); (22213960526366683, (-17)); (19165234167896616, (-18)); (40519020354091373, (-17)); (61783445492835509, (-17)); (14647219490578267, (-17)); (49957144098569106, (-18)); (87304878990256052, (-17)); (26533170517904181, (-17)); (36383298410122733, (-17)); (60836352006312, (-14)); (58107231707290452, (-17)); (34086810707987958, (-17)); (75185479113328191, (-17)); (77247163910032024, (-17)); (19164859307357954, (-17)); (64623402672828612, (-17)); (72769011356716828, (-17))];
  [(37052562783743914, (-17)); (44480226493140151, (-17)); (34341826168295386, (-17)); (3604027363111918, (-16)); (74704569443423519, (-17)); (57400363801460152, (-17)); (72860518679432995, (-18)); (26485453191339992, (-17)); (24706403769837171, (-17)); (12484905104489386, (-17)); (75497341843863019, (-17)); (46112090146351026, (-17)); (76886596264589468, (-17)); (92450829116192135, (-17)); (26558684944842181, (-17)); (79501432038666442, (-17)); (85893501763500502, (-17)); (8960972997868768, (-16)); (52503343301823602, (-17)); (51108190962850863, (-17)); (92332584832943665, (-17)); (74408201599413104, (-17)); (52202313445304105, (-17)); (88673954902666696, (-17)); (71742670596670566, (-17)); (67167927490081358, (-17)); (12126243484297738, (-16)); (95582839888593529, (-17))];
  [(58222934781780677, (-17)); (63095263503647503, (-17)); (85743491051402188, (-17)); (5156927922776372, (-16)); (69942320821146964, (-17)); (47933937233017099, (-17)); (46070002896857365, (-18)); (44458016015884094, (-17)); (71039443867066088, (-17)); (21702694989357463, (-17)); (94016510347419335, (-17)); (66162419597742239, (-17)); (34659996208327626, (-17)); (14348070749449338, (-17)); (46783543276974293, (-17)); (16700337982431335, (-17)); (71418401318672831, (-18)); (98454306204278796, (-17)); (12609017417233093, (-17)); (90516065286273717, (-17)); (12369801152841926, (-16)); (13180296908702387, (-16)); (2821527818548063, (-16)); (44023956705267908, (-17)); (38620242581912556, (-17)); (426725499615348, (-15)); (64951517272702053, (-17)); (43582970367352863, (-17))];
  [(18271306951632005, (-17)); (56992441829738338, (-17)); (83617851539835253, (-18)); (12418270502586282, (-17)); (75764606552458058, (-17)); (32284190685979119, (-17)); (54207819670332202, (-17)); (45789016112237291, (-18)); (14299679198731219, (-17)); (76507352945787133, (-17)); (51914867857726121, (-17)); (42630139790351362, (-17)); (91608072850842737, (-17)); (97048612782862542, (-17)); (49093185779217219, (-17)); (55156816759490201, (-17)); (22115894185855278, (-17)); (96473574146619712, (-17)); (83789221431914795, (-17)); (59390058299099036, (-17)); (59249610755667459, (-17)); (35297683079837872, (-17)); (49222026451103273, (-17)); (1007996464283168, (-15)); (44030134393244252, (-17)); (46670778640897131, (-17)); (39177338799898026, (-17)); (35139903743367956, (-17))];
  [(56648454542963889, (-17)); (46057961235135425, (-17)); (40460632365774873, (-17)); (98363445646619452, (-17)); (54387751658734373, (-17)); (85042443619305108, (-17)); (60111743609298296, (-17)); (30299621093578744, (-17)); (48671588271883559, (-19)); (14685484265561177, (-17)); (45576697459442683, (-17)); (64932463636360849, (-18)); (92087622949885628, (-17)); (81543400190099746, (-17)); (55468362463078302, (-17)); (65014868772018564, (-17)); (55606976784837059, (-18)); (54907797596399854, (-18)); (85250791989299035, (-17)); (93236040707201306, (-17)); (55351038510236783, (-17)); (29440066707724794, (-17)); (14588961878096038, (-16)); (89446754965490938, (-17)); (86481483928979963, (-17)); (60049889560872394, (-17)); (31390901118821635, (-17)); (76267311807269617, (-18))];
  [(7269519583338262, (-16)); (74853803171944178, (-17)); (92648433796755703, (-17)); (73490570134107791, (-17)); (9293342654204062, (-16)); (52414392534477339, (-17)); (84797194097937112, (-17)); (22250192436944871, (-17)); (994371158952293, (-16)); (43488989340931883, (-17)); (27972333504599944, (-17)); (59172330894735425, (-17)); (34696635252843455, (-17)); (79082840423830625, (-18)); (22989455676886705, (-18)); (22634654420436218, (-17)); (96023389748691257, (-17)); (88328038110149332, (-17)); (79775725333356673, (-17)); (77839780967249395, (-17)); (68872777088710213, (-17)); (38161432954201363, (-17)); (27684092011309386, (-17)); (14713885000590288, (-17)); (10837427223463555, (-17)); (19250344124010268, (-16)); (16712331107383036, (-16)); (11732972038352139, (-16))];
  [(54009641150971355, (-17)); (96691517420537765, (-17)); (72280067802309222, (-17)); (47262492409750601, (-17)); (54877083145097416, (-17)); (23465152207818529, (-18)); (55707356306296252, (-17)); (61137347668345277, (-17)); (48295802970580559, (-18)); (99266129759449506, (-17)); (39519010661298748, (-17)); (92243103745672783, (-17)); (87517035898268325, (-17)); (21830718009890371, (-17)); (26338816516929942, (-17)); (6958858993307232, (-16)); (62861608374748112, (-17)); (11762612057377408, (-17)); (65180551586747681, (-17)); (58159667331648301, (-17)); (45515133409384106, (-17)); ((-34042328056921312), (-17)); (48739038229621379, (-17)); (50682747474079892, (-17)); ((-3193400888828804), (-17)); (77462572718244327, (-17)); (95957362569727844, (-17)); (22243129152105406, (-17))];
  [(85887886263103075, (-17)); (93006226867213748, (-17)); (85041390788648719, (-17)); (12005057111289041, (-17)); (57936716632698437, (-17)); (64695342217812724, (-17)); (61039903886355196, (-17)); (28683827212606339, (-17)); (39258015572106153, (-17)); (51573088200089756, (-17)); (53169882003430569, (-17)); (76488399890178682, (-17)); (63137962403011993, (-17)); (2634722909674474, (-16)); (71542199796036055, (-17)); (90870055569326735, (-17)); (86976988058265126, (-17)); (48772592467368758, (-18)); (80555510167064404, (-17)); (57003698595264296, (-17)); (79789026158501697, (-17)); (92055172250183281, (-17)); (53880824091876967, (-17)); (58153503680103591, (-17)); (73831456995193401, (-17)); (11775030129663966, (-16)); (11855149737038955, (-16)); (12442048660624274, (-16))];
  [(17774120463387533, (-17)); (94708366352191153, (-17)); (12507193582485421, (-17)); (98978780884423367, (-17)); (16811126115768937, (-17)); (66027098077909985, (-17)); (41410118557897557, (-18)); (84557797451902228, (-17)); (64477765689117883, (-17)); (16764261682645876, (-17)); (22290301280773084, (-17)); (31245083885495994, (-17)); (3008153157169795, (-16)); (28002128835665296, (-17)); (6784553789166472, (-16)); (76722717297769405, (-17)); (69263005562332358, (-17)); (69078632192793077, (-17)); (67031224547469292, (-17)); (38399177560791287, (-17)); (47117751491866017, (-17)); (44289410294004572, (-17)); (76908256497804006, (-17)); (92333231455858567, (-17)); (98759862970117474, (-17)); (91719115253118622, (-17)); (12383491428265905, (-16)); (10292204988917939, (-16))];
  [(14875731156285599, (-18)); (13157637890419671, (-17)); (4316335189936249, (-16)); (10291083626250253, (-17)); (99280285731501905, (-17)); (49094565739546525, (-17)); (56131140263659252, (-17)); (19586352019680964, (-17)); (23621894407793398, (-17)); (25227929375484792, (-18)); (59462527832487333, (-17)); (33701790790231045, (-17)); (22996502924007456, (-18)); (77647780176040182, (-17)); (80031515919823848, (-17)); (13557079213003442, (-17)); (74993479088989479, (-17)); (5675088275952116, (-16)); (71220671984477324, (-17)); (57839783468411919, (-18)); (4309768338454919, (-16)); (43111007094930531, (-17)); (17169471091648725, (-17)); (93977893948600344, (-17)); (76076000688514211, (-17)); (4710400955139562, (-16)); (81828027649310586, (-17)); (77346633712213309, (-17))];
  [(61369266502232667, (-17)); (44813313781710762, (-17)); (82190816409819067, (-17)); (43138535513770715, (-17)); (48886814188020034, (-17)); (82156301417859023, (-17)); (86341923321348157, (-17)); (58912647026980325, (-17)); (49118837892495659, (-17)); (83091419634511243, (-17)); (73476596325562027, (-18)); (68672083268610951, (-17)); (61997372052976074, (-17)); (97956348712908303, (-17)); (3855142960889798, (-16)); (66859118747337209, (-17)); (78218229668973549, (-17)); (25182534085627939, (-17)); (17469274912214339, (-17)); (47758364838627676, (-17)); (41302891832403754, (-17)); (35334377332512235, (-17)); (1232050763545407, (-15)); (10429868160566202, (-16)); (14450959362861242, (-16)); (68276829174039, (-14)); (62130154659490566, (-17)); (98046151657001412, (-17))];
  [(7067162234729123, (-16)); (24436903500233631, (-17)); (40380294079710044, (-17)); (97462330456104707, (-17)); (54892195754928608, (-17)); (13449172095404172, (-17)); (16927238603239303, (-18)); (72551846886999183, (-17)); (70234783903740217, (-17)); (94569809990613174, (-17)); (48051360146174138, (-17)); (32158669483248625, (-17)); (8032672707014572, (-16)); (44852011502068123, (-17)); (20207744259798865, (-17)); (68115921948623259, (-17)); (7919719721757319, (-16)); (68331530436258869, (-17)); (23907739741844991, (-17)); (59119320314230317, (-17)); (90495960578857482, (-17)); (65012844824500149, (-17)); (55093890360580533, (-17)); (78284549441021278, (-17)); (58304425640359203, (-17)); (95560614208351036, (-17)); (72331823584490651, (-17)); (27145695842111173, (-17))];
  [(16789591134925352, (-17)); (98955991859206471, (-17)); (617806203073199, (-15)); (91777908114489415, (-17)); (64886532766527227, (-17)); (58191371395947766, (-18)); (38419915438946073, (-17)); (72944131808811441, (-17)); (79827931806410091, (-17)); (60680878110201975, (-17)); (32548622224081958, (-17)); (45547541626982779, (-17)); (69672664110050908, (-19)); (89596406645610094, (-17)); (68013150398880728, (-17)); (91864248767803303, (-17)); (50374296849637912, (-17)); (17183338921580016, (-17)); (50060477149838079, (-18)); (51770389543036122, (-17)); (37586022117147561, (-17)); (42857702360116781, (-18)); (13930825662583413, (-16)); (17086728513218337, (-16)); (10106752160493553, (-16)); (46544905895115951, (-17)); (62702565682723721, (-17)); (26000968202322106, (-17))];
  [(1260408142634919, (-16)); (72094946898260148, (-17)); (19804789557660174, (-17)); (9085048474038061, (-16)); (23511889909165573, (-17)); (96427103091954014, (-17)); (17269572416671142, (-17)); (93691217221081557, (-17)); (75695745865742903, (-17)); (6046532008023956, (-16)); (95731302853010913, (-17)); (53791301763276944, (-17)); (16691289744866544, (-17)); (66107712478959879, (-17)); (10901267669676373, (-17)); (10673163789580231, (-17)); (44693067574662149, (-17)); (23819534995610392, (-17)); (44044016209794923, (-18)); (98601828902429189, (-17)); (7357325279462843, (-16)); (11732587089703836, (-16)); (50207215510683234, (-17)); (55686708788187889, (-17)); (62509002126072644, (-17)); (44574014285016572, (-17)); (31453948607762472, (-17)); (51329586996564935, (-17))];
  [(40209890368511825, (-17)); (2893613656963212, (-17)); (89089194444120878, (-17)); (90284115390199027, (-17)); (81886796446511423, (-18)); (72275868989919789, (-17)); (47367478214428616, (-17)); (22595098299805183, (-17)); (50132508210411642, (-17)); (50375779899690298, (-17)); (6322051768675826, (-16)); (41131258769094281, (-17)); (59450063301333922, (-17)); (6139316533775373, (-16)); (98057293064989237, (-17)); (33629611350980526, (-17)); (25168419412803966, (-17)); (98448674037466266, (-17)); (60629641553216651, (-17)); (1025139746223902, (-15)); (19909090341197999, (-17)); (10953323187805972, (-16)); (12280476544267676, (-16)); (1724366386734662, (-16)); (10607708425358298, (-16)); (10728356833844608, (-16)); (2101705142810712, (-16)); (78790547623021068, (-17))];
  [(4402655211544142, (-16)); (1972986943278876, (-17)); (26212808438013757, (-17)); (53861756469717881, (-17)); (60046169507834146, (-18)); (17369404732688887, (-18)); (24082915736459465, (-17)); (52129012200524305, (-17)); (59182339503950254, (-17)); (25634144924589952, (-17)); (32979545337252125, (-17)); (1514407869988873, (-16)); (8483606687158588, (-16)); (39371876008418094, (-17)); (34675092161527699, (-17)); (43575926648517616, (-18)); (27803654369549236, (-19)); (70677261176075445, (-17)); (25092869008147489, (-17)); (45179944217808066, (-17)); (46159588522460687, (-17)); (57963554195076128, (-17)); (37389526506743931, (-17)); (54630123719862395, (-18)); (11013628886851148, (-17)); (35134134947900686, (-17)); (16841875235100731, (-17)); (11412511518100174, (-17))];
  [(32799988220645293, (-17)); (94716829304199335, (-18)); (57851276300072607, (-17)); (52247276168951184, (-17)); (82114295343972565, (-17)); (7954665962894194, (-16)); (26025098990754003, (-18)); (3070283022707091, (-16)); (6377615474943269, (-16)); (38947248862121997, (-17)); (60141001963411045, (-17)); (9482227888031588, (-16)); (92342865418650544, (-17)); (40935539247406205, (-17)); (66182519282602803, (-17)); (73857615633516682, (-17)); (97705492272852745, (-17)); (44391881295309876, (-17)); (76367533402021981, (-17)); (66605625958188841, (-17)); (1209941805641976, (-15)); (15819468702471728, (-16)); (46210854394989009, (-17)); (86921687028675021, (-17)); (11554141566889398, (-16)); (66945871602599771, (-17)); (94597375038291442, (-17)); (15342243646182006, (-16))];
  [(37996709944225571, (-17)); (75422992299403968, (-17)); (38011986863121228, (-17)); (22646161469674009, (-17)); (36376667398730489, (-17)); (73861487910232015, (-17)); (72620723208126536, (-17)); (22014760044807458, (-17)); (9201887620596344, (-16)); (27625199210584006, (-17)); (72502180625543855, (-17)); (8555520708702673, (-16)); (33345819597920046, (-17)); (63532908283256506, (-17)); (69798109842844769, (-17)); (41295820426475038, (-17)); (17853797899821333, (-17)); (34095354237924969, (-17)); (23797023909529347, (-17)); (64971905792324369, (-17)); (79486408380580653, (-17)); (12373136695717943, (-16)); (65112362831844472, (-17)); (71565201613257112, (-17)); (11639632343978508, (-16)); (28806006208400714, (-17)); (24884064830561986, (-17)); (52717365713559039, (-17))];
  [(68716586458567264, (-17)); (77504744014927018, (-18)); (63960058828582866, (-17)); (50434366733791913, (-17)); (14010838912948764, (-17)); (47208363399754627, (-17)); (3485067804665023, (-16)); (92933422961881929, (-17)); (61612512432916544, (-18)); (55344478296134803, (-17)); (91233613380358247, (-17)); (63843147817082369, (-17)); (9226625338692902, (-16)); (45934585284723473, (-17)); (58169941879002196, (-17)); (17012522729581137, (-17)); (48052061821009706, (-17)); (93455052739885192, (-17)); (3998513228296845, (-16)); (1140074382610627, (-15)); (10348924983139758, (-16)); (82142069335770862, (-17)); (4890637187999784, (-16)); (26785515010715305, (-17)); (41245851921740367, (-17)); (61106314872804202, (-17)); (51198586330364959, (-17)); (4664729816753081, (-16))];
  [(75384835213622492, (-18)); (15718169470832244, (-17)); (9595016350669644, (-16)); (62914319150556164, (-17)); (89495388531818276, (-17)); (18443703011454815, (-18)); (98691650550605603, (-17)); (53672204488825559, (-17)); (23377383616938752, (-17)); (70530177857076914, (-17)); (24274239556007304, (-17)); (77627653799365681, (-17)); (4724186660912677, (-16)); (46502891590241868, (-17)); (57798637567969924, (-17)); (22539707711445023, (-17)); (67971653785434183, (-17)); (23873817611596382, (-17)); (99168452712225241, (-17)); (91310484848553664, (-17)); (87332094763674983, (-17)); ((-18126612969696387), (-17)); (68743537827479562, (-17)); (7813890218781262, (-16)); (46596295610056931, (-18)); (1397645959794118, (-15)); (11463139350295908, (-16)); (59139919625298865, (-17))];
  [(49217292847297811, (-17)); (37952382728115763, (-17)); (59436701369115941, (-17)); (23498019911683754, (-17)); (75727193613719856, (-17)); (99427630578690473, (-17)); (36013809133265651, (-17)); (93140862135466929, (-17)); (91004954902993929, (-17)); (44012584905590535, (-17)); (25109917555013961, (-17)); (86994342380432299, (-17)); (5514447855776099, (-16)); (39409837866735919, (-17)); (99093599880551542, (-17)); (10919691150796162, (-18)); (23096165063571206, (-17)); (90527325826151084, (-17)); (19784482487888877, (-17)); (33805904367095679, (-17)); (11361834311657562, (-16)); (13054669254120568, (-16)); (22173473570851357, (-17)); (79129824814767979, (-17)); (10292288142707324, (-16)); (19983383761232509, (-17)); (81191774884934653, (-17)); (98714772552665586, (-17))];
  [(40365970400396578, (-18)); (2329050810687312, (-16)); (75107434463436473, (-17)); (43181675065904312, (-18)); (20198929054426396, (-17)); (44679138743099311, (-17)); (96646489758714593, (-18)); (77243883126681823, (-17)); (80728082960718517, (-17)); (80374921204576433, (-17)); (12890184799483118, (-17)); (61190242202526379, (-17)); (43994535359786946, (-17)); (88807707665394142, (-18)); (29957736417456415, (-17)); (91239737938004495, (-17)); (68113919026376613, (-17)); (58491386325658457, (-17)); (95728863543910492, (-17)); (50692501886987262, (-18)); (36258464017408842, (-17)); (32266867341490801, (-17)); (93700465224060447, (-18)); (72380241643331389, (-17)); (74231678095095832, (-17)); (13330671332955801, (-17)); (93251498253378129, (-17)); (12120317699018806, (-16))];
  [(87574248487928197, (-17)); (6823289949927851, (-16)); (21847564935692498, (-17)); (67542344159122636, (-18)); (7633153012014714, (-16)); (1634402435414487, (-16)); (39061445047884402, (-17)); (16832156498106221, (-17)); (50600579819616764, (-17)); (47174772193894399, (-17)); (48468908742356531, (-17)); (18148080214008844, (-17)); (54082678501230042, (-17)); (76210621266583056, (-17)); (7157782600142556, (-16)); (84007569950392103, (-17)); (47137171911583831, (-17)); (36904551986250689, (-17)); (66992870778915381, (-17)); (54292679307283775, (-17)); (6208815090463522, (-16)); (41239137494583089, (-17)); (70425173654262796, (-17)); (11337142382354246, (-16)); (66314687794364646, (-17)); (51919699309051415, (-17)); (6992713646355091, (-16)); (4828217572185643, (-16))];
  [(14553810322586147, (-17)); (62031919015757586, (-17)); (40977579489840787, (-17)); (51991382270684228, (-17)); (79643741412467994, (-18)); (85625526720800715, (-17)); (44310029809969886, (-17)); (47019697991141118, (-17)); (99822581083216844, (-18)); (4057232273741338, (-16)); (36263299422995099, (-17)); (47570130870496574, (-17)); (92065784887117086, (-17)); (42701125156595376, (-17)); (25944330817432715, (-17)); (67778872200294249, (-17)); (53626011763563974, (-17)); (22771153223065477, (-17)); (67278355251040867, (-18)); (73076915657716612, (-17)); (56932093893912361, (-17)); (64830701297932569, (-17)); (5540876122505527, (-16)); (53096234566385958, (-17)); (53489530823543552, (-17)); (3072616450260604, (-16)); (31505063844925113, (-17)); (53217370878612691, (-17))];
  [(58468677761155274, (-18)); (57928539876567264, (-17)); (44215400831612017, (-18)); (69569293157701284, (-17)); (9599915111623939, (-16)); (87827222584176956, (-17)); (35129727916046993, (-17)); (19341046611243318, (-17)); (42504115448388091, (-17)); (51490567419103639, (-17)); (47943261479530908, (-17)); (30965433041635315, (-17)); (7990200133518417, (-16)); (60385403214011424, (-18)); (49066788900657021, (-17)); (57434474631696564, (-17)); (12698011275611876, (-18)); (44368236670992356, (-17)); (92325746181938917, (-17)); (64791870843137844, (-17)); (79329518743929894, (-17)); (79538006849864851, (-17)); (50849249271726438, (-17)); (44006510419795258, (-17)); (63694121961844208, (-17)); (58520402817884432, (-17)); (43510779056938037, (-17)); (72789077667789559, (-17))];
  [(2797992685656675, (-16)); (85539986878765251, (-17)); (66159207749482285, (-17)); (53655039504405921, (-17)); (44104590999761928, (-17)); (2863653268305858, (-16)); (9032768847922622, (-16)); (12771777634536863, (-17)); (75609096401046794, (-17)); (51335372186453276, (-17)); (66410008044193369, (-17)); (51809790826571112, (-17)); (16598945551048971, (-17)); (37744057617642568, (-17)); (43048313222349699, (-17)); (59808861715124262, (-17)); (54597535000573238, (-17)); (87410250947119328, (-17)); (1016434066562466, (-16)); (65775111078112514, (-17)); (64129530395651613, (-17)); (56253569347536647, (-17)); (87374154160536188, (-17)); (42393504527050418, (-17)); (6903327580803742, (-16)); (65718645527572106, (-17)); (5066942890627566, (-16)); (40233240206371379, (-17))];
  [(58677677979897258, (-17)); (3171718973013371, (-16)); (89345345486928496, (-17)); (72326167127528374, (-18)); (8659750180453436, (-16)); (82890151393847256, (-18)); (75189309288700679, (-17)); (39642277796890357, (-17)); (9881939062683166, (-16)); (29831625541654294, (-17)); (94218743532188176, (-17)); (15057354697988568, (-17)); (49314084825992588, (-17)); (17683898491230743, (-17)); (71903550262716787, (-17)); (15611640774466917, (-17)); (29573628233134641, (-17)); (37936881166528236, (-17)); (30054039657832132, (-17)); (9036948340484503, (-16)); (83153155256433786, (-17)); (12872830461519409, (-16)); (14602707433530593, (-17)); (68864472154987133, (-17)); (17775327060566334, (-17)); (35892799711419854, (-17)); (56271717407659783, (-17)); (48718976737809389, (-17))];
  [(12566593593467978, (-17)); (67163223377222048, (-17)); (34160797337199433, (-17)); (29646707811356354, (-17)); (13262259537239707, (-17)); (58863430992761023, (-17)); (35037456497250108, (-17)); (14514616660095392, (-17)); (51418467275428059, (-17)); (53179336674940825, (-17)); (31843850947222974, (-18)); (65404015921198522, (-17)); (28886748931887729, (-17)); (80014691244345448, (-17)); (65733652766132289, (-17)); (80628357345259916, (-17)); (72727139625449089, (-17)); (80665610489635253, (-17)); (40323297888318699, (-17)); (23489427096702659, (-17)); ((-8548240844779384), (-17)); (38594042186930622, (-17)); (61553280890325757, (-17)); (48529593733183923, (-17)); (11086285577525175, (-16)); (48410512793232741, (-17)); (34592204388853975, (-17)); (90806782913214013, (-17))];
  [(85511080717513732, (-17)); (47195563998411294, (-18)); (11316167430480983, (-17)); (65160899216724799, (-17)); (76078092922312968, (-17)); (22480279719572449, (-17)); (89044570197877748, (-17)); (65667242009989002, (-17)); (10148573707619013, (-17)); (76824290775230153, (-17)); (92627136271791854, (-17)); (84458168718565263, (-18)); (84035823390150033, (-18)); (17491098301369401, (-17)); (24692330710687838, (-17)); (23114607781194585, (-17)); (49849385184104089, (-17)); (93367317746700562, (-17)); (51449821236396864, (-17)); (10532231005733184, (-16)); (61972859384967116, (-17)); (23561159447835714, (-17)); (36156607315483702, (-17)); (3771842123849688, (-16)); (85516774435790616, (-18)); (8731171312597128, (-16)); (10984975200098523, (-16)); (24817315379891058, (-17))];
  [(7218772686538184, (-16)); (21668793471682313, (-17)); (42819959361026316, (-17)); (3117743401716272, (-16)); (64845179197432723, (-17)); (11413911699170154, (-17)); (62865170443523466, (-18)); (32935163418205748, (-17)); (44336334232936592, (-18)); (16674011591970805, (-17)); (2092024100299702, (-16)); (28287450367934397, (-17)); (24552500267020805, (-17)); (93982457644963679, (-17)); (51523242344795228, (-17)); (42237414325389544, (-17)); (12785931321917343, (-17)); (62238499315845297, (-17)); (60736373309348235, (-17)); (22826306538568869, (-17)); (31879527125249785, (-17)); (11492273218657317, (-17)); (84089131646446902, (-17)); (75202046382220133, (-17)); (45475747330994171, (-17)); (25260192139512971, (-17)); (61672438163391385, (-17)); (10916216710757019, (-17))];
  [(66991642856956246, (-17)); (80025396532432824, (-17)); (32593435526459424, (-17)); (65850855124981766, (-17)); (17675621676559439, (-17)); (94814457682505582, (-17)); (61714402861463469, (-17)); (62051782972247438, (-17)); (98329489631048683, (-17)); (2948923328503027, (-16)); (34574393979978346, (-17)); (44925527823690758, (-17)); (4334154540367684, (-16)); (89545296718202272, (-17)); (5312301436586353, (-16)); (19223964360575108, (-17)); (1472164406977774, (-16)); (13218016668185484, (-17)); (98214819681244014, (-18)); (75086896426836947, (-17)); (52293463527435902, (-17)); (99429026452916069, (-17)); (10952887229874664, (-16)); (81723600761846826, (-17)); (11466628264170777, (-16)); (24070216979925277, (-17)); (17284413551819017, (-17)); (29044836411454666, (-17))];
  [(76899779463700713, (-17)); (97011871545821449, (-17)); (46436872157122233, (-17)); (60996079467505293, (-17)); (98277858698945419, (-17)); (1104204010759432, (-16)); (2103207740211589, (-16)); (21954538379124555, (-17)); (43757372967031993, (-17)); (79945283048185045, (-17)); (76959414211430943, (-17)); (85015105169418148, (-17)); (15520786919795848, (-17)); (24276693349111156, (-17)); (68359215251818428, (-17)); (83138670886128674, (-17)); (58894702559037304, (-17)); (23212135938203882, (-17)); (40538231701323435, (-17)); (67451629786604339, (-17)); (10879152661428739, (-16)); (16035836728063252, (-17)); (32493143229500898, (-17)); (5106150704058543, (-16)); (28662202316540408, (-17)); (62925608279625111, (-17)); (8998474263534344, (-16)); (35524409856645689, (-17))];
  [(60362216756018372, (-17)); (36619788536482289, (-17)); (87781857380202344, (-17)); (96419415857664159, (-17)); (84210652101884542, (-17)); (60935389952839603, (-17)); (27851532121926059, (-17)); (40470960094946118, (-17)); (12177558920030673, (-17)); (99417145546220986, (-17)); (94309642465549004, (-17)); (32886981564800122, (-17)); (76456612454346029, (-17)); (39956725125380377, (-17)); (98744559221323991, (-17)); (88395290755931888, (-18)); (99315558720385333, (-19)); (73237581803508267, (-17)); (96295956355407852, (-17)); (12920708051066816, (-16)); (12135204801276553, (-16)); (89346230334993471, (-17)); (49848970601103393, (-17)); (54783848914596667, (-17)); (75046074485753886, (-19)); (29389011647019769, (-17)); (51012784905756048, (-17)); ((-16854211058788793), (-17))];
  [(30468954742102405, (-17)); (60251459434671717, (-17)); (16348791820216235, (-17)); (32769054459154678, (-17)); (51611915692351018, (-18)); (86130132257687164, (-17)); (63769684493948853, (-17)); (78219676190635623, (-17)); (86977957273725037, (-19)); (23633839624221531, (-17)); (47636477370607189, (-17)); (13842541186813517, (-17)); (12086850923511683, (-17)); (53900441821501877, (-17)); (40830424409540989, (-17)); (85427297630219701, (-17)); (32180222705687478, (-17)); (84802404661021846, (-19)); (99636880112422166, (-17)); (28896040696866687, (-17)); (36675522102464875, (-17)); (28344703456072118, (-17)); (84673620940022065, (-17)); (9533394560327525, (-16)); (5280691451903311, (-16)); (7574929543065434, (-16)); (97097521235322293, (-17)); (13148837833542756, (-17))];
  [(86364209450049878, (-17)); (9050678788690687, (-16)); (60554025075537066, (-17)); (39106372308324133, (-17)); (71700538558400595, (-17)); (43738537528754862, (-17)); (40816884465332404, (-17)); (44787484131777433, (-17)); (69564727558912154, (-17)); (47028650874495614, (-17)); (85782036005606921, (-17)); (56203662364408147, (-17)); (14579932162977638, (-17)); (71699552195580984, (-17)); (50955289897526312, (-17)); (82578536764453503, (-17)); (28204276763142022, (-17)); (26853913532075735, (-17)); (22706819017238811, (-18)); (84792163332473935, (-17)); (11648401736975913, (-16)); (79941480091722816, (-17)); (99434011393699762, (-17)); (12979939097367206, (-16)); (11624543711930122, (-16)); (26491024164513499, (-17)); (39086931254283191, (-17)); (25496139026999382, (-17))];
  [(56969538441126921, (-17)); (92154388066481252, (-17)); (35535077817055449, (-18)); (15819229186770578, (-17)); (41521727209149928, (-18)); (3572447517676709, (-16)); (12280125368741102, (-17)); (48046663202900697, (-17)); (39027637339908861, (-17)); (38540513249014374, (-17)); (35266987692902119, (-17)); (6689474974638383, (-16)); (70105347441478716, (-17)); (31215236674007163, (-18)); (65378306046293944, (-17)); (96520450527899371, (-17)); (71544769506662298, (-17)); (87994527951760881, (-17)); (24649585452873968, (-17)); (24803266282936415, (-17)); (43748659029953041, (-17)); (54509293595084596, (-17)); (92680804869114647, (-18)); (28955009213364302, (-17)); (5896108237674822, (-16)); (3910401969889043, (-16)); (46956216334233286, (-17)); (49538675324234077, (-17))];
  [(74276747805613841, (-17)); (91987881607303501, (-17)); (26130536147250871, (-17)); (29210758483453814, (-17)); (99382614031615568, (-17)); (77670511620055871, (-17)); (71105952656306703, (-18)); (12945231623146336, (-17)); (32635235105315852, (-17)); (48914401964849019, (-17)); (5000935429088309, (-16)); (26263511833747943, (-17)); (97898394706256786, (-17)); (32009575062699402, (-17)); (58660628436457007, (-17)); (17131393684557794, (-17)); (47608348196532235, (-17)); (31926431781030284, (-17)); (22807689803597331, (-17)); (44220628757473751, (-17)); (88322974972084012, (-17)); (76517953887583823, (-17)); (21252208944343304, (-17)); (69264870966254555, (-17)); (57673096388022416, (-17)); (36461247593501955, (-17)); (78051820950268413, (-17)); (5376920083960548, (-16))];
  [(58767637126433114, (-17)); (69228600086805359, (-17)); (91756663532759541, (-17)); (11364346950546256, (-17)); (89212905969811807, (-17)); (18393242234328389, (-17)); (37917403672565264, (-17)); (46615803918470788, (-17)); (5684118031371922, (-16)); (9223475842895642, (-16)); (97248667664636723, (-17)); (93462481285254506, (-17)); (14791427246953792, (-17)); (10175051275797875, (-17)); (74222882450861138, (-17)); (77283039804550069, (-17)); (97957827814487108, (-17)); (51393959405609757, (-17)); (72361407725411031, (-17)); (11571022562163884, (-17)); (11549201663840309, (-16)); (18587266561158317, (-17)); (41657247378578954, (-18)); (46553004951215521, (-17)); (50233126807570805, (-18)); (50533130608766463, (-17)); (14367489070961681, (-16)); (77900018229101886, (-17))];
  [(48583892275804919, (-17)); (15196113016011148, (-17)); (3548261146816698, (-16)); (84694872213481187, (-17)); (7754246934026876, (-17)); (10976049055600112, (-17)); (70443714661192558, (-17)); (59651980347586497, (-17)); (67814413444751553, (-17)); (55420337209526616, (-17)); (63772939179946864, (-17)); (34923212015982463, (-17)); (32161655453917504, (-17)); (23861084275531841, (-17)); (13584690336437566, (-17)); (32557003280585639, (-18)); (56346990234648064, (-17)); (9705177197471192, (-16)); (49632564058350159, (-17)); (93648268336559604, (-17)); (29537781024370818, (-17)); (4147338962789282, (-16)); (29096309725921177, (-17)); (58083602192658325, (-18)); (95165622402867439, (-18)); (1284362517660669, (-15)); (37824896367379374, (-17)); (44848816210067782, (-17))];
  [(51131961020194505, (-17)); (54286809648286771, (-17)); (35576164925961817, (-17)); (12959655176256446, (-17)); (48453019358737803, (-18)); (16896297984485442, (-17)); (72553373130850707, (-17)); (45106103712400336, (-17)); (63721944628253413, (-17)); (22280624255372639, (-17)); (8868845370169629, (-16)); (7367448559078511, (-16)); (21782978309318424, (-17)); (58621774385398517, (-17)); (67172779418718787, (-17)); (90886672821936687, (-17)); (1458388423031487, (-16)); (47207692355131425, (-17)); (91340420948222178, (-17)); (63559053364794627, (-17)); (52374821385984316, (-17)); (54312649052176187, (-17)); (9775426742458061, (-16)); (67776800052169028, (-17)); (86231870738909422, (-17)); (74593853751982064, (-17)); (45645633876383074, (-17)); (6787663115160314, (-16))];
  [(25520839330681655, (-17)); (61384386943309777, (-17)); (29255222621134447, (-17)); (89768579877072519, (-17)); (44089166120678147, (-17)); (71724516231162028, (-17)); (81311463795463657, (-17)); (58386162866031466, (-17)); (54616952131996055, (-17)); (15578467980059063, (-17)); (63300306671655315, (-17)); (92027915620826362, (-17)); (24947651717735608, (-18)); (13145890872725563, (-17)); (23489349533859216, (-17)); (35082058321578802, (-17)); (82250183949412048, (-17)); (81886602042786905, (-17)); (86902520809880812, (-17)); (10477188286659049, (-16)); (75490863204436998, (-17)); (87731289199800744, (-17)); (53571616910360387, (-17)); (37347830277901106, (-17)); (40000363462291094, (-17)); (17223011644866473, (-16)); (13410980732377851, (-16)); (13469235382925913, (-16))];
  [(94844399445040828, (-17)); (43321595701839577, (-19)); (17706623616697481, (-17)); (44848841586146937, (-17)); (34522615672960677, (-17)); (75512034125491945, (-17)); (74044793109964668, (-17)); (81715956267493195, (-17)); (69142419695485346, (-17)); (25773553910695535, (-17)); (58087207395311058, (-17)); (30844298848660789, (-17)); (40108897026743695, (-18)); (6465713241602401, (-16)); (98051708070058408, (-17)); (20952183825320048, (-18)); (64378691364150986, (-17)); (75290127691181141, (-17)); (31062402728615268, (-18)); (68802657709932113, (-17)); (1889474889657512, (-16)); (45028804029805392, (-17)); (87059373987114719, (-17)); (40296164619936037, (-17)); (92133839251757754, (-17)); (83152288773307637, (-17)); (33523453020288602, (-17)); (77138893370059403, (-17))];
  [(87344044319580982, (-17)); (5045565257402973, (-17)); (97938510715827531, (-17)); (83286830503873421, (-17)); (61850040019618813, (-17)); (84468785088793585, (-17)); (93004681819838098, (-17)); (42955642046016329, (-17)); (26990273279013999, (-17)); (53283536488180983, (-17)); (14593249458590585, (-17)); (33180515469530458, (-17)); (24107048554710619, (-17)); (96048893909663979, (-17)); (82898117214498868, (-17)); (49913261977281043, (-17)); (91598844187262585, (-17)); (45609891117455281, (-18)); (24271757118729165, (-17)); (48656248239889022, (-17)); (32401297423268038, (-17)); (32713603962022486, (-17)); (18201166542625253, (-16)); (97831920707071163, (-17)); (15478620889209578, (-16)); (13149070867086623, (-16)); (45498996850602558, (-17)); (1241778803714134, (-15))];
  [(44971369604862421, (-17)); (54613051972636262, (-17)); (27837640963331434, (-17)); (73107703191533924, (-17)); (71235791830873407, (-17)); (22344611301189032, (-17)); (21125741219181182, (-17)); (43876712408459717, (-17)); (32155672953789338, (-17)); (32134757148570259, (-17)); (38581284830334295, (-17)); (62544771153235412, (-17)); (19450991827387432, (-17)); (81388521004088221, (-18)); (68400291885157882, (-17)); (8497421670700781, (-16)); (89254792762056467, (-17)); (64436612561200923, (-18)); (56420427207484269, (-17)); (63980788121976362, (-17)); (6869192285388247, (-16)); (26928603348806512, (-17)); (61034081539590357, (-17)); (77765142516515207, (-17)); (38535503651870356, (-17)); (74167640593897732, (-17)); (94330602992103307, (-17)); (48815587120659754, (-17))];
  [(71610321304837077, (-17)); (35466040671876875, (-17)); (77093369894734842, (-17)); (7225239079611766, (-16)); (70289160504306947, (-17)); (3385858576766142, (-16)); (11924212893830788, (-17)); (80176104247798496, (-17)); (80091192761046814, (-17)); (23937964724285621, (-17)); (47339586337646078, (-17)); (59358606458183427, (-17)); (27535839627626701, (-17)); (11892080441528585, (-17)); (31700516160309267, (-17)); (83914609677679974, (-17)); (48425203229525493, (-17)); (89813621531472654, (-19)); (66660298504831716, (-17)); (75913263248934848, (-17)); (81818790386297402, (-17)); (69983992065790412, (-17)); (37185419025558031, (-17)); (92339695902733332, (-17)); (8170227634941617, (-16)); (50411011076895107, (-17)); (78738504577199708, (-17)); (93675887723169105, (-17))];
  [(56874471446606556, (-17)); (59996376719942002, (-17)); (82879458615252133, (-17)); (92926997181605775, (-17)); (74963938868932267, (-17)); (27046299692278364, (-17)); (25860887314638503, (-17)); (42745127870633082, (-17)); (2335048416157538, (-16)); (68066501685231096, (-18)); (33650978577527968, (-18)); (95420604187688285, (-17)); (30078120738265834, (-17)); (88184493451307056, (-17)); (86256801086900226, (-17)); (80911896078973466, (-17)); (14368235652391848, (-17)); (43701611376173011, (-17)); (40749383505624548, (-17)); (94675660942858886, (-17)); (82514445041034734, (-17)); (30236965666969273, (-17)); (15317002132974082, (-16)); (15285902578183652, (-16)); (11184607449107333, (-16)); (58425272610567103, (-17)); (57652717364623951, (-17)); (30989082974567733, (-17))];
  [(62827100679844816, (-17)); (73259304652096746, (-17)); (30779379725847056, (-17)); (18823936388474916, (-17)); (99458437510259179, (-17)); (44291454248322226, (-17)); (26809392275275956, (-17)); (46403911173453116, (-17)); (50528764725780573, (-17)); (20815237411691867, (-17)); (99487443869134362, (-17)); (99355674145769324, (-17)); (52421322194823039, (-17)); (45274173715320642, (-17)); (19712585496901613, (-17)); (34539994476054048, (-18)); (72506561205234021, (-17)); (17186765638851365, (-17)); (57998132463640195, (-17)); (84478998349933632, (-17)); (19772699175631401, (-16)); (10229102761270747, (-16)); (31588855727003701, (-17)); (59558041721592803, (-17)); (26812174744039219, (-17)); (63873895589893148, (-17)); (10790991074599223, (-16)); (64132330007201976, (-17))];
  [(22773246357421473, (-17)); (83278757288587768, (-17)); (37224851201792253, (-17)); (99071684576371455, (-17)); (60027670417739343, (-17)); (68149435768589584, (-17)); (29265334030781176, (-17)); (44637931854428481, (-17)); (31062570397369493, (-17)); (33018747311164498, (-18)); (47115644214279828, (-18)); (69605274144410867, (-17)); (35627564938554346, (-17)); (42264113349593502, (-17)); (98196466163430929, (-17)); (27363776074184765, (-17)); (45004968770223219, (-17)); (3278847678139607, (-16)); (38044005548416049, (-17)); (80051247503331768, (-17)); (59764389650340366, (-17)); (5948012551412627, (-16)); (11550368491217315, (-16)); (10444325121390166, (-16)); (90852058468434549, (-17)); (55069040606871766, (-17)); (74103050692496786, (-17)); (51503915383280163, (-17))];
  [(87887711223360621, (-17)); (96048089280772375, (-17)); (29790593815129274, (-18)); (37203742567892562, (-17)); (2269706688964358, (-16)); (57264884089298262, (-17)); (482136609301276, (-15)); (21443359217107605, (-17)); (65196598108395065, (-18)); (78974079785474938, (-17)); (51674785624070196, (-17)); (68661877233122115, (-17)); (37366764088769822, (-19)); (69742578885086748, (-17)); (58794811075607134, (-18)); (7457538652813257, (-16)); (79396582571070107, (-17)); (43960124500085584, (-17)); (82997436362041588, (-17)); (20935984202203256, (-17)); (74894351534511822, (-18)); (48352379962829539, (-17)); (95406102113823321, (-17)); (7132261681994343, (-16)); (36933603539005955, (-17)); (94196973215569513, (-17)); (61322842507215558, (-17)); (56158250536194687, (-17))];
  [(64925284504858649, (-17)); (95037435600292852, (-17)); (18985231720703222, (-17)); (9000275041173218, (-16)); (74386832546338388, (-17)); (34562381324228508, (-17)); (21528038978952524, (-17)); (27054329805875754, (-17)); (66314585834605522, (-17)); (130770574314517, (-15)); (69655595174780927, (-18)); (21741676102720375, (-18)); (44624655123899704, (-17)); (76361938439288402, (-18)); (40680993599679871, (-17)); (95085194098284576, (-17)); (76053600335555438, (-17)); (57823981564362326, (-17)); (78379732396927715, (-17)); (16664135218109161, (-17)); (20645968008632865, (-17)); (31908923877306217, (-17)); (59138948072859043, (-17)); (58622089918286413, (-17)); (77770031024567476, (-17)); (12145918565196687, (-16)); (13572469854130873, (-16)); (8810369207733032, (-16))];
  [(38859423276750882, (-17)); (21621972049362892, (-17)); (77649040768111388, (-17)); (35693471701161106, (-17)); (65689943917818394, (-17)); (12220369296243916, (-17)); (42983606327630719, (-17)); (62681383775483523, (-17)); (5216974126136571, (-16)); (21079124428875984, (-17)); (2937587637754504, (-16)); (50908321441624504, (-17)); (11484983653697634, (-17)); (19105038434861787, (-17)); (18844440317808442, (-17)); (59732246748223283, (-17)); (97529808278187635, (-17)); (27772222811418767, (-17)); (25185114378793005, (-17)); (31922700358273082, (-17)); (47845906761713419, (-17)); (26860514099514837, (-17)); (39406840244971264, (-17)); (55358724526002645, (-17)); (45347446895525567, (-17)); (62605286392480508, (-17)); (66395833886803879, (-17)); (88494118445268233, (-17))];
  [(13890779678661636, (-17)); (73480881866207071, (-17)); (96274510564124127, (-17)); (61402930121224442, (-18)); (20876956942668079, (-17)); (87959989416394169, (-17)); (53748231422555615, (-17)); (94880525473471944, (-17)); (14813437326587497, (-17)); (74128298324964847, (-17)); (54616993043515993, (-17)); (82795638299791041, (-17)); (51028964425014467, (-17)); (66649498059914636, (-17)); (59685596277063657, (-17)); (8893044730123717, (-16)); (96058171899889966, (-18)); (3105682085443241, (-16)); (97271420857139723, (-17)); (31271700558798332, (-17)); (57387108286861488, (-17)); (78676702042447166, (-17)); (54495736368563696, (-17)); (1094738024998233, (-15)); (10001198710076755, (-16)); (52157746827931939, (-17)); (88225071492158835, (-17)); (26895938066018898, (-17))];
  [(29164445791419535, (-17)); (38026393991949881, (-17)); (76162985091711699, (-17)); (14300684124417673, (-17)); (43250059548051167, (-17)); (6216715299660025, (-17)); (2559697441288713, (-16)); (80339757953459856, (-17)); (92865713043680631, (-18)); (31918162660198091, (-18)); (52316028234804912, (-17)); (61472473012709761, (-17)); (28765938060699503, (-17)); (88449992076826522, (-17)); (59254296359888969, (-17)); (66903772685200646, (-17)); (3962810792813608, (-16)); (47042993767632135, (-17)); (98764499460208621, (-17)); (31066246445873408, (-17)); (69543686344954692, (-17)); (44925805034348892, (-17)); (51229779067500525, (-17)); (1134837504388448, (-15)); (75961964196619514, (-17)); (43299213496722533, (-17)); (11472046366483339, (-16)); (41196658463814723, (-17))];
  [(67749530519923351, (-17)); (91407094550117474, (-17)); (8096057313733358, (-16)); (92897637239817921, (-17)); (82000325435343524, (-18)); (86992300720852511, (-18)); (31047670029342034, (-17)); (7588884617741366, (-16)); (43151429380139039, (-17)); (43088572405203363, (-18)); (97705496291305061, (-17)); (56929789865529024, (-17)); (79477000548800347, (-17)); (20987283316459804, (-17)); (30321105528634973, (-17)); (35972437868677165, (-17)); (84276399570174187, (-17)); (98248673911589968, (-17)); (25994008023723392, (-17)); (14589504774814648, (-16)); (15230853802949569, (-16)); (11665358348366905, (-16)); (5347059414863613, (-16)); (47829433869255644, (-17)); (34154756346272008, (-17)); (15680556186419241, (-16)); (10116785894858076, (-16)); (84812539045367474, (-17))];
  [(73222166493145346, (-17)); (17281386217943573, (-17)); (38906099923698312, (-18)); (73462721141418663, (-17)); (46247238427508497, (-17)); (79236758550403674, (-17)); (37456479837726431, (-17)); (59653289252431552, (-17)); (79882454520702972, (-18)); (38643029550245278, (-17)); (60855455022898175, (-17)); (89102334386940674, (-17)); (93230374414223749, (-17)); (3556396735720061, (-16)); (49376101097261393, (-17)); (79025466268785638, (-17)); (10356940814067761, (-17)); (99183676612195359, (-17)); (52822890333935235, (-17)); (12908498600476133, (-16)); (10832861751111071, (-16)); (9190298287318579, (-16)); (83539504569631684, (-17)); (76968110892519592, (-17)); (53729896818768408, (-17)); (69796600470350645, (-17)); (71001011471528763, (-17)); (79026154222998057, (-17))];
  [(91348861657430358, (-17)); (85228790391291775, (-17)); (63772866187099209, (-18)); (97314089687543071, (-18)); (90930885509958426, (-18)); (6630833707616326, (-16)); (98636593047149923, (-17)); (21703328435583003, (-17)); (78620231177833977, (-17)); (35639123346207457, (-17)); (41420264318886901, (-18)); (46705720878048418, (-17)); (92280947913368039, (-17)); (31992604796063906, (-17)); (77304444182000942, (-17)); (45899791293571113, (-17)); (22549495230404226, (-17)); (43288727917113556, (-17)); (94891689268394719, (-17)); (8408323222079509, (-16)); (13559586079441027, (-17)); (10174179176210676, (-16)); (56160965468327251, (-17)); (20130780369379106, (-17)); (91718178278420215, (-17)); (10381915409334959, (-16)); (30137703841574259, (-17)); (10710564355870478, (-16))];
  [(62763353262246535, (-17)); (90252897607173588, (-17)); (46527750435801518, (-17)); (75634590182878891, (-17)); (72996647848775131, (-18)); (46400538644314859, (-17)); (92318159429649271, (-18)); (36683938193434806, (-17)); (19415732504429073, (-17)); (54443586929626608, (-17)); (21035320348027575, (-18)); (47696993423391254, (-17)); (81940166235021328, (-17)); (48675353537265242, (-17)); (84469152651811297, (-17)); (8140194869539652, (-17)); (16106604616677078, (-17)); (89764403880617416, (-17)); (89335565931100336, (-17)); (24872550897658391, (-17)); (12444704647117549, (-17)); (24689691703574868, (-17)); (73145064384140424, (-17)); (81950306838156642, (-18)); (45823275634864752, (-17)); (52101246921526001, (-17)); (94603113241766845, (-18)); (41623981401143506, (-17))];
  [(45068465739153241, (-18)); (72307646138786752, (-17)); (47321628808212002, (-17)); (88447855425033062, (-17)); (38026367375892711, (-17)); (78313990715134685, (-17)); (56100324495163101, (-17)); (65272071567150824, (-17)); (76765609806179214, (-17)); (61514581966893267, (-17)); (26780538002559429, (-17)); (75342035471558766, (-17)); (44813830269167609, (-17)); (22524042820246448, (-18)); (72372734120576487, (-17)); (451325368895518, (-15)); (55705316375581515, (-17)); (96226162915724289, (-17)); (48633296359994838, (-17)); (92258927195720419, (-17)); (42902312879639087, (-17)); (84467313946359779, (-17)); (76947812453402031, (-17)); (23560141251351305, (-17)); (63059258031677212, (-17)); (1247722423346743, (-15)); (66594945750863754, (-17)); (11930399837399315, (-16))];
  [(49074712509445784, (-17)); (98729187516974826, (-17)); (11720991487717825, (-17)); (14750318400250939, (-17)); (26329909711983923, (-17)); (94539313501395372, (-17)); (43171682601058747, (-17)); (24506181360796608, (-17)); (13819991668265641, (-17)); (42645227177761025, (-17)); (52603711239976603, (-17)); (84783989458682085, (-17)); (57038127546298056, (-17)); (60608965066776854, (-17)); (54831434169048787, (-17)); (85238572950529068, (-17)); (20781796508635109, (-17)); (8536679386167435, (-16)); (57145518106559923, (-17)); (45512156978787449, (-17)); (52690451087417012, (-17)); (10293203251470586, (-16)); (63809694603546041, (-17)); (72720914074562248, (-17)); (8648543912037403, (-16)); (293590240250585, (-15)); (20548948277800794, (-17)); (87580315858282676, (-17))];
  [(42816791259741505, (-17)); (61497463454060264, (-17)); (52175209100833064, (-18)); (29609765783749953, (-17)); (81737561744713993, (-17)); (86606029471339752, (-17)); (43933409582199301, (-17)); (35136239033215999, (-17)); (62419093893817945, (-17)); (55817405082354787, (-17)); (97885312572056782, (-17)); (10020068446329822, (-17)); (25541288882283952, (-17)); (30400409437021336, (-17)); (8431324641196899, (-16)); (54891221279378521, (-17)); (41008184372183376, (-17)); (7807143805718445, (-16)); (40792219580940592, (-17)); (62366504349410401, (-17)); (10609402547642639, (-16)); (72258516643093884, (-17)); (41979806960855848, (-17)); (79299223142921438, (-17)); (10916031690883696, (-16)); (41149556272578197, (-17)); (82176500832298538, (-17)); (10128225415635006, (-16))];
  [(44664108493542654, (-17)); (35463064628983976, (-17)); (20805079561558582, (-17)); (12095262909154048, (-17)); (97370873850867679, (-17)); (58225127015524003, (-17)); (66119523119020596, (-17)); (65945823810918569, (-17)); (5986489644021098, (-17)); (6925589972267201, (-16)); (42409825624441067, (-18)); (19614188143851452, (-17)); (86469283059986757, (-17)); (8297336401754154, (-16)); (17176509404701013, (-17)); (13207919005898472, (-17)); (50373621856737127, (-17)); (6397870863306121, (-20)); (41700834889205085, (-17)); (55190574560834404, (-17)); (71074233271959775, (-17)); (13615919899646436, (-17)); (40362815559286686, (-17)); (91924608829485344, (-17)); (50338696228287416, (-17)); (4877698829485636, (-16)); (72570087493367486, (-17)); (29291731339196708, (-17))];
  [(51726375433860217, (-17)); (8712274412498755, (-17)); (93694948515472576, (-17)); (63660843280488888, (-17)); (87630087260421874, (-17)); (92546890274451221, (-17)); (77128289011682305, (-17)); (40496213468962161, (-17)); (60751491152617798, (-17)); (19037653577572888, (-17)); (6892743076929333, (-16)); (74108501277180616, (-17)); (4396472699634062, (-16)); (67776995487687119, (-17)); (8353848631705485, (-16)); (36306009018928187, (-17)); (93209056752390618, (-17)); (46956813865679115, (-17)); (88624233014273668, (-17)); (11629397214428743, (-16)); (97676623844501165, (-17)); (15640161338042058, (-16)); (11463575100517502, (-16)); (10224469221260346, (-16)); (15738650274307868, (-16)); (15168217559392885, (-16)); (98950149535483212, (-17)); (19026475222905721, (-16))];
  [(33472453452772644, (-17)); (50446415963394398, (-17)); (69340052572690269, (-17)); (18234887864129667, (-17)); (44229556392375124, (-17)); (80209529233378618, (-17)); (36033796635064463, (-17)); (48982880224515613, (-17)); (33177415986458814, (-17)); (14709243167296315, (-17)); (71748579142842761, (-17)); (91116912452983112, (-17)); (11827511946394176, (-17)); (69809814083023469, (-17)); (76685114745807004, (-17)); (44826464669196342, (-17)); (93241710032158631, (-17)); (75242479757304692, (-17)); (31042016831498964, (-17)); (41901715729726463, (-17)); (79376855396655566, (-17)); (12460722587031801, (-16)); (51203524463125771, (-17)); (89200370233806603, (-17)); (12401366452509128, (-16)); (54431779549953352, (-17)); (95135686988820756, (-17)); (13726913943716001, (-16))];
  [(39739838395713334, (-17)); (499011188396011, (-15)); (34630067572033674, (-17)); (2983097742099996, (-16)); (67949341031228916, (-17)); (71304801542095986, (-17)); (19329981271668994, (-17)); (55166877524417146, (-17)); (14420289617123905, (-17)); (78327950386701717, (-17)); (1944222043363586, (-17)); (44712316353105963, (-17)); (97660845965087717, (-17)); (21856374639028164, (-17)); (37775633121810281, (-17)); (81770270989452098, (-17)); (33802519677872878, (-17)); (86611400407998751, (-19)); (50888967329093937, (-17)); (16748335415537935, (-17)); (61281209169042972, (-17)); (27204426622340983, (-17)); (23954003991697448, (-17)); (68205314173607734, (-17)); (3800774315683968, (-16)); (26410835954324108, (-17)); (56345320145019662, (-17)); (32866233248150528, (-17))];
  [(73223190553560891, (-17)); (30096210829817205, (-17)); (34998685724472611, (-17)); (14350170694118924, (-18)); (12147103146193505, (-17)); (82273628287069345, (-17)); (70437719456174219, (-17)); (85124168763313079, (-18)); (85239042178187596, (-17)); (39970495200975531, (-17)); (19744795988694985, (-17)); (77933380325346147, (-17)); (74900726973954923, (-17)); (84525038627087545, (-17)); (76633090098728129, (-17)); (15619184004261555, (-17)); (73002495060861539, (-18)); (51959060365389975, (-17)); (51640863787460389, (-17)); (45010208537048002, (-17)); (12376244351721846, (-17)); (124982261050073, (-14)); (47663921682973787, (-17)); (28358518373772973, (-17)); (11526834647604094, (-16)); (27220882984224359, (-17)); (64935425906248345, (-18)); (81011414489838507, (-17))];
  [(23424252285102276, (-17)); (74219651524743924, (-17)); (11427791013216482, (-17)); (56179066584218562, (-17)); (8894191483429581, (-16)); (81428465747889556, (-17)); (54429279174811129, (-17)); (4119304091479199, (-16)); (61942086362673299, (-17)); (81039376362857807, (-17)); (57225612167047635, (-17)); (75196498081820984, (-17)); (73902430567704813, (-17)); (43770430836483221, (-17)); (16422551909966332, (-18)); (92899947358354829, (-17)); (53670227391148295, (-17)); (99928361995115444, (-17)); (42783086350225019, (-17)); (89110002183591264, (-17)); (10225100334318338, (-16)); (12002194771694676, (-16)); (75805111518594326, (-17)); (88989081944959025, (-17)); (87601705749726477, (-17)); (75529220501367156, (-17)); (87182778274010009, (-17)); (11020036839570158, (-16))];
  [(40260564763189299, (-17)); (21863579455251581, (-17)); (33065896135917261, (-18)); (20851066416772301, (-17)); (51108992617340643, (-17)); (61545611110267817, (-17)); (96497696966938429, (-17)); (30163861942673054, (-17)); (89043204033750889, (-17)); (22606805636555272, (-17)); (59474491090923809, (-17)); (52257262104851609, (-17)); (63587674136452899, (-17)); (3707192923539957, (-16)); (47833700649422584, (-17)); (84807916723081267, (-17)); (86757912613873522, (-17)); (9801883686398476, (-16)); (27561713454416137, (-17)); (93378898631110752, (-17)); (62133877547559679, (-17)); (97698101994150899, (-17)); (10351931607578917, (-16)); (59208395850119744, (-17)); (11016042729909423, (-16)); (75764114294229112, (-17)); (80756532160534256, (-17)); (97370895424519455, (-17))];
  [(20627033619993096, (-17)); (44662004986769221, (-17)); (25352224838619597, (-17)); (94595456161206537, (-17)); (31221063052021025, (-17)); (61388626242771793, (-17)); (91799317356335375, (-17)); (88593962934537107, (-17)); (28608039606712499, (-17)); (75451487231575287, (-17)); (75743076959115641, (-17)); (34697886325066984, (-18)); (81453872439154218, (-17)); (39243386838264316, (-17)); (25969159695414368, (-17)); (33948472219844994, (-17)); (49150832569743985, (-17)); (96388628574476254, (-17)); (22319178879701373, (-17)); (13713400641333577, (-16)); (11273578113595282, (-16)); (70090734020942524, (-17)); (76718467589935779, (-17)); (49201710675336341, (-17)); (40567719021827514, (-17)); (11253699939664246, (-16)); (38718626391444566, (-17)); (62505822558284896, (-17))];
  [(29429593939134346, (-17)); (72524632247074028, (-17)); (95541030229862711, (-18)); (27690761017151844, (-18)); (23858749733802387, (-17)); (7739252599336871, (-16)); (6613319918176368, (-16)); (27294265095312409, (-18)); (88245656313898313, (-17)); (1275928137777429, (-16)); (50376758981995007, (-18)); (66914810500481703, (-17)); (10728068298176496, (-17)); (8131061666356485, (-16)); (59072905045247337, (-17)); (36747677799999112, (-17)); (52351285372938017, (-17)); (55348205912451209, (-17)); (79709258527744431, (-17)); (79150987971155579, (-18)); (13729614930178474, (-17)); (60993140303768323, (-17)); (47734082204108319, (-17)); (70490336872211334, (-17)); (92769223933910538, (-17)); (67627758113565217, (-17)); (49414123148722566, (-17)); (12227081293668149, (-16))];
  [(11406113832379094, (-17)); (31358158892877586, (-17)); (17910115832403339, (-17)); (667034066031716, (-15)); (38882488372029533, (-17)); (84717689469657964, (-17)); (97410706642313849, (-17)); (38627020871864359, (-17)); (52972189599445063, (-17)); (18591105544229802, (-17)); (84411127453021995, (-17)); (74148205497467179, (-17)); (65402779786535326, (-17)); (57620088220388044, (-17)); (8405480877247552, (-16)); (21426591093706171, (-17)); (58161353961807827, (-17)); (15958658601600972, (-17)); (29981014309398724, (-17)); (13062279641990395, (-16)); (81379535343745579, (-17)); (12200066575018884, (-16)); (8776420592960037, (-16)); (57422272573941746, (-17)); (97714644245987659, (-17)); (53020486044153248, (-17)); (38858134142126077, (-17)); (47985095582487647, (-17))];
  [(63602172048499883, (-17)); (32791383993123879, (-17)); (63249405764434419, (-17)); (8935094189435171, (-16)); (18736157404923848, (-17)); (8234654824497738, (-16)); (54832614513963007, (-17)); (50169153420717716, (-17)); (4575865803871848, (-17)); (92553495942583419, (-17)); (90616669664615379, (-17)); (28310357292774846, (-17)); (94609898243387247, (-17)); (96257022545739201, (-18)); (12728953113755592, (-17)); (69900155006628328, (-17)); (72841100216671706, (-17)); (94571931327690661, (-17)); (13413897020131627, (-17)); (15205373264578201, (-16)); (74673148733614614, (-17)); (98129835779279595, (-17)); (49253339046172556, (-17)); (36507000812963508, (-17)); (13064376512944631, (-17)); (89979271330077004, (-17)); (17878341275715545, (-17)); (7528978414827705, (-16))];
  [(85590252282050794, (-17)); (74843909031895439, (-17)); (17476928226220279, (-17)); (25725572453154544, (-17)); (80484250647156308, (-17)); (19409252896959606, (-17)); (64496114963981421, (-17)); (57624379988511465, (-17)); (46766179171619149, (-17)); (50226285744524324, (-17)); (71321544876169329, (-17)); (52049468595083459, (-17)); (85028087951323017, (-17)); (40597658315709706, (-17)); (40346239560293462, (-17)); (81487737797077409, (-17)); (12955622458757809, (-18)); (80222981596840603, (-17)); (77437546512926614, (-17)); (10746753246249439, (-16)); (14138236115937413, (-16)); (61829392479154743, (-17)); (80513548543035074, (-17)); (10324383397627406, (-16)); (51590193262396422, (-17)); (36110448215114704, (-17)); (73662504768213877, (-17)); (43432110687260417, (-17))];
  [(45250856291674701, (-17)); (79563841302932536, (-17)); (21843577342660558, (-17)); (5996597756601757, (-16)); (44500917640525139, (-17)); (24329265038852799, (-17)); (55833213457778641, (-17)); (99146709349799633, (-17)); (49520832447919394, (-17)); (81009998390949822, (-17)); (25811176762667576, (-17)); (2913742033470812, (-16)); (31151062197229074, (-18)); (80068656192518195, (-17)); (34129399980382213, (-17)); (29917516408350753, (-17)); (77533611045735407, (-17)); (25427031858445415, (-18)); (21677644423494202, (-17)); (23498572830505721, (-17)); (17713682591422317, (-17)); (10255394896268993, (-17)); (79385191541233113, (-17)); (90193624641503956, (-17)); (41308375574087197, (-17)); (70187402930355258, (-17)); (88329738489430087, (-17)); (36099109598606999, (-17))];
  [(40622106699908644, (-17)); (64327963533781896, (-17)); (81595839909690149, (-17)); (98303847793525834, (-17)); (92247930075723306, (-17)); (27394518932706458, (-17)); (11490980863988776, (-17)); (61041694828207149, (-17)); (28764458289431583, (-17)); (98641112016958743, (-17)); (17246372230045437, (-17)); (87139993942448546, (-17)); (90973535892668556, (-17)); (70029485504806555, (-17)); (82767338818897074, (-17)); (41343959610711212, (-17)); (19305560303561797, (-17)); (92770915272072985, (-17)); (68674657903795955, (-17)); (46193893681804932, (-17)); (7251578530553151, (-16)); ((-82615131670773556), (-18)); (94707217841440738, (-17)); (10168498381867181, (-16)); (1559839126282172, (-16)); (46927354897696066, (-17)); (61063821956991193, (-17)); ((-16259340429029281), (-17))];
  [(2546703350702868, (-16)); (62811751078104039, (-17)); (30893959028776063, (-17)); (93405956515534561, (-17)); (52140511253239596, (-17)); (48558374258008075, (-17)); (99085518194558286, (-17)); (7821865958000167, (-16)); (22470674905107346, (-18)); (61176038641801145, (-17)); (70524835339521719, (-17)); (52348916592698691, (-17)); (33729384030696929, (-17)); (99340913622425697, (-17)); (58525697447254732, (-17)); (68671191343383442, (-17)); (7259584085388987, (-16)); (69577105899162994, (-17)); (76631218003070467, (-17)); (11832887638168779, (-16)); (87225829564568036, (-17)); (49783479422028815, (-17)); (17823658666181466, (-16)); (13841135099397703, (-16)); (67252057788988551, (-17)); (17303498503171371, (-16)); (12360706763666922, (-16)); (55640603428945257, (-17))];
  [(5819872657453119, (-16)); (11507409347990938, (-17)); (30213874070069391, (-17)); (32143075136176202, (-17)); (71986024217350453, (-17)); (33974603451703078, (-17)); (47256889239323208, (-17)); (15172734143342637, (-17)); (36532228669018985, (-17)); (7668472116785372, (-16)); (20639135036562173, (-17)); (50364348761657596, (-17)); (63093988961136083, (-17)); (45289835820281632, (-17)); (99120047033332892, (-17)); (78156208367562974, (-17)); (10525145648944145, (-17)); (1254285816838675, (-16)); (58855481701209944, (-17)); (34388290834606938, (-17)); (4367845001415227, (-16)); (34168677176366918, (-17)); (48931437578472436, (-17)); (8169988019018557, (-16)); (52552445697680716, (-17)); (32409801296653712, (-17)); (20559714059720158, (-17)); (26711460570429796, (-17))];
  [(85201470073759111, (-19)); (42521441035073193, (-17)); (2062124061854842, (-17)); (65854682919786911, (-18)); (57736972480347548, (-17)); (75925555466164529, (-17)); (85982656929020185, (-18)); (49771519512984508, (-17)); (7277928555760278, (-16)); (88322460787111623, (-17)); (57043430536829998, (-17)); (13047811926616659, (-17)); (69093432817939648, (-17)); (51990130902330944, (-17)); (97343685472960662, (-17)); (92141849422132971, (-17)); (54364100289941897, (-17)); (95697085705790619, (-17)); (81041504825457511, (-17)); (96117669762015245, (-18)); (75728610386076101, (-17)); (90581627269363629, (-17)); (14277194663268999, (-17)); (86770953837107934, (-17)); (1436013793512013, (-15)); (13398431384521059, (-17)); (82883734254687225, (-17)); (13617940241189417, (-16))];
  [(57136825234122757, (-17)); (26231601471748389, (-17)); (76557626603614082, (-17)); (16030841992771672, (-17)); (56652943137052303, (-17)); (93855341920845592, (-17)); (13589666767733988, (-17)); (32215799797633771, (-17)); (77033029132821873, (-17)); (59966759573592776, (-17)); (86117574784712703, (-17)); (79876860737651978, (-17)); (22376696314806144, (-17)); (34207764943490071, (-17)); (20759970330807331, (-17)); (17583781113927488, (-17)); (27949020915050016, (-17)); (80712846830600771, (-17)); (12244523181690381, (-17)); (36265493783564301, (-17)); (78923762217481341, (-17)); (14465569086614813, (-16)); (17672535580678894, (-17)); (30645391299662544, (-17)); (60399241357179545, (-17)); (20301288833801043, (-18)); (44732236351500526, (-17)); (69563225729221712, (-17))];
  [(63599082502784043, (-17)); (28534761829600841, (-17)); (1431693713244534, (-16)); (65575146335991941, (-17)); (99035350235114905, (-17)); (25779622383997525, (-17)); (31841167277057991, (-19)); (30752657447826404, (-17)); (33866478932658195, (-17)); (39480933876956059, (-17)); (14525436840624983, (-17)); (10272299350024894, (-17)); (7724891842865329, (-16)); (59252241366448521, (-17)); (97789423541446585, (-17)); (80534531918745245, (-17)); (67131538243031452, (-17)); (303610156958799, (-16)); (30404356390427267, (-18)); (1614201413127706, (-16)); (41378247780635735, (-17)); (31400163978604489, (-17)); (85256949476792232, (-17)); (14160672433437957, (-16)); (58865301167341544, (-17)); (57447383809309349, (-17)); (46631325195037676, (-17)); (17113315497641216, (-17))];
  [(98856770817940065, (-17)); (59250872738438076, (-17)); (80077325030847046, (-17)); (64593321365122869, (-17)); (48582082826917949, (-17)); (9538251115166283, (-16)); (38180407507328473, (-17)); (93347375245222675, (-17)); (34884879172125782, (-17)); (6425946250780521, (-16)); (85707420137996937, (-17)); (47390349505664808, (-17)); (72237792469283379, (-17)); (35673668536391068, (-17)); (63653977508005921, (-17)); (28824149037295432, (-17)); (63072527721238469, (-17)); (17261953098111937, (-17)); (51488512005507747, (-17)); (12501569275028235, (-16)); (13464240788146626, (-16)); (14257819894394093, (-16)); (48251197117927369, (-17)); (56368067554080703, (-17)); (71373540998010798, (-17)); (92688146001366445, (-17)); (96927482785500052, (-17)); (99344186028285186, (-17))];
  [(24637624258170177, (-18)); (68295099410089311, (-17)); (47181867760858398, (-17)); (90734316018570793, (-17)); (42382717731442332, (-17)); (7771546270559353, (-16)); (87336913326333154, (-17)); (74933312917773387, (-17)); (84861773696379839, (-17)); (95449526961768227, (-17)); (92744635049733293, (-17)); (24595322836289846, (-18)); (37200905973271226, (-17)); (84452135832855824, (-18)); (77253185797113477, (-17)); (14231943544412062, (-17)); (80353444020082154, (-18)); (93408550348012254, (-17)); (38089661897019522, (-17)); (10372063740784174, (-16)); (95795508875992352, (-17)); (11583701090884886, (-16)); (57766231348644814, (-17)); ((-72087919658201299), (-18)); (24695835219263029, (-17)); (86441609048121015, (-17)); (53193533393833203, (-18)); (45607335193182963, (-17))];
  [(66835783307570096, (-17)); (27321010984852301, (-17)); (49909575130639094, (-17)); (51978434674226137, (-17)); (67638962995711105, (-17)); (87416434243734464, (-17)); (36114403498758596, (-17)); (82695670348282657, (-17)); (94344478580922797, (-17)); (83623214298195969, (-18)); (25688330532041082, (-17)); (75971135887626517, (-17)); (96641117020201461, (-17)); (24198132153566165, (-17)); (9757560217500153, (-16)); (519297940327067, (-16)); (76669467101879551, (-17)); (95077918562619257, (-17)); (1159275846098673, (-16)); (88235155401212007, (-17)); (13783595144060405, (-16)); (16883948864974347, (-16)); (64136353869833529, (-17)); (75791353773981085, (-17)); (99632486439501333, (-17)); (10251845395635015, (-16)); (96707211535413895, (-17)); (13352660719083056, (-16))];
  [(29748872396731652, (-17)); (4337446526335289, (-16)); (37464320847106791, (-17)); (80443205057225065, (-17)); (94052545644962393, (-17)); (66704957818356747, (-17)); (80237060091812307, (-18)); (779299059300256, (-15)); (69373431420482468, (-17)); (43412487870497329, (-17)); (27250064748699554, (-17)); (44291291258394683, (-17)); (6073343714765822, (-17)); (23053284023017961, (-17)); (66580216301466921, (-17)); (78440526721045312, (-17)); (52849274385535339, (-17)); (17866517897866063, (-17)); (35923999883140112, (-17)); (43844369698857311, (-17)); (55948662422307671, (-17)); (40945362991149081, (-17)); (60575939146800128, (-17)); (1239849339777054, (-15)); (98521356432876583, (-17)); (45831624463157211, (-17)); (81685042380270811, (-17)); (65709632496810777, (-17))];
  [(18963867271188606, (-17)); (98557088424938089, (-17)); (94062085681815499, (-17)); (95548565104602312, (-17)); (30705713901716991, (-17)); (54301582484917454, (-18)); (71131655865263244, (-17)); (62006663833569098, (-17)); (875179222325286, (-15)); (7347369920853547, (-16)); (49236914402471954, (-17)); (62881136271690774, (-17)); (70037808329933227, (-17)); (28981704337492065, (-17)); (78649021748196812, (-17)); (42199202649254586, (-19)); (6682042249227016, (-16)); (56814432977081519, (-17)); (40336209638988751, (-17)); (12487310941945657, (-16)); (62350441536615731, (-17)); (60334530171290068, (-17)); (68704039718306364, (-17)); ((-66237652933044511), (-18)); ((-24773878991532547), (-17)); (11395333802353051, (-16)); (63037998722057231, (-17)); (50833899422183382, (-17))];
  [(28936891747085414, (-17)); (2667906879547608, (-16)); (27248706735345962, (-18)); (15109664550135438, (-17)); (57024785727365668, (-17)); (47957684784732679, (-17)); (61773826486137329, (-17)); (50168341651536097, (-17)); (50199097590635466, (-17)); (95386450462626204, (-17)); (50492487969605515, (-17)); (65007976511789423, (-17)); (80851886271449014, (-18)); (73008253339282669, (-17)); (37292704396596077, (-17)); (73257395561957661, (-17)); (98659180522939771, (-17)); (84429268134965019, (-17)); (76335403869513618, (-17)); (10009425403356455, (-17)); (42635336606072205, (-17)); (41197598287700871, (-17)); (60931869348616652, (-17)); (86166708680060045, (-17)); (76002231888833893, (-17)); (63283779144328089, (-17)); (1088943708931895, (-15)); (1000161186788173, (-15))];
  [(4156708917928168, (-16)); (25858367315508923, (-17)); (10800886293235723, (-18)); (20464854694457846, (-17)); (67233906218992345, (-17)); (50298105320735043, (-17)); (30640900382280856, (-17)); (62349484712879033, (-17)); (79156299554393117, (-17)); (58868719312061057, (-18)); (32215279242248562, (-17)); (63855574914572677, (-17)); (17205864735006071, (-17)); (86990371034434899, (-17)); (9351244121429213, (-16)); (18886649510859754, (-17)); (12053978154648248, (-17)); (9997829520882322, (-16)); (78848483510498923, (-17)); (30511344329691714, (-17)); (62204766245746645, (-17)); (4694214453194418, (-16)); (59748274809625346, (-17)); (99012606177637119, (-17)); (6535628791355178, (-16)); (47286741509522934, (-17)); (11833183557688232, (-16)); (11303676497339605, (-16))];
  [(75556570509078036, (-17)); (58141190664789877, (-17)); (17763541056821708, (-17)); (66727072873371407, (-17)); (51534863663705299, (-17)); (98999593684905185, (-18)); (61371682150182227, (-17)); (2446377910123656, (-16)); (95946661003023914, (-17)); (74789639345421666, (-17)); (18515428309187731, (-18)); (20229226100649023, (-17)); (20068096306297445, (-17)); (85930152842051633, (-17)); (54556576097021836, (-17)); (53234173151225583, (-17)); (20839647726014854, (-17)); (35181080261141329, (-17)); (93842031267872317, (-17)); (13682960370661684, (-17)); (59914512052404043, (-18)); (18644783060629391, (-17)); (11791933475096696, (-16)); (78807452891176222, (-17)); (65421268237803853, (-17)); (77725322359147986, (-17)); (38524816546073903, (-17)); (92458516898679588, (-17))];
  [(1372037926877463, (-16)); (5852892611628856, (-16)); (75152550893805825, (-17)); (98627486468383108, (-17)); (58042238141082325, (-17)); (62601439497160649, (-17)); (58337856590065351, (-17)); (17604523051843035, (-17)); (53643451088311578, (-17)); (70039220202750774, (-18)); (4028280998730811, (-16)); (80745870770069783, (-18)); (86276467891942987, (-17)); (18169204163809916, (-17)); (50403544236760189, (-17)); (26100199860509965, (-17)); (62214136087500238, (-17)); (3045827888120235, (-16)); (24931739586597246, (-17)); (66492330747289863, (-17)); (44688551274513849, (-17)); (82863535792050391, (-17)); (68073037924160673, (-17)); (43060104819945894, (-17)); (57243276502064733, (-17)); (57027970132466832, (-17)); (59627947312386753, (-17)); (80159380636641164, (-17))];
  [(72994038570906006, (-17)); (95310676708462516, (-17)); (91584200218901868, (-17)); (13389786804158632, (-17)); (18245833702771352, (-17)); (15140404232600702, (-17)); (14561848117445664, (-17)); (84748674945313607, (-17)); (95429066338968238, (-17)); (53085896973303126, (-17)); (25060157133394145, (-17)); (5845156628923267, (-16)); (26299273258405365, (-17)); (498957623093781, (-15)); (50103466142408182, (-17)); (50813219815970989, (-17)); (98109730354749525, (-17)); (71025589023213542, (-18)); (73600347718157522, (-17)); (64519595144331948, (-18)); (26193310091659044, (-17)); (27340247799574813, (-17)); (29459841954766819, (-17)); (72390612217558459, (-17)); (75033218847735339, (-17)); (77321880992328962, (-17)); (14976808137000228, (-16)); (15287733040104445, (-16))];
  [(47511493448896991, (-17)); (85737628970191992, (-18)); (43291662139754516, (-17)); (84187783944490857, (-17)); (96347845851276781, (-17)); (70780701562346249, (-17)); (55344168225830737, (-17)); (40779626516394629, (-17)); (36367196417549585, (-17)); (19877757791995032, (-17)); (86814942421407892, (-17)); (97138861582957181, (-17)); (97666294373824991, (-17)); (82507709330035128, (-17)); (94238284415384876, (-17)); (96902046869830993, (-17)); (85278223328229896, (-17)); (43230551601990297, (-17)); (88864039818020835, (-17)); (17997515895362937, (-16)); (15374566756629497, (-16)); (14359372719172612, (-16)); (17470828553473976, (-16)); (14956199490583806, (-16)); (13912115302997896, (-16)); (13469962886233189, (-16)); (99730572266203499, (-17)); (10672885020918814, (-16))];
  [(91626291399027304, (-17)); (9385493294688062, (-16)); (44521915250388489, (-17)); (51389659700706325, (-17)); (74851452157730713, (-17)); (99643561512611278, (-17)); (12504740007838044, (-17)); (51202126136454129, (-17)); (77315754247385271, (-17)); (12256395989705304, (-17)); (2019810634528767, (-16)); (756538311344368, (-18)); (11370800494244349, (-17)); (144993286989196, (-15)); (16239586618432766, (-17)); (83693331408098315, (-17)); (19643145897061687, (-17)); (73092418995625785, (-17)); (40394456554187852, (-17)); (21088946006820336, (-17)); (26532683319600586, (-17)); (20247811075660044, (-17)); (31025837332486317, (-17)); (67886847034295927, (-17)); (88057787163975032, (-17)); (53240994323094248, (-17)); (86691519372684311, (-17)); (11061115779322375, (-16))];
  [(11913471682071608, (-17)); (21117223232752869, (-17)); (57831945968675225, (-17)); (10127922189600957, (-17)); (2845233756655845, (-16)); (41671294464581798, (-17)); (6147477470745617, (-16)); (47064754950450327, (-17)); (98930899094946312, (-17)); (17565457437145993, (-18)); (16311789079714267, (-17)); (87066510477495973, (-17)); (3300028254810573, (-16)); (34413778419852059, (-17)); (10428988795117555, (-18)); (84923307105399859, (-17)); (66977787818248202, (-17)); (92296279564553885, (-18)); (36512790421273444, (-17)); (30893344591166616, (-17)); (43502779673316083, (-17)); (77590568003225069, (-17)); (56470299867307783, (-17)); (476998585201376, (-15)); (10459029487616651, (-16)); (31458764777973541, (-17)); (34252451353788149, (-17)); (79093008322377045, (-17))];
  [(12279699202713978, (-17)); (99627570595467563, (-17)); (35409513745829402, (-17)); (97651542552737702, (-17)); (72367345663818428, (-17)); (922478106393117, (-15)); (5729750764788023, (-16)); (63129893174002827, (-17)); (89911715636988065, (-17)); (64006095254263928, (-18)); (46074535782835713, (-18)); (94158110452724375, (-18)); (45120246847421164, (-17)); (95165002006854382, (-17)); (39195483554875199, (-17)); (21745968274821514, (-17)); (34995446842130906, (-17)); (88064017557627272, (-18)); (56552065110338801, (-17)); (35807083984381355, (-17)); (39478532230441432, (-17)); (50923218944495852, (-17)); (67954738716754881, (-17)); (13855857923253454, (-16)); (93990950729168365, (-17)); (47390093870664945, (-17)); (77913572846311308, (-17)); (73185767228083054, (-17))];
  [(87313040480857262, (-17)); (92122528443638729, (-17)); (736804618474449, (-15)); (9011234941895595, (-16)); (56020782643924139, (-17)); (43182746474143829, (-17)); (57487936356705727, (-17)); (6798530898927938, (-16)); (8231449259195478, (-16)); (98085580150116813, (-19)); (2143920908678506, (-16)); (76280043420319421, (-17)); (45026995686137894, (-17)); (36032589258564451, (-18)); (57406296258116885, (-17)); (475121938472574, (-15)); (32798207071289687, (-17)); (29616455124243757, (-17)); (80522043815625, (-15)); (11287407710376547, (-16)); (92520311092733309, (-17)); (85337264895273679, (-17)); (8172763664705156, (-16)); (67279565041490619, (-17)); (66153007909108719, (-17)); (59987834022238162, (-17)); (52190583016240988, (-17)); (43506306284747881, (-17))];
  [(34243968607626085, (-17)); (35119211161346398, (-17)); (51416576177870099, (-18)); (80700877337145926, (-17)); (56774001162715182, (-17)); (53468338878664534, (-17)); (92293155573654384, (-17)); (53481595678831639, (-17)); (81852750635381011, (-17)); (35200906307503887, (-17)); (93670013932503648, (-17)); (78255605945238127, (-17)); (36310498497624399, (-17)); (25193180285067318, (-17)); (37724393369915998, (-17)); (76045810283339665, (-17)); (1923687154882685, (-16)); (6320149206394563, (-16)); (36792860428056517, (-19)); (13972576710988371, (-16)); (10086310487494994, (-16)); (89399141642708702, (-17)); (10941618997522364, (-16)); (69443629357463066, (-17)); (86370900478939161, (-17)); (52290271356097939, (-17)); (36332945257953986, (-17)); (35376196935113946, (-17))];
  [(66899672135128652, (-17)); (33091896170549961, (-17)); (62293896814138638, (-17)); (98540144509238059, (-17)); (5603640342467836, (-16)); (96196686000414511, (-17)); (58142009359569802, (-17)); (90082423177206739, (-17)); (63781318059277892, (-17)); (41637444874418428, (-17)); (21672161567835579, (-18)); (909652568408991, (-15)); (40375217992757995, (-17)); (24788240774152726, (-17)); (26355663920968997, (-17)); (18777054600044218, (-17)); (28947747112316768, (-17)); (68841220659097868, (-17)); (25397312133063621, (-17)); (83030651254546783, (-17)); (71961855677262498, (-17)); (8494059896218692, (-16)); (52583769095342858, (-17)); (40014348913568298, (-17)); (52289662158726213, (-17)); (8742853308696843, (-16)); (64266664621100822, (-17)); (87173981764077135, (-17))];
  [(65995150298428162, (-17)); (65573221443341423, (-17)); (4298048267782042, (-16)); (20559454385221554, (-17)); (44159494345540673, (-17)); (91890599187445354, (-17)); (66833307256821073, (-17)); (78258858775599849, (-17)); (97791399159914638, (-18)); (19505032345897999, (-17)); (8544825445464781, (-16)); (17585052878205953, (-17)); (50952039550196471, (-17)); (56945029425876348, (-17)); (54400282922955867, (-17)); (45462227050335724, (-17)); (19515720551103144, (-17)); (95485774839594972, (-18)); (47330089425133515, (-17)); (94077778964039882, (-17)); (1075398589345105, (-15)); (70618268871633094, (-17)); (73535401770511155, (-17)); (93738232664971277, (-17)); (83107939222555816, (-17)); (45749685295798059, (-17)); (54187835493493886, (-17)); (24145537813894721, (-17))];
  [(40316647447154941, (-17)); (73862887695704138, (-17)); (51389268932306875, (-17)); (95025289014467895, (-17)); (19316997593113683, (-17)); (94103009725661413, (-17)); (77115961104261299, (-17)); (40973015427499582, (-17)); (74872892386984879, (-17)); (18630891924681992, (-17)); (63873525217581673, (-17)); (60942758653912721, (-17)); (38754495936089128, (-17)); (78395359289904742, (-17)); (6234754426256246, (-16)); (89105525609594605, (-17)); (4664180687456746, (-16)); (5886472820291736, (-16)); (95810848342520516, (-18)); (11879249721466958, (-16)); (67757251741163138, (-17)); (12296188935351489, (-16)); (16713757440511909, (-16)); (99522289381501927, (-17)); (17169132716015387, (-16)); (8464972354561604, (-16)); (42569711238704339, (-17)); (87689403433906199, (-17))];
  [(59865543433299961, (-17)); (48228181730370434, (-17)); (62165177423786555, (-17)); (19258047269715872, (-17)); (45974832003010935, (-17)); (92147831049020934, (-17)); (72301283283416096, (-17)); (91115823686268282, (-17)); (12946593628724246, (-17)); (97945154724185735, (-17)); (46530028485878028, (-17)); (80957444385817035, (-17)); (75174292760182948, (-18)); (51790168060975339, (-17)); (96130450500594988, (-17)); (2148197705967041, (-16)); (77233869060052029, (-17)); (46408287009101246, (-17)); (80946267735085742, (-17)); ((-31410518330882653), (-18)); (25454345077454227, (-17)); (52501017561746532, (-17)); (36399825868016239, (-18)); (39413962523980062, (-17)); (60119708197602451, (-17)); (78566559371469613, (-17)); (11731181384943241, (-16)); (96219183537378727, (-17))];
  [(58866536938971392, (-17)); (38519429609009881, (-17)); (7172602951403767, (-16)); (40663878438579926, (-17)); (44962239062243525, (-17)); (20657222079572646, (-17)); (54913538009964524, (-17)); (25334634882883533, (-17)); (60636492591837521, (-17)); (15679181300323308, (-18)); (42955103629693614, (-17)); (44632628425474186, (-17)); (13366891254064961, (-17)); (2240702566974524, (-16)); (48906508503925783, (-17)); (1188079436865499, (-16)); (85295844609008409, (-17)); (28643928175699374, (-17)); (76605415114389008, (-17)); (50632361098639378, (-17)); (40029102216517942, (-17)); (47767345677548795, (-17)); (39289099666238203, (-17)); (33489308178937827, (-17)); (32897863724354837, (-17)); (1041970195590453, (-15)); (65564802626239427, (-17)); (11349308618589311, (-16))];
  [(27759581609990058, (-17)); (12064220794656821, (-17)); (5854172040515091, (-16)); (10344130503532989, (-17)); (77821536549021675, (-17)); (14587483209944463, (-17)); (38850673907731847, (-17)); (59143370448435728, (-17)); (65539195321969235, (-17)); (13954331453068691, (-17)); (5499334258687395, (-16)); (77244401781618177, (-17)); (5379567447069985, (-16)); (13829074889911208, (-17)); (99811912793825452, (-17)); (22087949563394405, (-17)); (22227094585404261, (-17)); (47288900317919347, (-17)); (77175604869475289, (-17)); (41738849483050533, (-17)); (10257151146986832, (-16)); (73122936805938887, (-17)); (18952336545278831, (-17)); (91457871783007749, (-17)); (29065151200779321, (-17)); (39431415716477397, (-17)); (86355345059688993, (-17)); (66897547249110423, (-17))];
  [(24275767133969861, (-17)); (34714768505475746, (-17)); (44833015214189076, (-17)); (85475393369123431, (-17)); (54806574066798119, (-18)); (60363687355962758, (-18)); (2607181935437769, (-16)); (45811256876482909, (-18)); (20048825493010847, (-17)); (15404375798406367, (-17)); (13704668283332577, (-17)); (92578674442126785, (-17)); (9436387430093971, (-16)); (73240491589933676, (-17)); (21719254177255765, (-17)); (48643864478492604, (-17)); (82515001176403668, (-17)); (64992500500085537, (-18)); (36774184612029059, (-17)); (10443388493863246, (-16)); (92220457928540861, (-18)); (24271002357952615, (-17)); (57392741490507371, (-17)); (27987927073153729, (-17)); (42679441575375721, (-17)); (45450842035482814, (-17)); (30690063932993072, (-17)); (44633537794017697, (-17))];
  [(46214326664300076, (-17)); (87804370927640529, (-17)); (98547515912785533, (-17)); (99079271638365873, (-17)); (44528884450446038, (-17)); (90493569946745978, (-17)); (85992361594968225, (-17)); (17364429914463742, (-17)); (31471765473035318, (-18)); (25461820172740968, (-17)); (28555328762013188, (-17)); (18895407311561141, (-17)); (5175927056524251, (-16)); (94835643638329825, (-17)); (66834710217527049, (-17)); (49629634644988085, (-17)); (29475237987555791, (-17)); (22723304254580068, (-17)); (4472078954160279, (-16)); (80324749983834387, (-17)); (40418638463827183, (-17)); (47228591782378404, (-17)); (16506386507655055, (-16)); (11385983178892038, (-16)); (15556463366330324, (-16)); (78137984762858514, (-17)); (40884295282319172, (-17)); (5049624350629216, (-16))];
  [(31457156618381088, (-17)); (28494953822771685, (-17)); (78135786698505449, (-17)); (37672188992655609, (-17)); (30582819703618624, (-17)); (74631315788686869, (-20)); (92989503970154708, (-18)); (8344606431854531, (-16)); (1942086092431673, (-16)); (1077846749408462, (-17)); (44966464758090463, (-17)); (41005437603482076, (-17)); (61504963227493537, (-17)); (47514838597380249, (-17)); (34962030370755948, (-17)); (4977147585305256, (-16)); (73834127400152916, (-17)); (14932009323882189, (-17)); (8653526672960965, (-17)); (35353966040938523, (-17)); (76698075263240706, (-17)); (46763281739155538, (-17)); (32818760515064094, (-17)); (65811881698716035, (-17)); (46522019871524456, (-17)); (29903512183252029, (-17)); (33022689091449597, (-17)); (5925409924172651, (-16))];
  [(51483853116808864, (-17)); (41996609665099316, (-17)); (5677695817842987, (-17)); (31484406313466184, (-17)); (48348109924075411, (-17)); (92335085894931712, (-17)); (37278227613153958, (-17)); (50658725794912252, (-17)); (32175013185022749, (-17)); (88264130270131824, (-17)); (94206461688958387, (-17)); (94550348456864985, (-17)); (13985295794262376, (-17)); (76254668873799725, (-18)); (56169833549677195, (-17)); (45156497754949232, (-18)); (51406345081090132, (-17)); (33411662949307641, (-18)); (95819697528648773, (-17)); (40233882793858899, (-17)); (65755442707404876, (-17)); (12638700287976981, (-16)); ((-50741256807003601), (-18)); (61960907529685645, (-18)); (37642914181976628, (-17)); (6436977853914192, (-16)); (81392263455735869, (-17)); (7116025807498394, (-16))];
  [(98460758888766275, (-17)); (17012218848763816, (-17)); (57958684568187635, (-17)); (1363586622587829, (-16)); (64791448055210532, (-17)); (87672241173915211, (-17)); (38359889825141813, (-17)); (16926323971930379, (-17)); (27350907327146379, (-17)); (30862287772624553, (-17)); (40020531937332904, (-17)); (43232532495922249, (-17)); (78927595141308604, (-17)); (39528207694445905, (-17)); (17960208640567921, (-17)); (17165117620611636, (-17)); (23354784162647679, (-17)); (85135718733166998, (-17)); (33475830927589945, (-17)); (62163879279691092, (-17)); (52175905311721171, (-17)); (82845539503100629, (-17)); (42264575833478368, (-17)); (27250359896219706, (-17)); (4888914134866949, (-16)); (21316281289610803, (-17)); (62203107786035905, (-17)); (84397837443699575, (-17))];
  [(53335171979735485, (-17)); (44858674505110685, (-17)); (4774638622566959, (-16)); (40928719072217623, (-18)); (24087381012807896, (-17)); (97841074185067856, (-17)); (75276224319525664, (-17)); (19903025765794435, (-17)); (38343393513585633, (-17)); (62103197420512013, (-17)); (65185829537800266, (-17)); (37101552414101557, (-17)); (93509667776975058, (-17)); (70966011371344129, (-17)); (38553686581846824, (-17)); (80343937749513783, (-17)); (16987842541303444, (-17)); (58035220798949849, (-17)); (46501041568674883, (-17)); (89938940950967627, (-17)); (49112878732138343, (-17)); (11749301771564034, (-16)); (82270840706428428, (-17)); (49316832648167136, (-17)); (11873212305970484, (-16)); (26698414768077916, (-17)); (14054232151597862, (-17)); (64154253927770832, (-17))];
  [(26404637104362139, (-17)); (5958060767276272, (-16)); (77418745709670023, (-17)); (39885182911078443, (-17)); (56730085150068821, (-17)); (7732588034246477, (-16)); (10001684039034542, (-17)); (33506985293178526, (-17)); (56328297279206407, (-17)); (23939038705798543, (-17)); (60697421904169957, (-17)); (3621633282851825, (-16)); (65201961285974508, (-17)); (82801426157320668, (-17)); (49563605606672356, (-17)); (12920345993366222, (-17)); (69688054666624011, (-17)); (34208695027576674, (-17)); (29909317153723214, (-17)); (395970377753324, (-15)); (79987702084794909, (-17)); (11406483605175433, (-16)); (46464577466999618, (-17)); (83707514375053449, (-17)); (1128692888676081, (-15)); (3857146573937682, (-16)); (73752640758203636, (-17)); (10145583026262683, (-16))];
  [(23518985776479373, (-18)); (10312943135229935, (-17)); (67521421827689487, (-17)); (58821984406339445, (-17)); (31984879178972747, (-17)); (35770069831404872, (-17)); (46169885541082756, (-17)); (89633317207209251, (-17)); (8219007852482626, (-16)); (89301347689280974, (-17)); (46838670925533754, (-17)); (84201573473168112, (-17)); (75873984518351179, (-17)); (39053013218370025, (-17)); (97893211433459293, (-17)); (5537397393453759, (-16)); (63607804606440732, (-17)); (55763405982750758, (-17)); (65717497124288926, (-17)); (86698746718497799, (-17)); (92831057196375955, (-17)); (69842834882335925, (-17)); (78351055551537252, (-17)); (73659102523960385, (-17)); (43397709884505864, (-17)); (79971962115697903, (-17)); (85570758084997212, (-17)); (81846652700524569, (-17))];
  [(74532058011806956, (-19)); (69416161072214932, (-17)); (86210390510865076, (-17)); (16312011791512282, (-17)); (19079875072791874, (-17)); (565511195508269, (-15)); (58100075053620692, (-17)); (39330309160294707, (-17)); (17556461194270501, (-17)); (5497282267569702, (-16)); (71776542521261821, (-17)); (95891661108687531, (-17)); (52167920532789003, (-17)); (79909284552239368, (-17)); (8521084038630703, (-16)); (53238011247904049, (-17)); (53770862065739555, (-17)); (52628167616460275, (-17)); (52063584621818459, (-17)); (49846651495722588, (-17)); (50979972726713063, (-17)); (86175137910017785, (-17)); (49769182856616395, (-17)); (59161180965658333, (-17)); (9440468407627326, (-16)); (42288180424958538, (-17)); (47138578580814045, (-17)); (66226237225441864, (-17))];
  [(57906797284250822, (-17)); (83554278519776393, (-17)); (72594674057643782, (-17)); (40618068307901012, (-17)); (88062049470584125, (-17)); (58082581320131765, (-17)); (44244723944856534, (-17)); (18525897983974027, (-17)); (74921555200310441, (-17)); (91974631254804429, (-17)); (13789030248246037, (-17)); (23086593809410694, (-17)); (13454906055026106, (-17)); (14100631748735681, (-17)); (74890302191901414, (-17)); (78607696133807803, (-17)); (21971434280252089, (-17)); (71903379404953394, (-17)); (58409597099677835, (-17)); (10295973330874894, (-17)); (16110550668157606, (-17)); (17312633842319944, (-17)); (28222642288293148, (-17)); (21772769961520044, (-17)); (54727524490989343, (-17)); (25231742276584845, (-17)); (27920883168800076, (-17)); (47367345353656598, (-17))];
  [(94930447640564686, (-17)); (3925139905784194, (-16)); (97378033833912214, (-17)); (4587621986216216, (-16)); (26607943649214272, (-17)); (81187100584862892, (-18)); (87284245949902584, (-18)); (72773667219815596, (-18)); (19752579597190789, (-17)); (49958096006804154, (-17)); (80704103715292119, (-17)); (91336833697102848, (-17)); (8258919723538416, (-17)); (16633696445400792, (-17)); (92012971919391873, (-17)); (58054480357072147, (-17)); (81135106112089228, (-17)); (26859324763799608, (-17)); (49208643226146254, (-17)); (8095029319083108, (-16)); (42852098055371085, (-17)); (37654230894262791, (-17)); (1779164028983638, (-16)); (16264831439884816, (-17)); ((-10034349954002499), (-17)); (88336278269273127, (-17)); (4310037198155221, (-16)); (71611624243524274, (-17))];
  [(91978210969962182, (-17)); (98285639701715066, (-17)); (96630816838845224, (-17)); (67290189155536728, (-17)); (36759007765973672, (-17)); (23460889777539684, (-18)); (10438245825851844, (-18)); (5819233579669949, (-16)); (3278318947479808, (-17)); (21569092072029528, (-17)); (59842770687132263, (-17)); (2305495307143971, (-16)); (13490044370371501, (-17)); (35340721699198752, (-17)); (44217121102965162, (-18)); (60123654235816437, (-17)); (32286134458871074, (-17)); (58527669184958864, (-17)); (45298192068705012, (-17)); (73141834497160196, (-17)); (73440859133013159, (-17)); (529896965870574, (-15)); (39505785585671666, (-17)); (72355300369866782, (-17)); (3469409809042388, (-16)); (61080080215049137, (-17)); (68601649284656607, (-17)); (2135967814848376, (-16))];
  [(11469038495595518, (-17)); (49737337155531747, (-18)); (43186949000515784, (-17)); (91801803251896907, (-17)); (42887852187895648, (-17)); (68111351069266957, (-17)); (44000123780289535, (-17)); (28393609285968235, (-17)); (30555377776024029, (-17)); (59081070452749973, (-17)); (38911718894663938, (-17)); (78038215705902458, (-17)); (85477714872344535, (-17)); (53449458346449363, (-17)); (99006262666812339, (-18)); (69341157078609161, (-17)); (90861414239860228, (-17)); (42960471132507572, (-17)); (43976942128996654, (-17)); (11572588037471745, (-16)); (60807019871421397, (-17)); (8020703083370162, (-16)); (6984929972219196, (-16)); (37917435291422014, (-17)); (63855327276728446, (-17)); (10447662366808188, (-16)); (52057978316504228, (-17)); (94465184379903944, (-17))];
  [(71188506796558049, (-17)); (7180958574425389, (-17)); (2815289808437984, (-16)); (26092182419328469, (-17)); (92000726748238049, (-17)); (26782385059434055, (-17)); (80917062370916448, (-18)); (93898267590433637, (-17)); (85068315439129949, (-17)); (68039581384003633, (-17)); (35311699634865845, (-17)); (9883634861949977, (-16)); (66510864630415567, (-17)); (27460873627272897, (-17)); (27714334864178258, (-17)); (33745778392789061, (-17)); (54477956231417046, (-18)); (96692482081600772, (-17)); (19453533950689783, (-17)); (65008637553298748, (-18)); (15107842908051841, (-16)); (73328273319834691, (-17)); (15643344634455322, (-17)); (67680996260463122, (-17)); (40204556579801326, (-17)); ((-18209261325258899), (-17)); (86504557977213348, (-17)); (21663665615862687, (-17))]
].
