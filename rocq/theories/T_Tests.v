(** * Reference values of crates/tofas/src/test_data.rs

    Generated by tools/gen_tables.py from crates/tofas/src/test_data.rs:16010-17011, 17012-18013; every literal is the exact
    decimal (mantissa, exponent of ten) of the source. *)

From Coq Require Import ZArith List.
Import ListNotations.
Open Scope Z_scope.

(** test_data.rs:16010-17011 [ERA00_DATA] *)
Definition ERA00_DATA : list (list (Z * Z)) := [
  [(2451545, 0); (14164831728719926, (-12)); (24594336487895134, (-16))];
  [(2451545, 0); (18770635378088831, (-12)); (50573640270403359, (-16))];
  [(2451545, 0); (31654409467870482, (-12)); (53554380103797357, (-16))];
  [(2451545, 0); (23478711876706839, (-12)); (48457874096015203, (-16))];
  [(2451545, 0); (21622086089527122, (-12)); (39176693738639301, (-17))];
  [(2451545, 0); (15470596277895796, (-12)); (45924928264265006, (-16))];
  [(2451545, 0); (19791031606213539, (-12)); (62504219910589285, (-16))];
  [(2451545, 0); (35531176504853352, (-13)); (39236958174851395, (-16))];
  [(2451545, 0); (62632697498775133, (-13)); (12344051161809801, (-16))];
  [(2451545, 0); (22608022476689712, (-12)); (43859598594033145, (-16))];
  [(2451545, 0); (22254517774094511, (-12)); (14169538611860588, (-16))];
  [(2451545, 0); (14006466282993062, (-12)); (37222248984587551, (-16))];
  [(2451545, 0); (35430913076653851, (-12)); (43687601844805641, (-16))];
  [(2451545, 0); (26295185747703184, (-12)); (60072135317641937, (-16))];
  [(2451545, 0); (41828924798335316, (-14)); (13414760358038045, (-16))];
  [(2451545, 0); (1721614041188078, (-11)); (33943929226046521, (-17))];
  [(2451545, 0); (18304783971635876, (-12)); (42605305765686055, (-16))];
  [(2451545, 0); (10537886819508325, (-12)); (32460747150406206, (-16))];
  [(2451545, 0); (29212214033610977, (-12)); (60987010748205535, (-16))];
  [(2451545, 0); (19147070902688287, (-12)); (17029866695572835, (-16))];
  [(2451545, 0); (20673148387189558, (-12)); (33089538548867736, (-16))];
  [(2451545, 0); (33971117832127347, (-12)); (5676358056403906, (-15))];
  [(2451545, 0); (11785147283763876, (-12)); (12054771530696726, (-16))];
  [(2451545, 0); (10747071482347108, (-12)); (17215923778238249, (-16))];
  [(2451545, 0); (27428446549960947, (-12)); (20076970431206576, (-16))];
  [(2451545, 0); (33425402077694998, (-12)); (43580105330939602, (-16))];
  [(2451545, 0); (26530052417293522, (-12)); (29265071801257037, (-16))];
  [(2451545, 0); (35239729432843778, (-12)); (62093020297867056, (-16))];
  [(2451545, 0); (32393471212457011, (-13)); (62511514452241599, (-16))];
  [(2451545, 0); (13048524285100724, (-12)); (17434323305415234, (-17))];
  [(2451545, 0); (34155020632985857, (-13)); (39717447144531235, (-16))];
  [(2451545, 0); (32667741195401482, (-12)); (60217019838878656, (-16))];
  [(2451545, 0); (34853428893283308, (-12)); (39589303348590192, (-16))];
  [(2451545, 0); (12912356114405944, (-12)); (3058491576968521, (-15))];
  [(2451545, 0); (34838331611129921, (-12)); (30879823793469541, (-16))];
  [(2451545, 0); (13029490145298458, (-12)); (59155931453039159, (-16))];
  [(2451545, 0); (2095672735199942, (-11)); (55416880108248421, (-16))];
  [(2451545, 0); (22111369040346162, (-12)); (43031472421521428, (-16))];
  [(2451545, 0); (33375728066827018, (-12)); (55517594025252208, (-16))];
  [(2451545, 0); (28795896230685583, (-12)); (32234981042919344, (-16))];
  [(2451545, 0); (33895947622966218, (-12)); (33138109193486542, (-16))];
  [(2451545, 0); (16802067283785156, (-12)); (53233722238673948, (-16))];
  [(2451545, 0); (26534087349810401, (-12)); (32154042906523514, (-16))];
  [(2451545, 0); (36622280560174777, (-13)); (2111457171863762, (-16))];
  [(2451545, 0); (19499240613549602, (-12)); (25442127598604856, (-16))];
  [(2451545, 0); (19243320102322919, (-12)); (49244501685233288, (-16))];
  [(2451545, 0); (18493893564357888, (-12)); (19190338235149227, (-16))];
  [(2451545, 0); (15069323856071174, (-12)); (22612410689650488, (-16))];
  [(2451545, 0); (35517421980007282, (-12)); (27712506406985113, (-16))];
  [(2451545, 0); (2858137446870908, (-11)); (25381143545478366, (-16))];
  [(2451545, 0); (26649223492165202, (-12)); (60514045304080142, (-16))];
  [(2451545, 0); (11458561076606858, (-12)); (44706049891816235, (-16))];
  [(2451545, 0); (15554207306806804, (-12)); (35868073289489004, (-16))];
  [(2451545, 0); (98697141324829336, (-13)); (32333941992354767, (-16))];
  [(2451545, 0); (20838915189683885, (-12)); (46952810176915847, (-16))];
  [(2451545, 0); (43453682639171921, (-13)); (27722784962326585, (-17))];
  [(2451545, 0); (90728146199530256, (-13)); (27227376912690175, (-16))];
  [(2451545, 0); (50886940425522107, (-13)); (25446082951937612, (-16))];
  [(2451545, 0); (28448429570241908, (-12)); (59738547896713357, (-17))];
  [(2451545, 0); (34587086786026819, (-12)); (35109275971136853, (-16))];
  [(2451545, 0); (34758797994595741, (-12)); (46502045654116273, (-16))];
  [(2451545, 0); (19075825968880821, (-12)); (52216393312543872, (-16))];
  [(2451545, 0); (71877272697459339, (-13)); (11622155761063269, (-16))];
  [(2451545, 0); (21802117121471074, (-12)); (36836725322967538, (-16))];
  [(2451545, 0); (21168157430521613, (-12)); (55978239335689324, (-16))];
  [(2451545, 0); (58423425263498584, (-13)); (73399279787643223, (-17))];
  [(2451545, 0); (28191012805456347, (-12)); (61170163026194544, (-16))];
  [(2451545, 0); (36191014571325548, (-12)); (55155018068377828, (-16))];
  [(2451545, 0); (47285366587752014, (-13)); (16434301759981622, (-16))];
  [(2451545, 0); (20186786158228299, (-13)); (61853903910593999, (-16))];
  [(2451545, 0); (32952740020452657, (-12)); (46337352227731046, (-16))];
  [(2451545, 0); (1324119185421058, (-11)); (13999204705978983, (-16))];
  [(2451545, 0); (31749734085039079, (-12)); (27516737098619046, (-16))];
  [(2451545, 0); (11386770655825203, (-12)); (45524783445057437, (-16))];
  [(2451545, 0); (76743785465963938, (-13)); (10594007543663082, (-16))];
  [(2451545, 0); (30336585695808863, (-12)); (26428255495343649, (-16))];
  [(2451545, 0); (1336459323623487, (-11)); (60446508416029374, (-16))];
  [(2451545, 0); (19934471607142208, (-12)); (51993247082870298, (-16))];
  [(2451545, 0); (28394762787195737, (-12)); (17678637081880524, (-16))];
  [(2451545, 0); (74957863318961108, (-13)); (54941601001742413, (-17))];
  [(2451545, 0); (21839922040047986, (-12)); (31082667992359987, (-16))];
  [(2451545, 0); (30238458510058033, (-12)); (15569243814334754, (-17))];
  [(2451545, 0); (15798526920700238, (-12)); (35146452129165198, (-16))];
  [(2451545, 0); (35176646127901324, (-12)); (46007112995207322, (-16))];
  [(2451545, 0); (27562969124383118, (-12)); (13220251493718322, (-16))];
  [(2451545, 0); (54898072807741491, (-13)); (38729416742102529, (-16))];
  [(2451545, 0); (45676920136546933, (-13)); (61358605103201072, (-16))];
  [(2451545, 0); (93606785309459883, (-13)); (53636662473692098, (-17))];
  [(2451545, 0); (34428531544397192, (-12)); (35779311159784797, (-16))];
  [(2451545, 0); (11982301462959711, (-12)); (55656952055509876, (-16))];
  [(2451545, 0); (10152682213073917, (-12)); (16173210666941671, (-16))];
  [(2451545, 0); (28699309237925805, (-12)); (4156992333728418, (-15))];
  [(2451545, 0); (37461458707345232, (-13)); (11383296731851047, (-16))];
  [(2451545, 0); (32729191954737118, (-12)); (36278081085748823, (-16))];
  [(2451545, 0); (35115496938918841, (-12)); (26114299470340043, (-16))];
  [(2451545, 0); (27857340021310491, (-12)); (24330749974048516, (-16))];
  [(2451545, 0); (29068098748839511, (-12)); (28952484844297146, (-16))];
  [(2451545, 0); (29692465650090919, (-12)); (33746579782645796, (-16))];
  [(2451545, 0); (20663184356290188, (-14)); (61362841754379573, (-16))];
  [(2451545, 0); (58977992656562465, (-13)); (45577472851911622, (-16))];
  [(2451545, 0); (85237864334946917, (-13)); (56675261094362099, (-16))];
  [(2451545, 0); (33954522433571663, (-12)); (1649881573334298, (-15))];
  [(2451545, 0); (32304553689464599, (-12)); (48791360468234544, (-16))];
  [(2451545, 0); (11402784049148258, (-12)); (49120963426940989, (-16))];
  [(2451545, 0); (81829278524640913, (-13)); (6925771794733464, (-16))];
  [(2451545, 0); (22551014980700318, (-12)); (33582079858378364, (-16))];
  [(2451545, 0); (40343739572355798, (-13)); (12464054208305555, (-16))];
  [(2451545, 0); (73077664331599335, (-13)); (3473221808637426, (-15))];
  [(2451545, 0); (61778407608041553, (-13)); (33526077697253953, (-16))];
  [(2451545, 0); (23442045920874567, (-12)); (30729152516563829, (-18))];
  [(2451545, 0); (43221159340490158, (-13)); (45749870825799377, (-16))];
  [(2451545, 0); (25654587408112839, (-12)); (37944179501223161, (-16))];
  [(2451545, 0); (2152614495617088, (-11)); (53944256710623719, (-16))];
  [(2451545, 0); (3042931753330318, (-11)); (25531005548100723, (-16))];
  [(2451545, 0); (14495138839594136, (-12)); (3787885110357422, (-15))];
  [(2451545, 0); (18795487044275018, (-12)); (45528580120099775, (-16))];
  [(2451545, 0); (25459983030433043, (-12)); (29325668486438516, (-16))];
  [(2451545, 0); (12787504199615556, (-12)); (18412133316757604, (-16))];
  [(2451545, 0); (32141905135114362, (-13)); (48344075465509562, (-16))];
  [(2451545, 0); (3320197518993781, (-11)); (41155515113548233, (-16))];
  [(2451545, 0); (12281722888692159, (-13)); (19719831382196453, (-16))];
  [(2451545, 0); (28885133263292668, (-12)); (62478893581196857, (-16))];
  [(2451545, 0); (24714001998049775, (-12)); (27856148349829084, (-16))];
  [(2451545, 0); (26597495444996446, (-12)); (58711410027656541, (-17))];
  [(2451545, 0); (28404694166956401, (-13)); (15799051718447998, (-17))];
  [(2451545, 0); (27096009216926715, (-12)); (61075764620828323, (-16))];
  [(2451545, 0); (90640803719278324, (-14)); (42013724099979086, (-16))];
  [(2451545, 0); (12235827763289693, (-12)); (66737203702449932, (-17))];
  [(2451545, 0); (364059041417036, (-11)); (2115694538674127, (-15))];
  [(2451545, 0); (23782215024097928, (-12)); (66170073335440804, (-17))];
  [(2451545, 0); (63868703913194722, (-13)); (85136172170087576, (-17))];
  [(2451545, 0); (12706651858661701, (-13)); (57999167522490715, (-16))];
  [(2451545, 0); (28254380895358059, (-12)); (32366773194315641, (-16))];
  [(2451545, 0); (24849547588440935, (-12)); (22621546438234716, (-16))];
  [(2451545, 0); (1055555652938729, (-11)); (14747582018246277, (-16))];
  [(2451545, 0); (1325359264963446, (-11)); (41315130988659874, (-16))];
  [(2451545, 0); (22110654587762168, (-12)); (60850044292562941, (-16))];
  [(2451545, 0); (29013253701455091, (-12)); (29253901280285959, (-16))];
  [(2451545, 0); (33707437407382153, (-12)); (31484305849919068, (-16))];
  [(2451545, 0); (27150871870576368, (-12)); (61883611116385211, (-16))];
  [(2451545, 0); (26950978200387512, (-12)); (34178442081900968, (-16))];
  [(2451545, 0); (19939503466370461, (-12)); (54860610891853057, (-16))];
  [(2451545, 0); (2886771352231604, (-11)); (33109215085183337, (-16))];
  [(2451545, 0); (16056622897571146, (-12)); (22743137126312902, (-16))];
  [(2451545, 0); (46365671969887753, (-13)); (25323223374452652, (-17))];
  [(2451545, 0); (43204335744154396, (-13)); (25865480615460257, (-17))];
  [(2451545, 0); (10190857333767231, (-12)); (33743321153868706, (-16))];
  [(2451545, 0); (26033865277044959, (-12)); (57815406448489739, (-16))];
  [(2451545, 0); (3377511663456745, (-11)); (22971857682648036, (-16))];
  [(2451545, 0); (68268653209709382, (-13)); (21051902671714657, (-16))];
  [(2451545, 0); (29659075232544532, (-12)); (34720422841685661, (-17))];
  [(2451545, 0); (12138490113128893, (-12)); (31546190774006249, (-16))];
  [(2451545, 0); (34258711083677175, (-12)); (17847276211737366, (-16))];
  [(2451545, 0); (12369576367464724, (-12)); (1388572990248683, (-15))];
  [(2451545, 0); (36115827761424473, (-12)); (30483635755576017, (-16))];
  [(2451545, 0); (12845245593097537, (-12)); (1209618476922941, (-15))];
  [(2451545, 0); (30253593924377015, (-12)); (12668878126131915, (-16))];
  [(2451545, 0); (10031941367375142, (-12)); (11686298546717708, (-16))];
  [(2451545, 0); (29531043479796495, (-12)); (42284559335658756, (-16))];
  [(2451545, 0); (10233959399326974, (-12)); (47570784125506478, (-16))];
  [(2451545, 0); (28305774431719929, (-12)); (31023474049398914, (-17))];
  [(2451545, 0); (19524344535213608, (-12)); (36290140007453005, (-16))];
  [(2451545, 0); (10213665018907388, (-12)); (25583241091426956, (-16))];
  [(2451545, 0); (49859257241896711, (-14)); (46287118803923732, (-16))];
  [(2451545, 0); (20326396941023209, (-12)); (51889683127788544, (-16))];
  [(2451545, 0); (28351433181434499, (-12)); (52347112799609903, (-16))];
  [(2451545, 0); (35408903165578842, (-12)); (39278686208591154, (-16))];
  [(2451545, 0); (3302412379792198, (-11)); (19898514308621245, (-16))];
  [(2451545, 0); (28495152563202195, (-12)); (59438215394338698, (-16))];
  [(2451545, 0); (28173556995429724, (-12)); (29527994617724147, (-16))];
  [(2451545, 0); (32787417706865643, (-12)); (6047860409603814, (-15))];
  [(2451545, 0); (3807470416615894, (-12)); (42324274371413608, (-16))];
  [(2451545, 0); (24556448184229455, (-12)); (28788162853183223, (-16))];
  [(2451545, 0); (88532887317670447, (-13)); (19253463250841278, (-16))];
  [(2451545, 0); (13455988217161443, (-12)); (38153967630535846, (-16))];
  [(2451545, 0); (32750948509743983, (-12)); (24724582707681222, (-16))];
  [(2451545, 0); (27431709316879525, (-12)); (37148369875918945, (-16))];
  [(2451545, 0); (30827651122493116, (-12)); (52181238765726974, (-16))];
  [(2451545, 0); (18394166497567036, (-12)); (19184008416238996, (-16))];
  [(2451545, 0); (11414121429743407, (-12)); (94376349079104216, (-17))];
  [(2451545, 0); (2221292793365605, (-11)); (32786264881210485, (-16))];
  [(2451545, 0); (11011755500648365, (-12)); (42893628244614419, (-16))];
  [(2451545, 0); (3329954673512435, (-11)); (3101933764364702, (-15))];
  [(2451545, 0); (43663416807047379, (-13)); (47098908159937736, (-17))];
  [(2451545, 0); (35296704047439234, (-12)); (74670307326023533, (-17))];
  [(2451545, 0); (23068585400402157, (-12)); (3279229363541674, (-15))];
  [(2451545, 0); (72950168521661153, (-13)); (48273302471526733, (-16))];
  [(2451545, 0); (79587544438462983, (-13)); (20299327761597041, (-16))];
  [(2451545, 0); (18223011232820489, (-12)); (42817853751586341, (-16))];
  [(2451545, 0); (66333520743952768, (-13)); (18347026134117428, (-16))];
  [(2451545, 0); (91245346549203769, (-13)); (18533628407525242, (-16))];
  [(2451545, 0); (13541112559724737, (-12)); (60609883568022624, (-16))];
  [(2451545, 0); (35409192710606425, (-12)); (57521144894937848, (-16))];
  [(2451545, 0); (90362961675138777, (-13)); (5120193273654543, (-15))];
  [(2451545, 0); (64367281138973804, (-13)); (8150678106677347, (-16))];
  [(2451545, 0); (32664818894314176, (-12)); (17644339525076447, (-17))];
  [(2451545, 0); (72997121054896643, (-13)); (29933189980866715, (-16))];
  [(2451545, 0); (7009026549768012, (-12)); (62517908454542592, (-16))];
  [(2451545, 0); (18046219714797895, (-12)); (2550516832005215, (-15))];
  [(2451545, 0); (19613823946081673, (-12)); (18972969099353563, (-16))];
  [(2451545, 0); (20411270176400208, (-13)); (31057582326026605, (-16))];
  [(2451545, 0); (17106303484345157, (-12)); (57578045601549874, (-16))];
  [(2451545, 0); (16261924941811201, (-12)); (1420570968869967, (-15))];
  [(2451545, 0); (12674130055396424, (-13)); (41594764398627859, (-16))];
  [(2451545, 0); (39619915325950483, (-13)); (38816103787608682, (-16))];
  [(2451545, 0); (7741967647668499, (-12)); (59235118090332293, (-16))];
  [(2451545, 0); (20895057320559121, (-12)); (27089735454428876, (-17))];
  [(2451545, 0); (17602285678428358, (-12)); (16115308397244021, (-16))];
  [(2451545, 0); (18991650196484836, (-12)); (2669222042750512, (-15))];
  [(2451545, 0); (19280425186088873, (-12)); (62229992568797527, (-16))];
  [(2451545, 0); (34963336325185205, (-13)); (43039420809411268, (-16))];
  [(2451545, 0); (34273482204735206, (-12)); (60073429283922763, (-17))];
  [(2451545, 0); (3275308151535015, (-11)); (33448494866813832, (-16))];
  [(2451545, 0); (1315442070623144, (-12)); (5168302347869222, (-15))];
  [(2451545, 0); (31767265550459673, (-12)); (10936354101505685, (-17))];
  [(2451545, 0); (28359632564331572, (-12)); (34533291917826858, (-17))];
  [(2451545, 0); (14885130909614949, (-12)); (41635878958835875, (-16))];
  [(2451545, 0); (93984810820894036, (-13)); (62292304504751854, (-16))];
  [(2451545, 0); (67923978933239623, (-13)); (48585261708224365, (-16))];
  [(2451545, 0); (3013974848287541, (-11)); (27961777028977508, (-17))];
  [(2451545, 0); (16686618643972404, (-12)); (51851691039208703, (-17))];
  [(2451545, 0); (32723360295966708, (-12)); (45852100075354798, (-16))];
  [(2451545, 0); (27162716892291854, (-12)); (54183640220702429, (-16))];
  [(2451545, 0); (35310628632390588, (-12)); (51238955850904233, (-17))];
  [(2451545, 0); (25269260174489315, (-12)); (13930654939365326, (-16))];
  [(2451545, 0); (13332361536858441, (-12)); (4034385243253702, (-15))];
  [(2451545, 0); (34336506403201834, (-12)); (18369313224221955, (-16))];
  [(2451545, 0); (15627008003246847, (-12)); (35868767827221788, (-16))];
  [(2451545, 0); (27049648363844841, (-12)); (30427619600214868, (-16))];
  [(2451545, 0); (11480871926516073, (-12)); (52434251092871165, (-17))];
  [(2451545, 0); (34622364531354879, (-13)); (31068002065533591, (-16))];
  [(2451545, 0); (33455436492304416, (-13)); (30295996288762268, (-16))];
  [(2451545, 0); (33069944833903253, (-12)); (16536090271555111, (-16))];
  [(2451545, 0); (18337335947027084, (-12)); (20054738635636724, (-16))];
  [(2451545, 0); (27964400931158933, (-12)); (46574638588996962, (-16))];
  [(2451545, 0); (15366135513210274, (-12)); (61836553987793224, (-16))];
  [(2451545, 0); (14467782456405736, (-12)); (10780740811388583, (-16))];
  [(2451545, 0); (31427921506834176, (-12)); (46765871263883909, (-16))];
  [(2451545, 0); (21110550298885384, (-12)); (79213513407244562, (-17))];
  [(2451545, 0); (55215496665454384, (-13)); (28003419576389348, (-16))];
  [(2451545, 0); (16626718704458679, (-12)); (11680597152140848, (-17))];
  [(2451545, 0); (34702417277313274, (-12)); (12882161067501556, (-16))];
  [(2451545, 0); (52545470150162209, (-13)); (44738396567259073, (-16))];
  [(2451545, 0); (11956919531134166, (-12)); (27293222217152362, (-16))];
  [(2451545, 0); (35885362284992652, (-13)); (87979047663480259, (-17))];
  [(2451545, 0); (26790255008424327, (-12)); (23922911879586337, (-16))];
  [(2451545, 0); (24237748473155989, (-12)); (55664429031381175, (-16))];
  [(2451545, 0); (13827129343931621, (-12)); (48033734151696734, (-16))];
  [(2451545, 0); (28873520991000583, (-12)); (22011126952559721, (-16))];
  [(2451545, 0); (13617842191790322, (-12)); (56821334332826865, (-16))];
  [(2451545, 0); (55059711961287985, (-13)); (51809067967339786, (-16))];
  [(2451545, 0); (2404913928352005, (-11)); (47774876908385551, (-16))];
  [(2451545, 0); (10921356967124163, (-13)); (5685127256352871, (-15))];
  [(2451545, 0); (39880543710042562, (-13)); (472477337477806, (-14))];
  [(2451545, 0); (13802515416279643, (-12)); (52253900906330131, (-17))];
  [(2451545, 0); (27088270553324826, (-12)); (13332942907925869, (-16))];
  [(2451545, 0); (19265027526581554, (-12)); (34595575793546303, (-16))];
  [(2451545, 0); (27178886623481707, (-12)); (47978585275856744, (-17))];
  [(2451545, 0); (1875779305737303, (-11)); (58271762816489456, (-16))];
  [(2451545, 0); (66059182927696147, (-13)); (4920436745754408, (-15))];
  [(2451545, 0); (54957551846560173, (-13)); (36479290208750967, (-16))];
  [(2451545, 0); (36922046307103358, (-14)); (65197635761013117, (-18))];
  [(2451545, 0); (16872382254086457, (-12)); (22287744319678708, (-16))];
  [(2451545, 0); (17924300379304546, (-12)); (96006857215708408, (-17))];
  [(2451545, 0); (31062634161678248, (-12)); (2870591063815354, (-15))];
  [(2451545, 0); (16092970940893785, (-12)); (50863999721469852, (-16))];
  [(2451545, 0); (76285142281446106, (-13)); (11229468224735939, (-16))];
  [(2451545, 0); (11590484913608405, (-12)); (62614362907031307, (-16))];
  [(2451545, 0); (19962621505981973, (-12)); (34222120355013885, (-17))];
  [(2451545, 0); (1555067804768809, (-11)); (20066326142958246, (-17))];
  [(2451545, 0); (27169635030848269, (-12)); (5023020464287633, (-15))];
  [(2451545, 0); (30088195562065721, (-12)); (22018765686031472, (-16))];
  [(2451545, 0); (3205390206681468, (-11)); (27563012705572092, (-16))];
  [(2451545, 0); (12382893753168542, (-12)); (36118542415380475, (-16))];
  [(2451545, 0); (31040721465166676, (-12)); (30421889192018483, (-16))];
  [(2451545, 0); (3072371862597992, (-11)); (38543953243170179, (-16))];
  [(2451545, 0); (40107595413659615, (-13)); (32628825411723739, (-16))];
  [(2451545, 0); (14905475442801002, (-12)); (39513875438906609, (-17))];
  [(2451545, 0); (79363543050565477, (-13)); (54136407087740253, (-16))];
  [(2451545, 0); (22572941389664316, (-12)); (32730038941304755, (-16))];
  [(2451545, 0); (73815349642843903, (-13)); (32878394901597758, (-16))];
  [(2451545, 0); (32110246713829707, (-14)); (47792582252278581, (-16))];
  [(2451545, 0); (34387108339580154, (-12)); (20628741979341925, (-17))];
  [(2451545, 0); (27840689851774463, (-12)); (43447054223234503, (-16))];
  [(2451545, 0); (10225207540795634, (-12)); (61656462004691264, (-16))];
  [(2451545, 0); (58231402410422388, (-13)); (54158608722454886, (-16))];
  [(2451545, 0); (9783111893785439, (-12)); (42428549092095338, (-16))];
  [(2451545, 0); (51396950735355222, (-13)); (34284150478857853, (-16))];
  [(2451545, 0); (17402285415107162, (-12)); (44526212062917807, (-16))];
  [(2451545, 0); (2363164174214314, (-11)); (75266064991627957, (-17))];
  [(2451545, 0); (22145815476021573, (-12)); (14175537835287599, (-16))];
  [(2451545, 0); (99770342921112751, (-13)); (80797182277430579, (-17))];
  [(2451545, 0); (33220039220460036, (-12)); (48286078447118754, (-16))];
  [(2451545, 0); (22245319785391242, (-12)); (1472869641723662, (-17))];
  [(2451545, 0); (23575538658607657, (-12)); (54230576838335551, (-16))];
  [(2451545, 0); (29062800208486071, (-12)); (92831767944674226, (-17))];
  [(2451545, 0); (5820663318868862, (-12)); (23766620197958375, (-16))];
  [(2451545, 0); (15015256563932749, (-12)); (90835682501320036, (-17))];
  [(2451545, 0); (14492455547515843, (-12)); (57316611985127679, (-16))];
  [(2451545, 0); (54428204695410868, (-13)); (31475335763536521, (-16))];
  [(2451545, 0); (77143578634662663, (-13)); (16171762031337522, (-16))];
  [(2451545, 0); (29484177754218072, (-12)); (42659343790197468, (-16))];
  [(2451545, 0); (15909479961866742, (-12)); (51282282988157988, (-16))];
  [(2451545, 0); (20513343245078573, (-12)); (17842853284940148, (-16))];
  [(2451545, 0); (32609633908695665, (-12)); (43480277496966124, (-16))];
  [(2451545, 0); (36444190642076093, (-12)); (46937818857150262, (-16))];
  [(2451545, 0); (1690013887747276, (-11)); (11770684885728073, (-16))];
  [(2451545, 0); (34407837232238307, (-12)); (51426371939142186, (-16))];
  [(2451545, 0); (62788747579073188, (-13)); (53042228301824252, (-16))];
  [(2451545, 0); (19280644049332474, (-12)); (13187371909940993, (-16))];
  [(2451545, 0); (1931571639205363, (-11)); (23766006512567941, (-16))];
  [(2451545, 0); (28759409660300014, (-12)); (58218229781015438, (-16))];
  [(2451545, 0); (21428050976063747, (-12)); (31165009817059328, (-16))];
  [(2451545, 0); (19594168022959671, (-12)); (37210709750526547, (-16))];
  [(2451545, 0); (30033816839863616, (-13)); (24091957242318642, (-16))];
  [(2451545, 0); (51723883957812313, (-13)); (20638982882688097, (-16))];
  [(2451545, 0); (2530735741522627, (-11)); (26594026401125888, (-16))];
  [(2451545, 0); (18788641910236594, (-12)); (54081583214237128, (-16))];
  [(2451545, 0); (35352627735479458, (-12)); (12292302130120589, (-16))];
  [(2451545, 0); (35779425263759411, (-12)); (10157252930527463, (-16))];
  [(2451545, 0); (34569089778790258, (-12)); (32201439340790543, (-16))];
  [(2451545, 0); (16965603723711109, (-12)); (52239215843189513, (-16))];
  [(2451545, 0); (37731827737996105, (-13)); (18352921312152617, (-16))];
  [(2451545, 0); (35576445230272708, (-12)); (39326649169872354, (-16))];
  [(2451545, 0); (30283035242895236, (-12)); (45462286901630975, (-16))];
  [(2451545, 0); (81254393211670076, (-13)); (29173017798299199, (-16))];
  [(2451545, 0); (22278803507784127, (-12)); (36300391335920921, (-16))];
  [(2451545, 0); (30785894032340089, (-12)); (60260584946900124, (-16))];
  [(2451545, 0); (31381584852426829, (-12)); (17642336505176317, (-16))];
  [(2451545, 0); (35944055232021637, (-12)); (15227415925982584, (-16))];
  [(2451545, 0); (29048004573233815, (-12)); (19578620852379345, (-16))];
  [(2451545, 0); (10310898509503892, (-12)); (5698016760427187, (-15))];
  [(2451545, 0); (12613440535284009, (-12)); (47301094349345405, (-16))];
  [(2451545, 0); (1183539784815374, (-11)); (36442388783569655, (-16))];
  [(2451545, 0); (22479816085837218, (-12)); (8837385293368456, (-16))];
  [(2451545, 0); (82406866245022629, (-13)); (17047396267864201, (-17))];
  [(2451545, 0); (17697785032339278, (-12)); (10867572401566861, (-17))];
  [(2451545, 0); (19958053354321739, (-12)); (29770221817087403, (-16))];
  [(2451545, 0); (98267311269914662, (-13)); (26007724664027307, (-16))];
  [(2451545, 0); (20577754834038969, (-12)); (54783947570770479, (-16))];
  [(2451545, 0); (40995721905165801, (-13)); (36134935762939477, (-16))];
  [(2451545, 0); (3493069471924044, (-11)); (67511938894629253, (-17))];
  [(2451545, 0); (33691343113056182, (-13)); (86346439927069696, (-17))];
  [(2451545, 0); (11863222405818589, (-12)); (30205452134353905, (-16))];
  [(2451545, 0); (1999732497361413, (-11)); (53592139760836162, (-16))];
  [(2451545, 0); (79025827626261062, (-13)); (62681378157164289, (-16))];
  [(2451545, 0); (22960787174538754, (-14)); (97717259386879363, (-18))];
  [(2451545, 0); (3503496029548347, (-11)); (41373793031340043, (-16))];
  [(2451545, 0); (17736542105819117, (-12)); (55322148268075253, (-16))];
  [(2451545, 0); (10248256225165238, (-12)); (58484141657061883, (-17))];
  [(2451545, 0); (15248632664692988, (-12)); (10028598824331354, (-16))];
  [(2451545, 0); (13159503889626329, (-12)); (19552857742375593, (-16))];
  [(2451545, 0); (29869972902574875, (-12)); (33321456584454197, (-16))];
  [(2451545, 0); (34002042490409312, (-13)); (18373667985214581, (-16))];
  [(2451545, 0); (16910500504962914, (-12)); (36274835981593228, (-16))];
  [(2451545, 0); (31482148257224406, (-12)); (75093483749022738, (-17))];
  [(2451545, 0); (56234998619358685, (-13)); (42411759353965977, (-16))];
  [(2451545, 0); (21879243067149218, (-12)); (5801746934182944, (-15))];
  [(2451545, 0); (11285804919289139, (-13)); (2823602630071921, (-15))];
  [(2451545, 0); (14043698889793057, (-12)); (58242185147637926, (-16))];
  [(2451545, 0); (35936214225878502, (-12)); (23868470622593847, (-16))];
  [(2451545, 0); (31291735666081742, (-12)); (11662219529899502, (-16))];
  [(2451545, 0); (25624377728268078, (-12)); (19572882927137343, (-16))];
  [(2451545, 0); (12758522961151819, (-12)); (14605550722967848, (-16))];
  [(2451545, 0); (26145462226810698, (-12)); (51688121048035214, (-16))];
  [(2451545, 0); (28358207758220542, (-12)); (3934872940551017, (-15))];
  [(2451545, 0); (6873831840388314, (-12)); (27027520633932909, (-16))];
  [(2451545, 0); (19804888399840871, (-12)); (55889968667318826, (-16))];
  [(2451545, 0); (20981623996301587, (-12)); (53205615548956899, (-16))];
  [(2451545, 0); (17841715828989923, (-12)); (21497816665380043, (-16))];
  [(2451545, 0); (19698323785411823, (-12)); (20827614814296425, (-17))];
  [(2451545, 0); (98676986735068203, (-13)); (31015923004232206, (-16))];
  [(2451545, 0); (35999144387045067, (-13)); (34518852964285784, (-16))];
  [(2451545, 0); (11955419267116942, (-12)); (58434481951262072, (-16))];
  [(2451545, 0); (19393026979955426, (-12)); (56579926085678451, (-16))];
  [(2451545, 0); (17103885314353545, (-12)); (30887672185180577, (-16))];
  [(2451545, 0); (499581019887815, (-11)); (16766354571514697, (-16))];
  [(2451545, 0); (44877257620734881, (-13)); (49723142597734906, (-16))];
  [(2451545, 0); (11381006214155789, (-13)); (62554395555250366, (-16))];
  [(2451545, 0); (21075212721912003, (-13)); (44187321823680747, (-17))];
  [(2451545, 0); (19992258254436048, (-12)); (48528464034976864, (-16))];
  [(2451545, 0); (32066368979921484, (-12)); (59044609209698251, (-16))];
  [(2451545, 0); (28755092485163359, (-13)); (10110227070043791, (-16))];
  [(2451545, 0); (26772335131749867, (-12)); (25874599532376266, (-16))];
  [(2451545, 0); (14380418046502566, (-13)); (47623397086707868, (-16))];
  [(2451545, 0); (15074059872044809, (-12)); (68405031042489384, (-17))];
  [(2451545, 0); (22138128481766274, (-12)); (32519938241266075, (-16))];
  [(2451545, 0); (23095015197771168, (-12)); (15119069088046899, (-17))];
  [(2451545, 0); (17154365148533394, (-12)); (68883215253663366, (-17))];
  [(2451545, 0); (16227849064023647, (-12)); (35763740008114553, (-17))];
  [(2451545, 0); (81140533880801722, (-13)); (29654981347984943, (-17))];
  [(2451545, 0); (33727541909167601, (-12)); (41508759178801213, (-16))];
  [(2451545, 0); (24598947789895672, (-12)); (46583180804226032, (-17))];
  [(2451545, 0); (19640459371781928, (-13)); (12703520781879405, (-16))];
  [(2451545, 0); (20178934493099332, (-12)); (60298321095251595, (-16))];
  [(2451545, 0); (17529134662435576, (-12)); (56874977666873292, (-16))];
  [(2451545, 0); (33761338593117951, (-12)); (34547801283652646, (-16))];
  [(2451545, 0); (24015280441039929, (-12)); (50819606571930791, (-16))];
  [(2451545, 0); (2731295540244217, (-11)); (32182120176975957, (-16))];
  [(2451545, 0); (14451791963899042, (-12)); (86274009979653243, (-17))];
  [(2451545, 0); (16932984060737926, (-12)); (76933499566916907, (-17))];
  [(2451545, 0); (14483839685329862, (-12)); (17138733517886422, (-16))];
  [(2451545, 0); (20362171689815856, (-12)); (43890768892998722, (-16))];
  [(2451545, 0); (33616683622806573, (-12)); (31342848227088282, (-16))];
  [(2451545, 0); (12785582872605633, (-12)); (23024792947544768, (-16))];
  [(2451545, 0); (16108351792544199, (-12)); (14607603311751021, (-16))];
  [(2451545, 0); (15626802061530476, (-12)); (22893641698978797, (-16))];
  [(2451545, 0); (98695856517679567, (-13)); (24239159103061354, (-16))];
  [(2451545, 0); (23884615039215707, (-12)); (49365732925957246, (-16))];
  [(2451545, 0); (23302928925949094, (-12)); (31856981342753912, (-16))];
  [(2451545, 0); (24746630402645122, (-12)); (10120917233551907, (-16))];
  [(2451545, 0); (27870384385346897, (-13)); (28141308945595327, (-16))];
  [(2451545, 0); (73780088056299455, (-13)); (6204414856102062, (-15))];
  [(2451545, 0); (31157280791974925, (-12)); (22784320664455748, (-16))];
  [(2451545, 0); (17787291216601585, (-12)); (48288266984449493, (-16))];
  [(2451545, 0); (15613864407784502, (-13)); (27663636388004136, (-16))];
  [(2451545, 0); (31259860673621632, (-12)); (14033481466510338, (-16))];
  [(2451545, 0); (32081070394940853, (-12)); (42812925388925009, (-16))];
  [(2451545, 0); (16861963685505725, (-12)); (57027936950054468, (-16))];
  [(2451545, 0); (8909673372728721, (-12)); (53120554831362554, (-16))];
  [(2451545, 0); (19137297160788861, (-12)); (29564785794403363, (-16))];
  [(2451545, 0); (54710467491358877, (-13)); (50548437320518147, (-16))];
  [(2451545, 0); (11337550197712637, (-12)); (23206000115536369, (-16))];
  [(2451545, 0); (33213613952791689, (-12)); (20460436710896772, (-16))];
  [(2451545, 0); (13160733341649204, (-13)); (28623219601424204, (-16))];
  [(2451545, 0); (16250169167652326, (-12)); (27528622473313433, (-16))];
  [(2451545, 0); (19785765797298216, (-12)); (44897119292147849, (-16))];
  [(2451545, 0); (26132537862302783, (-12)); (54217166782121922, (-16))];
  [(2451545, 0); (35138639739967992, (-12)); (39067820204303203, (-16))];
  [(2451545, 0); (14527602759098576, (-12)); (97804219022172134, (-17))];
  [(2451545, 0); (14087079053053569, (-12)); (26759027787723468, (-16))];
  [(2451545, 0); (2930090521638863, (-11)); (56840268936478893, (-16))];
  [(2451545, 0); (29894302135673817, (-12)); (58192940650540805, (-16))];
  [(2451545, 0); (12145744097258734, (-12)); (48752327679075762, (-16))];
  [(2451545, 0); (22081886285356653, (-12)); (76274053939924613, (-17))];
  [(2451545, 0); (79103089406502349, (-13)); (46805707019409084, (-16))];
  [(2451545, 0); (12844327643134618, (-12)); (17093633242605222, (-16))];
  [(2451545, 0); (1238181808933994, (-12)); (22039850309733957, (-16))];
  [(2451545, 0); (1325990903039031, (-11)); (62280475315269328, (-16))];
  [(2451545, 0); (14454399731058886, (-12)); (4726313067683634, (-15))];
  [(2451545, 0); (12637210470002343, (-12)); (36934613229913609, (-16))];
  [(2451545, 0); (24157994862754502, (-12)); (57426184804558531, (-16))];
  [(2451545, 0); (31766308722857379, (-12)); (36416419571577308, (-17))];
  [(2451545, 0); (21763624289354921, (-12)); (62081417179339553, (-16))];
  [(2451545, 0); (31537094275851246, (-12)); (13569511461577903, (-16))];
  [(2451545, 0); (31207286120380344, (-12)); (31721120640356588, (-16))];
  [(2451545, 0); (13316438903508828, (-12)); (42465902460368525, (-16))];
  [(2451545, 0); (13387697738303707, (-12)); (81551919148925833, (-17))];
  [(2451545, 0); (5249666096345718, (-12)); (51380872771188493, (-16))];
  [(2451545, 0); (70422905258719275, (-13)); (21994292061686735, (-16))];
  [(2451545, 0); (20801855641559167, (-12)); (36836241135728329, (-16))];
  [(2451545, 0); (1390935278039506, (-11)); (13385031314940292, (-16))];
  [(2451545, 0); (14353632431975951, (-12)); (44549988766218576, (-16))];
  [(2451545, 0); (12467375745391339, (-12)); (18103897878971154, (-16))];
  [(2451545, 0); (29208493054843722, (-12)); (15046489326681822, (-16))];
  [(2451545, 0); (15895484167169412, (-12)); (49138928210825554, (-16))];
  [(2451545, 0); (84576525673888432, (-14)); (54026610141875153, (-16))];
  [(2451545, 0); (20642527407057732, (-12)); (51636583227322959, (-16))];
  [(2451545, 0); (10223959053562159, (-12)); (45828781644876599, (-16))];
  [(2451545, 0); (3367981106074655, (-11)); (50209305383151062, (-16))];
  [(2451545, 0); (14408161065505203, (-12)); (24313273392789654, (-16))];
  [(2451545, 0); (52413924736927902, (-13)); (32765411019181059, (-16))];
  [(2451545, 0); (92948470917963023, (-13)); (4630214448456158, (-16))];
  [(2451545, 0); (24732808795356643, (-12)); (18952044166978865, (-16))];
  [(2451545, 0); (33457168728789948, (-12)); (34382917580726087, (-16))];
  [(2451545, 0); (20413987413181443, (-12)); (41225760256585673, (-16))];
  [(2451545, 0); (24140251617850754, (-12)); (76745053650949302, (-17))];
  [(2451545, 0); (83747402291602957, (-13)); (2813296142462832, (-15))];
  [(2451545, 0); (31783218766406917, (-12)); (89840753653618322, (-18))];
  [(2451545, 0); (23744336000793544, (-12)); (77021796874477388, (-17))];
  [(2451545, 0); (46597372391660447, (-13)); (17202139698635079, (-16))];
  [(2451545, 0); (42382273405119131, (-13)); (38319078830413673, (-16))];
  [(2451545, 0); (35246864785599893, (-12)); (89930679055869689, (-17))];
  [(2451545, 0); (25852404363385613, (-12)); (60471967970898604, (-16))];
  [(2451545, 0); (29249906642022415, (-14)); (49593886347553529, (-17))];
  [(2451545, 0); (81671705795690868, (-13)); (19466171212795516, (-16))];
  [(2451545, 0); (29490828629881653, (-13)); (5880775256532516, (-15))];
  [(2451545, 0); (888148510799012, (-11)); (36442536517505815, (-16))];
  [(2451545, 0); (25576261578808673, (-12)); (39979707247172058, (-17))];
  [(2451545, 0); (2665031551638633, (-11)); (36520965408102768, (-17))];
  [(2451545, 0); (10905655949147254, (-12)); (18387187575987625, (-16))];
  [(2451545, 0); (18828527344496877, (-12)); (53744369515073629, (-16))];
  [(2451545, 0); (10041889803502069, (-13)); (45070430185155566, (-16))];
  [(2451545, 0); (349563639756173, (-10)); (53217483805223083, (-16))];
  [(2451545, 0); (28586228060526719, (-12)); (17016969723152542, (-16))];
  [(2451545, 0); (93948780926473573, (-13)); (23785567764360778, (-16))];
  [(2451545, 0); (16298737385492721, (-12)); (87537413113857099, (-17))];
  [(2451545, 0); (19104818819263732, (-12)); (56754571808909375, (-16))];
  [(2451545, 0); (61971044812596128, (-13)); (53409902392212913, (-16))];
  [(2451545, 0); (11171204997322882, (-13)); (60194348822980039, (-16))];
  [(2451545, 0); (33058180375048207, (-12)); (29311833545332249, (-16))];
  [(2451545, 0); (2628590847190806, (-11)); (41054489656058664, (-16))];
  [(2451545, 0); (59252360407738624, (-13)); (14908733120967312, (-16))];
  [(2451545, 0); (31219928316474194, (-12)); (11414371454921692, (-16))];
  [(2451545, 0); (10262538046834045, (-12)); (26012576462689836, (-16))];
  [(2451545, 0); (26324058198371044, (-13)); (24624376209982941, (-16))];
  [(2451545, 0); (25741231545938652, (-12)); (30489379839128432, (-16))];
  [(2451545, 0); (28194000204323042, (-12)); (6089230818751453, (-15))];
  [(2451545, 0); (2795165437346121, (-11)); (60306202343026101, (-16))];
  [(2451545, 0); (31695481448020742, (-12)); (23104490377835418, (-17))];
  [(2451545, 0); (58414411315386451, (-13)); (13380415158618675, (-16))];
  [(2451545, 0); (28230075686602879, (-12)); (90089158763849753, (-17))];
  [(2451545, 0); (35483383557386587, (-12)); (1944299136503858, (-15))];
  [(2451545, 0); (24144494238987696, (-12)); (23648664300223956, (-16))];
  [(2451545, 0); (69439668115839877, (-13)); (47572754659549048, (-16))];
  [(2451545, 0); (62965169062697703, (-14)); (97147971555478563, (-17))];
  [(2451545, 0); (22223912887585997, (-12)); (33730543919597125, (-16))];
  [(2451545, 0); (34658969858471464, (-12)); (40127956199171422, (-16))];
  [(2451545, 0); (30058243409275135, (-12)); (19872671408177709, (-16))];
  [(2451545, 0); (27887126291997687, (-12)); (16025628967223682, (-16))];
  [(2451545, 0); (17535640606127075, (-12)); (26951668398873849, (-16))];
  [(2451545, 0); (18767813128579644, (-12)); (61256544563986211, (-16))];
  [(2451545, 0); (31526128675489759, (-12)); (13844582228643603, (-16))];
  [(2451545, 0); (20976092028056817, (-12)); (18829445843208106, (-16))];
  [(2451545, 0); (48841696204377212, (-14)); (33502766742170849, (-16))];
  [(2451545, 0); (1249843991570413, (-11)); (27479551904608215, (-16))];
  [(2451545, 0); (36478989523779004, (-12)); (40287349685108964, (-16))];
  [(2451545, 0); (90381712401724526, (-13)); (43675069741370081, (-16))];
  [(2451545, 0); (34407050649758203, (-12)); (18686277896190262, (-17))];
  [(2451545, 0); (3009192752352453, (-11)); (58193861601412777, (-17))];
  [(2451545, 0); (35770195318743325, (-12)); (56953482820634491, (-16))];
  [(2451545, 0); (25309211478831807, (-12)); (17743511657250082, (-16))];
  [(2451545, 0); (11870867205187455, (-12)); (92026103834872686, (-17))];
  [(2451545, 0); (50099618632883939, (-13)); (28730105236918391, (-16))];
  [(2451545, 0); (19485524232093678, (-12)); (40902889719124431, (-16))];
  [(2451545, 0); (85331164795436143, (-13)); (16185784151190887, (-16))];
  [(2451545, 0); (14752284235547955, (-12)); (28417108020839024, (-16))];
  [(2451545, 0); (31616325066097463, (-12)); (41699913119276388, (-16))];
  [(2451545, 0); (29046042722860475, (-12)); (21638151565206272, (-16))];
  [(2451545, 0); (18163231637313995, (-12)); (46382883135540993, (-16))];
  [(2451545, 0); (2380201015300096, (-11)); (59981623363013128, (-16))];
  [(2451545, 0); (33183652225520309, (-12)); (17711113043114608, (-16))];
  [(2451545, 0); (25373933541056078, (-12)); (11413771538177215, (-16))];
  [(2451545, 0); (15954620794270872, (-12)); (50643978922904154, (-17))];
  [(2451545, 0); (24676124775616656, (-12)); (29054782571566591, (-16))];
  [(2451545, 0); (26440377817164604, (-12)); (34284562943134702, (-16))];
  [(2451545, 0); (19579769445683576, (-13)); (73245882505174364, (-17))];
  [(2451545, 0); (1336346444011791, (-11)); (52159832183898303, (-16))];
  [(2451545, 0); (51490426054411209, (-13)); (57728203333455497, (-16))];
  [(2451545, 0); (25195752445755879, (-13)); (15860328312838092, (-16))];
  [(2451545, 0); (2776211692291492, (-12)); (37164727206223134, (-16))];
  [(2451545, 0); (60720071702142804, (-13)); (25776204999806183, (-16))];
  [(2451545, 0); (90779683034358968, (-13)); (3777014081547847, (-15))];
  [(2451545, 0); (34403342889166452, (-12)); (19592755715288135, (-16))];
  [(2451545, 0); (40609576131766321, (-13)); (53709206773626335, (-16))];
  [(2451545, 0); (36190303413959242, (-12)); (10349348350498815, (-16))];
  [(2451545, 0); (23929861516223718, (-12)); (98038672335007249, (-17))];
  [(2451545, 0); (34155564276280267, (-12)); (53711449456604186, (-16))];
  [(2451545, 0); (70602746985709118, (-13)); (24093503092550463, (-16))];
  [(2451545, 0); (47927577543568241, (-13)); (41373575046458768, (-16))];
  [(2451545, 0); (36507162683257397, (-12)); (56013678074937445, (-16))];
  [(2451545, 0); (75564118273690829, (-13)); (55224106354668621, (-16))];
  [(2451545, 0); (17530839991797453, (-12)); (38653629246959795, (-16))];
  [(2451545, 0); (43303254808262309, (-13)); (60328304122377574, (-16))];
  [(2451545, 0); (29887417240685365, (-12)); (14089967526575009, (-17))];
  [(2451545, 0); (29751869076748239, (-13)); (70036846019677768, (-17))];
  [(2451545, 0); (29715015475596094, (-12)); (93403435444504623, (-17))];
  [(2451545, 0); (2939507628259718, (-11)); (20956298662946224, (-16))];
  [(2451545, 0); (83494577610064553, (-13)); (60358283121857426, (-17))];
  [(2451545, 0); (17023369154059521, (-13)); (48798419217464399, (-16))];
  [(2451545, 0); (13448240777962215, (-12)); (52690102352847035, (-16))];
  [(2451545, 0); (30418748291586933, (-12)); (50778206802599755, (-16))];
  [(2451545, 0); (83910922602860483, (-13)); (53064635153062554, (-16))];
  [(2451545, 0); (12113567068472079, (-12)); (32094130692646416, (-16))];
  [(2451545, 0); (11588015652595445, (-13)); (47325156632894014, (-16))];
  [(2451545, 0); (22629994116045378, (-12)); (45857247613830268, (-16))];
  [(2451545, 0); (79391797610877638, (-13)); (43655526106855262, (-16))];
  [(2451545, 0); (26142428317822625, (-12)); (4903565801936395, (-15))];
  [(2451545, 0); (29248424774076881, (-12)); (1762540826682006, (-15))];
  [(2451545, 0); (22411369038725363, (-12)); (31806055958801807, (-16))];
  [(2451545, 0); (29791731982753761, (-12)); (47248742532183741, (-17))];
  [(2451545, 0); (19796462832023499, (-12)); (27701372787924683, (-16))];
  [(2451545, 0); (79665625483009962, (-13)); (95853392037673046, (-17))];
  [(2451545, 0); (21847483025863642, (-14)); (53534656728927388, (-16))];
  [(2451545, 0); (60059376910235433, (-13)); (10045308241041369, (-16))];
  [(2451545, 0); (34987032614653275, (-12)); (37673134760159428, (-16))];
  [(2451545, 0); (50986301758773625, (-13)); (23142452919118668, (-16))];
  [(2451545, 0); (29385082580176248, (-12)); (19632852588984306, (-16))];
  [(2451545, 0); (2325761894982422, (-11)); (45863035503990801, (-17))];
  [(2451545, 0); (27851787882170638, (-13)); (36639839180088885, (-16))];
  [(2451545, 0); (97497028438827037, (-13)); (10980100945753009, (-16))];
  [(2451545, 0); (16120137945397404, (-12)); (31986659833155073, (-17))];
  [(2451545, 0); (27731733844492072, (-12)); (27468390161507799, (-16))];
  [(2451545, 0); (2335022374153389, (-11)); (5851652995656309, (-15))];
  [(2451545, 0); (2990073434815562, (-11)); (23624279472950818, (-16))];
  [(2451545, 0); (84645035996287006, (-13)); (28706345643763314, (-16))];
  [(2451545, 0); (29331869951112396, (-12)); (5995109555378896, (-15))];
  [(2451545, 0); (35796255565962376, (-12)); (23900046886245008, (-17))];
  [(2451545, 0); (87577922184384734, (-13)); (34460982102774054, (-16))];
  [(2451545, 0); (35597669154463889, (-12)); (57047198601666906, (-16))];
  [(2451545, 0); (74574788423942045, (-13)); (42416154832190003, (-16))];
  [(2451545, 0); (3557610058589439, (-11)); (17612717884537261, (-16))];
  [(2451545, 0); (17612652155754797, (-12)); (40925017971528419, (-16))];
  [(2451545, 0); (39791122084609412, (-14)); (48989003062379162, (-16))];
  [(2451545, 0); (17809601685753365, (-12)); (88016530081962685, (-17))];
  [(2451545, 0); (18154584613517025, (-12)); (42417024289152749, (-17))];
  [(2451545, 0); (16320025734674162, (-12)); (30533314767851678, (-16))];
  [(2451545, 0); (86538109486147296, (-13)); (17750789025614111, (-16))];
  [(2451545, 0); (20108825235447512, (-12)); (41373139968968076, (-16))];
  [(2451545, 0); (20805947935303837, (-12)); (43339191859003705, (-16))];
  [(2451545, 0); (19038058148599299, (-12)); (60307787003703481, (-16))];
  [(2451545, 0); (84474383972980668, (-13)); (21673975635644922, (-16))];
  [(2451545, 0); (93155806373428404, (-13)); (54286862187241951, (-16))];
  [(2451545, 0); (66486545774672632, (-13)); (39986218764883645, (-16))];
  [(2451545, 0); (23328860886196875, (-12)); (32042779997479229, (-16))];
  [(2451545, 0); (89492592743547368, (-14)); (97467015247467614, (-17))];
  [(2451545, 0); (17718738619504111, (-12)); (17750264918574032, (-17))];
  [(2451545, 0); (60843091817570466, (-13)); (46868363997831963, (-16))];
  [(2451545, 0); (32994486956402558, (-12)); (37618251903417033, (-16))];
  [(2451545, 0); (14048983937949904, (-12)); (14229579459853028, (-16))];
  [(2451545, 0); (19336726974321289, (-12)); (28045188090811592, (-16))];
  [(2451545, 0); (12544867372287517, (-12)); (62323975600278558, (-16))];
  [(2451545, 0); (12043310994386134, (-13)); (25596989526100522, (-16))];
  [(2451545, 0); (5397545775278998, (-12)); (6427552039199611, (-16))];
  [(2451545, 0); (32492500381721079, (-13)); (58115122589340515, (-16))];
  [(2451545, 0); (10820807895238377, (-12)); (13338527448708462, (-16))];
  [(2451545, 0); (20882567460493305, (-12)); (32613482778918552, (-16))];
  [(2451545, 0); (35041921571467392, (-12)); (40138182538256402, (-16))];
  [(2451545, 0); (26188166422463059, (-13)); (48099474731564911, (-16))];
  [(2451545, 0); (80303718575906105, (-13)); (8580480476375314, (-16))];
  [(2451545, 0); (29183227021578328, (-12)); (56816670941173584, (-16))];
  [(2451545, 0); (10856094723671107, (-12)); (37430592984253934, (-16))];
  [(2451545, 0); (2462286686825705, (-11)); (36884643846395448, (-17))];
  [(2451545, 0); (32119048245945931, (-12)); (47954281123027727, (-16))];
  [(2451545, 0); (32255170157503293, (-12)); (16198292778517853, (-16))];
  [(2451545, 0); (14140142134385813, (-12)); (39850551325789283, (-16))];
  [(2451545, 0); (10762372812853773, (-12)); (38781240250232685, (-16))];
  [(2451545, 0); (21927387844189001, (-12)); (12564176964309652, (-16))];
  [(2451545, 0); (74556576709168769, (-14)); (24255809797283696, (-16))];
  [(2451545, 0); (59325215536778542, (-13)); (34101304967399884, (-16))];
  [(2451545, 0); (10706598554354659, (-12)); (43370608962343766, (-16))];
  [(2451545, 0); (11781223243764087, (-12)); (16152458695927479, (-16))];
  [(2451545, 0); (10310572249950017, (-12)); (36424551497622204, (-16))];
  [(2451545, 0); (98502757977223155, (-13)); (1448739464979667, (-16))];
  [(2451545, 0); (25144753684391395, (-12)); (23520966586880689, (-16))];
  [(2451545, 0); (1074597098759252, (-11)); (10712343039578442, (-16))];
  [(2451545, 0); (33264074651542127, (-12)); (58087332922724428, (-16))];
  [(2451545, 0); (2393195082823755, (-11)); (15774913768623762, (-16))];
  [(2451545, 0); (94968112180739918, (-13)); (37118433678964706, (-16))];
  [(2451545, 0); (22354724632569025, (-12)); (44404603630667765, (-16))];
  [(2451545, 0); (34147175403883863, (-12)); (27834807288062819, (-16))];
  [(2451545, 0); (20446986399842132, (-12)); (46838635213228841, (-16))];
  [(2451545, 0); (19559860760420506, (-12)); (12003238125900779, (-16))];
  [(2451545, 0); (28746907791062345, (-12)); (24534261582024897, (-16))];
  [(2451545, 0); (35761237887727912, (-12)); (58087297637019475, (-16))];
  [(2451545, 0); (20747384621918169, (-12)); (60702854715307026, (-16))];
  [(2451545, 0); (81690469605538592, (-13)); (12021737837649411, (-16))];
  [(2451545, 0); (64537777305446771, (-13)); (14201089672098348, (-16))];
  [(2451545, 0); (32408224228572857, (-12)); (45924314429411552, (-16))];
  [(2451545, 0); (13205614031066651, (-12)); (3440519787076461, (-15))];
  [(2451545, 0); (35407181137834552, (-12)); (56447971832472845, (-16))];
  [(2451545, 0); (12092950009922386, (-12)); (52608468198587701, (-16))];
  [(2451545, 0); (34174074672071052, (-12)); (26132901243890245, (-16))];
  [(2451545, 0); (11858419738259858, (-12)); (41778051592572254, (-16))];
  [(2451545, 0); (43581071982956319, (-13)); (51392269159813111, (-16))];
  [(2451545, 0); (87393883382798958, (-13)); (59185748067265109, (-17))];
  [(2451545, 0); (16838678053423122, (-12)); (35075507657264424, (-16))];
  [(2451545, 0); (13448525607683789, (-12)); (78036254176113573, (-17))];
  [(2451545, 0); (28021911934129359, (-12)); (25743195080786307, (-16))];
  [(2451545, 0); (26186063602985603, (-12)); (3362616907840561, (-15))];
  [(2451545, 0); (38984479708350864, (-13)); (56564086619576912, (-16))];
  [(2451545, 0); (25275522930720513, (-13)); (15790469022011777, (-16))];
  [(2451545, 0); (12342092966144255, (-12)); (41616838183326905, (-16))];
  [(2451545, 0); (11893119559875722, (-12)); (28886413091891043, (-16))];
  [(2451545, 0); (19868421967912076, (-12)); (37512344719450184, (-16))];
  [(2451545, 0); (35047977453945496, (-12)); (44691125970507315, (-16))];
  [(2451545, 0); (43720519152643292, (-13)); (50317529113854391, (-16))];
  [(2451545, 0); (26970184767507519, (-12)); (50461385181873908, (-16))];
  [(2451545, 0); (18483671366506922, (-12)); (34707946795222711, (-17))];
  [(2451545, 0); (24241133920992648, (-12)); (17633348615691986, (-16))];
  [(2451545, 0); (22118416057313119, (-12)); (47197876094599636, (-16))];
  [(2451545, 0); (2755854118038269, (-11)); (484018871291957, (-14))];
  [(2451545, 0); (10598105000382351, (-12)); (56528295381183469, (-16))];
  [(2451545, 0); (21692471326742434, (-12)); (40230632384397893, (-16))];
  [(2451545, 0); (11349664196669803, (-12)); (32452637696862894, (-16))];
  [(2451545, 0); (30414343047686275, (-13)); (3394409866222297, (-15))];
  [(2451545, 0); (21080905202633083, (-12)); (25121008778184475, (-16))];
  [(2451545, 0); (13710418852218532, (-12)); (46147327930311661, (-16))];
  [(2451545, 0); (18247866134065483, (-12)); (37976614841614307, (-16))];
  [(2451545, 0); (20326156927907992, (-12)); (36767926850076833, (-16))];
  [(2451545, 0); (22692240628008374, (-12)); (92219547486396181, (-17))];
  [(2451545, 0); (11198249606997624, (-12)); (43188443782734325, (-16))];
  [(2451545, 0); (14119994509380535, (-12)); (27109168050864412, (-16))];
  [(2451545, 0); (31153139286674788, (-12)); (13180851258551769, (-16))];
  [(2451545, 0); (1897738333350114, (-11)); (74705132554505127, (-17))];
  [(2451545, 0); (21783245839648582, (-12)); (41678055152553668, (-16))];
  [(2451545, 0); (34579404035944077, (-12)); (53721075693771567, (-16))];
  [(2451545, 0); (23758264259123349, (-12)); (55904816161974225, (-17))];
  [(2451545, 0); (29930624294029258, (-12)); (21851096939540682, (-16))];
  [(2451545, 0); (26723680261356338, (-12)); (39190034079656044, (-16))];
  [(2451545, 0); (17251134139149504, (-12)); (90199493975421774, (-17))];
  [(2451545, 0); (19895960539691918, (-12)); (13257189157311586, (-16))];
  [(2451545, 0); (15143157394162448, (-12)); (24854278307746114, (-16))];
  [(2451545, 0); (20023956105662528, (-12)); (34996617980788756, (-16))];
  [(2451545, 0); (33322410739949963, (-12)); (26407615996278935, (-16))];
  [(2451545, 0); (14963358196735733, (-12)); (65416952726259581, (-17))];
  [(2451545, 0); (34973834459253507, (-12)); (2295229340403786, (-15))];
  [(2451545, 0); (16921732607592872, (-12)); (52790440789160797, (-16))];
  [(2451545, 0); (15583576056360425, (-12)); (12575030283440469, (-17))];
  [(2451545, 0); (28131246378560998, (-12)); (27330128671370346, (-17))];
  [(2451545, 0); (27349135722130282, (-12)); (49735743890022874, (-16))];
  [(2451545, 0); (19677442376934368, (-14)); (57938762103081309, (-17))];
  [(2451545, 0); (15793774645501891, (-12)); (49893965555338298, (-16))];
  [(2451545, 0); (65604063299130047, (-15)); (35357504290818014, (-16))];
  [(2451545, 0); (3271140313371256, (-11)); (46486782505593425, (-16))];
  [(2451545, 0); (28732413421061701, (-12)); (53810583854426213, (-16))];
  [(2451545, 0); (82400719888479689, (-13)); (25812164846307368, (-16))];
  [(2451545, 0); (13842630458989166, (-12)); (19354398395975849, (-16))];
  [(2451545, 0); (10473729228091208, (-12)); (1152248229800179, (-15))];
  [(2451545, 0); (31604232634077161, (-12)); (33812076129435908, (-16))];
  [(2451545, 0); (37141637526129257, (-13)); (70052268970395204, (-17))];
  [(2451545, 0); (91346805594486761, (-14)); (46999290616276497, (-16))];
  [(2451545, 0); (32291293036997173, (-12)); (30132961681792167, (-16))];
  [(2451545, 0); (32979253716845713, (-12)); (20342929113528427, (-16))];
  [(2451545, 0); (24935660348094363, (-12)); (44519715967625828, (-16))];
  [(2451545, 0); (24734524093115215, (-12)); (13587433650429404, (-17))];
  [(2451545, 0); (26624228688687731, (-13)); (30859185140420351, (-16))];
  [(2451545, 0); (74964712516859172, (-13)); (48646760831442535, (-16))];
  [(2451545, 0); (23105413347434282, (-12)); (28317096419665404, (-16))];
  [(2451545, 0); (82638821910605918, (-14)); (27003364183707319, (-16))];
  [(2451545, 0); (12432784500140966, (-12)); (37836268124676948, (-16))];
  [(2451545, 0); (86609879267231809, (-13)); (30105248195042194, (-16))];
  [(2451545, 0); (30257486326104638, (-12)); (65778572202864893, (-17))];
  [(2451545, 0); (20389076920953215, (-12)); (42564551815191862, (-16))];
  [(2451545, 0); (25893880318743868, (-12)); (34680040359009467, (-16))];
  [(2451545, 0); (11452364276511173, (-12)); (31274750514790242, (-16))];
  [(2451545, 0); (17941467022625777, (-12)); (23024231207673012, (-16))];
  [(2451545, 0); (9283401694514776, (-12)); (37508073175345231, (-16))];
  [(2451545, 0); (32592213277598137, (-12)); (14054517935134214, (-16))];
  [(2451545, 0); (26179975207564898, (-13)); (59323499957667494, (-16))];
  [(2451545, 0); (17359218343384877, (-12)); (32903496447528937, (-16))];
  [(2451545, 0); (23993694880343293, (-12)); (10314556002914443, (-16))];
  [(2451545, 0); (16487699839973771, (-12)); (38900347530856578, (-16))];
  [(2451545, 0); (69433473248397991, (-14)); (92662269981502732, (-18))];
  [(2451545, 0); (1168679159927177, (-11)); (35618987385788401, (-16))];
  [(2451545, 0); (31512590526966491, (-12)); (40534709735504393, (-16))];
  [(2451545, 0); (10288533389725324, (-12)); (30191727257182563, (-16))];
  [(2451545, 0); (86035047575621738, (-13)); (5269032954900382, (-15))];
  [(2451545, 0); (27571894497641446, (-12)); (10066673761380187, (-16))];
  [(2451545, 0); (14149356076451746, (-12)); (54877926638522965, (-16))];
  [(2451545, 0); (10118522212258516, (-12)); (2437982591880683, (-17))];
  [(2451545, 0); (14925147072141419, (-12)); (49535052584192627, (-16))];
  [(2451545, 0); (34877439486516683, (-12)); (44385241196675906, (-16))];
  [(2451545, 0); (93543149849300662, (-13)); (44258580848897822, (-16))];
  [(2451545, 0); (13528318266943847, (-12)); (85020990435508281, (-17))];
  [(2451545, 0); (17673252906503181, (-12)); (26264097622688283, (-16))];
  [(2451545, 0); (46932321492107612, (-13)); (54060109486480528, (-16))];
  [(2451545, 0); (28890416899017731, (-12)); (18377299218030885, (-16))];
  [(2451545, 0); (26362024484918365, (-12)); (61437415317528803, (-16))];
  [(2451545, 0); (53022550771360038, (-13)); (34602225089079255, (-16))];
  [(2451545, 0); (32299035819270917, (-12)); (15303422609096415, (-16))];
  [(2451545, 0); (81577788075789385, (-13)); (56066674678905528, (-16))];
  [(2451545, 0); (10964631234478922, (-12)); (26979353654379779, (-16))];
  [(2451545, 0); (99807342224495951, (-13)); (52694107066512572, (-16))];
  [(2451545, 0); (27046889559259021, (-13)); (54848616213250594, (-16))];
  [(2451545, 0); (29422953729105043, (-13)); (8160695478420692, (-16))];
  [(2451545, 0); (20501984215899887, (-12)); (56162237155735184, (-16))];
  [(2451545, 0); (2464887881548642, (-11)); (89137528184426884, (-17))];
  [(2451545, 0); (34333342177561433, (-12)); (75063961390892331, (-17))];
  [(2451545, 0); (1763239374732006, (-11)); (28084721199730112, (-16))];
  [(2451545, 0); (80755194615150031, (-13)); (25621080467623685, (-16))];
  [(2451545, 0); (51050720246640531, (-13)); (52012769360663924, (-16))];
  [(2451545, 0); (22258493013223037, (-12)); (13297594946884459, (-16))];
  [(2451545, 0); (37090059875724087, (-13)); (59037162118865893, (-16))];
  [(2451545, 0); (16739264178002963, (-12)); (54801447767088547, (-16))];
  [(2451545, 0); (22300451884229158, (-12)); (17931224384745263, (-16))];
  [(2451545, 0); (33744507901486402, (-12)); (42290514015795182, (-16))];
  [(2451545, 0); (20049697305622496, (-12)); (23163779332464287, (-16))];
  [(2451545, 0); (14232799988408198, (-12)); (34292055970703075, (-16))];
  [(2451545, 0); (33465640425139296, (-12)); (26459366447722488, (-17))];
  [(2451545, 0); (14217869396945568, (-13)); (28813568577638051, (-16))];
  [(2451545, 0); (3281656546456326, (-11)); (11944690592482559, (-16))];
  [(2451545, 0); (13937233762999265, (-12)); (10703084484291523, (-16))];
  [(2451545, 0); (18464021270292895, (-12)); (22075653111588665, (-16))];
  [(2451545, 0); (98790220060942447, (-13)); (53279368636194917, (-16))];
  [(2451545, 0); (34240688489178923, (-12)); (13327342947620977, (-16))];
  [(2451545, 0); (17986488368114096, (-12)); (32110060491609858, (-16))];
  [(2451545, 0); (33778050214319352, (-12)); (19303190070039093, (-16))];
  [(2451545, 0); (34649138020507118, (-12)); (49002598093460605, (-16))];
  [(2451545, 0); (20823752499622064, (-12)); (34122378943453242, (-16))];
  [(2451545, 0); (11744426518012777, (-12)); (22594717581342323, (-16))];
  [(2451545, 0); (29302123049744911, (-12)); (79047831815163505, (-17))];
  [(2451545, 0); (1056256689122267, (-11)); (16604570368226774, (-16))];
  [(2451545, 0); (17583703568742963, (-12)); (39175603367729437, (-16))];
  [(2451545, 0); (1300814041978858, (-11)); (3350941147993808, (-15))];
  [(2451545, 0); (34563950200342144, (-12)); (22547347282862802, (-16))];
  [(2451545, 0); (21769794690891518, (-12)); (1101765197109394, (-15))];
  [(2451545, 0); (14487006020040028, (-12)); (28134530170557355, (-16))];
  [(2451545, 0); (25278313247387091, (-13)); (33370545232205018, (-16))];
  [(2451545, 0); (35874987550326106, (-12)); (61925556014797891, (-16))];
  [(2451545, 0); (21315837275595484, (-12)); (61266464203023858, (-16))];
  [(2451545, 0); (17398863364254021, (-13)); (2694702574753336, (-15))];
  [(2451545, 0); (21635412035154313, (-12)); (26689790227855212, (-16))];
  [(2451545, 0); (20688399816990182, (-12)); (51510917181670166, (-16))];
  [(2451545, 0); (3534999807405894, (-12)); (28715995220189328, (-16))];
  [(2451545, 0); (24357134105722391, (-12)); (37599515612562229, (-16))];
  [(2451545, 0); (11649183307632573, (-12)); (5376130369580153, (-15))];
  [(2451545, 0); (11467444923883966, (-12)); (38936174434952591, (-16))];
  [(2451545, 0); (22523532927426906, (-12)); (61398120327315695, (-16))];
  [(2451545, 0); (3130016939940775, (-12)); (22958437096058191, (-16))];
  [(2451545, 0); (15433797328761004, (-12)); (52227105374965888, (-16))];
  [(2451545, 0); (32133322103433842, (-12)); (47848160916706917, (-17))];
  [(2451545, 0); (18044816848840586, (-12)); (62782883233425224, (-16))];
  [(2451545, 0); (1822589161645956, (-12)); (22501672176972605, (-16))];
  [(2451545, 0); (28132911165978432, (-12)); (44789217924429607, (-16))];
  [(2451545, 0); (11070541040609109, (-12)); (39531100716591752, (-16))];
  [(2451545, 0); (29155698863661491, (-12)); (18896087153168324, (-16))];
  [(2451545, 0); (13376716756279615, (-12)); (74611583359795475, (-17))];
  [(2451545, 0); (26268499287434115, (-12)); (12349911734089929, (-16))];
  [(2451545, 0); (44502400418274092, (-13)); (12756078550303229, (-16))];
  [(2451545, 0); (51186597645071906, (-13)); (2844708716536168, (-15))];
  [(2451545, 0); (17488129883743502, (-12)); (49521007923615343, (-16))];
  [(2451545, 0); (36846876702340628, (-13)); (34853413267492712, (-16))];
  [(2451545, 0); (12481300491074957, (-12)); (15770889486950566, (-16))];
  [(2451545, 0); (28985188978153819, (-12)); (20359472224897104, (-16))];
  [(2451545, 0); (33287220683138323, (-12)); (84125375666653213, (-17))];
  [(2451545, 0); (53115233499981105, (-13)); (53052651085377036, (-16))];
  [(2451545, 0); (87243710687391394, (-13)); (22501998856044025, (-17))];
  [(2451545, 0); (16196422840248035, (-12)); (34221801980048738, (-16))];
  [(2451545, 0); (14443768127494257, (-12)); (57494407675492454, (-17))];
  [(2451545, 0); (1352547815778471, (-11)); (1805977618650715, (-15))];
  [(2451545, 0); (30047751893582219, (-12)); (50016913310506013, (-16))];
  [(2451545, 0); (34128773081342079, (-12)); (62222388957356287, (-16))];
  [(2451545, 0); (3769855630177597, (-12)); (60057393171641777, (-16))];
  [(2451545, 0); (17602677644256248, (-12)); (4081067436998616, (-15))];
  [(2451545, 0); (12393206226125016, (-12)); (57525767422045107, (-16))];
  [(2451545, 0); (21279519545690284, (-12)); (35055464367012448, (-16))];
  [(2451545, 0); (12156986918809491, (-12)); (31114129595993489, (-17))];
  [(2451545, 0); (3468690812904865, (-11)); (41055373649613784, (-16))];
  [(2451545, 0); (19002563577606063, (-12)); (23127135181391125, (-16))];
  [(2451545, 0); (13152110885759882, (-13)); (37130259483041321, (-16))];
  [(2451545, 0); (23574685774954996, (-12)); (49560190955233452, (-18))];
  [(2451545, 0); (11331651637840258, (-12)); (28564990448182073, (-16))];
  [(2451545, 0); (12349726095033053, (-12)); (19878710966640014, (-16))];
  [(2451545, 0); (46953099991788649, (-13)); (59309002726832958, (-16))];
  [(2451545, 0); (17430941874794189, (-13)); (40558512933154987, (-16))];
  [(2451545, 0); (19377242141854567, (-12)); (45517576515929647, (-17))];
  [(2451545, 0); (14612479109943197, (-12)); (16611898628191071, (-16))];
  [(2451545, 0); (12781494874467686, (-12)); (16792482092708383, (-16))];
  [(2451545, 0); (19406518091106573, (-12)); (26926261871553692, (-16))];
  [(2451545, 0); (49429118424011385, (-13)); (14053135200101323, (-16))];
  [(2451545, 0); (227529686486731, (-11)); (19179862915030483, (-16))];
  [(2451545, 0); (12699968011876599, (-12)); (32496184947339373, (-16))];
  [(2451545, 0); (67273189912193739, (-13)); (32432706660039017, (-16))];
  [(2451545, 0); (12386388765103555, (-12)); (49904247423042847, (-17))];
  [(2451545, 0); (35029218815192267, (-12)); (56629405640691175, (-16))];
  [(2451545, 0); (33443583981900309, (-12)); (58137167443732949, (-16))];
  [(2451545, 0); (85260715984663893, (-13)); (12153949807519098, (-16))];
  [(2451545, 0); (15205002646680654, (-12)); (25769938665354317, (-16))];
  [(2451545, 0); (26699883193878992, (-12)); (47847046245446592, (-16))];
  [(2451545, 0); (20407741572371986, (-13)); (88260096609029404, (-17))];
  [(2451545, 0); (36494471764146801, (-12)); (10418835338374564, (-16))];
  [(2451545, 0); (33483960428677019, (-12)); (25903791816194328, (-16))];
  [(2451545, 0); (20251775111842788, (-12)); (6281427544163023, (-15))];
  [(2451545, 0); (36056696543329374, (-12)); (12067101362205506, (-16))];
  [(2451545, 0); (80063180772792543, (-14)); (37877824545363872, (-16))];
  [(2451545, 0); (33248053245110561, (-12)); (53986296054940723, (-16))];
  [(2451545, 0); (3304535900964844, (-11)); (3833022220068635, (-15))];
  [(2451545, 0); (36151927289822517, (-12)); (42947095138835323, (-16))];
  [(2451545, 0); (78373370581392046, (-13)); (3601962668611506, (-15))];
  [(2451545, 0); (35886886038353448, (-12)); (57594169940921844, (-16))];
  [(2451545, 0); (62550076204149127, (-13)); (57284558006802158, (-16))];
  [(2451545, 0); (22886857912535586, (-12)); (18653647162965967, (-16))];
  [(2451545, 0); (34705138335377618, (-12)); (5865565671717853, (-15))];
  [(2451545, 0); (11244848526932074, (-12)); (26003869921283354, (-16))];
  [(2451545, 0); (30370023612855781, (-12)); (59695445581581268, (-16))];
  [(2451545, 0); (13911132091611169, (-12)); (62656679453295538, (-16))];
  [(2451545, 0); (10849642911440826, (-13)); (448479050143618, (-14))];
  [(2451545, 0); (26535603625381013, (-12)); (20215730784572372, (-17))];
  [(2451545, 0); (29521259670093394, (-12)); (54185167791491509, (-16))];
  [(2451545, 0); (14226760119516624, (-12)); (30748030540360958, (-16))];
  [(2451545, 0); (52419675766477349, (-13)); (61672725566764086, (-17))];
  [(2451545, 0); (22123760863277832, (-12)); (69502438559014479, (-17))];
  [(2451545, 0); (32954727684379955, (-12)); (45904175438415606, (-16))];
  [(2451545, 0); (26771230450349987, (-12)); (19107243917619741, (-16))];
  [(2451545, 0); (76265070650158614, (-13)); (10434119765856593, (-16))];
  [(2451545, 0); (37851886494618329, (-13)); (20787372348610873, (-16))];
  [(2451545, 0); (11673963092777369, (-12)); (44187459408353575, (-16))];
  [(2451545, 0); (27609719618536463, (-12)); (55854407526675942, (-17))];
  [(2451545, 0); (15762054371689153, (-12)); (62013101790690754, (-16))];
  [(2451545, 0); (55156623310729256, (-13)); (3406959059368603, (-15))];
  [(2451545, 0); (34251331339581302, (-12)); (55549627215173558, (-16))];
  [(2451545, 0); (27033290180472327, (-13)); (3199911334972235, (-15))];
  [(2451545, 0); (19217578982492054, (-12)); (61082388777509848, (-16))];
  [(2451545, 0); (19127953915269976, (-12)); (63907919119581891, (-17))];
  [(2451545, 0); (11155794613781543, (-12)); (72971927095960609, (-17))];
  [(2451545, 0); (23980055899053721, (-12)); (30651828519013549, (-16))];
  [(2451545, 0); (19134771505986795, (-12)); (58934305901793849, (-16))];
  [(2451545, 0); (37247330149927457, (-13)); (44591180599544273, (-16))];
  [(2451545, 0); (29729213623521093, (-12)); (24232735756881567, (-16))];
  [(2451545, 0); (20810721404180487, (-12)); (29926962288645456, (-16))];
  [(2451545, 0); (43464534763098236, (-13)); (83130112145074264, (-17))];
  [(2451545, 0); (33647245088293756, (-12)); (90461503247542652, (-17))];
  [(2451545, 0); (1378560399933066, (-11)); (78820950245559374, (-17))];
  [(2451545, 0); (56258243904150675, (-14)); (56658071686581337, (-16))];
  [(2451545, 0); (42681749554885182, (-13)); (40179273244081486, (-16))];
  [(2451545, 0); (32478873332684037, (-12)); (36030061257104222, (-16))];
  [(2451545, 0); (23400153427623693, (-12)); (62687570944685831, (-16))];
  [(2451545, 0); (23939618938988657, (-12)); (59072632499282491, (-16))];
  [(2451545, 0); (33392601854176479, (-12)); (50490078511786294, (-16))];
  [(2451545, 0); (3569162146999043, (-11)); (73810877316957857, (-17))];
  [(2451545, 0); (27431792796493482, (-12)); (42407909027658945, (-16))];
  [(2451545, 0); (20579401806754398, (-12)); (32885904300334019, (-16))];
  [(2451545, 0); (23633579346877341, (-12)); (393950657194992, (-15))];
  [(2451545, 0); (28658155635593434, (-12)); (24839487583335185, (-16))];
  [(2451545, 0); (58245735692624803, (-13)); (18800134411083818, (-16))];
  [(2451545, 0); (12254697111687212, (-12)); (17105772755510174, (-17))];
  [(2451545, 0); (19806281130857038, (-12)); (1797371319047123, (-15))];
  [(2451545, 0); (26362522979002639, (-12)); (30012621153497676, (-16))];
  [(2451545, 0); (1154258041001118, (-11)); (60373960121657433, (-16))];
  [(2451545, 0); (87351485480506562, (-13)); (52954627098040987, (-16))];
  [(2451545, 0); (51340576476036549, (-13)); (5609559092319671, (-15))];
  [(2451545, 0); (25192349689223656, (-13)); (572534967085425, (-14))];
  [(2451545, 0); (65062835833925774, (-13)); (550169125817294, (-14))];
  [(2451545, 0); (25081224599819463, (-12)); (42181068361925966, (-16))];
  [(2451545, 0); (16718017405199327, (-12)); (35641347215329091, (-16))];
  [(2451545, 0); (34218575023736586, (-12)); (23941009102920674, (-17))];
  [(2451545, 0); (33201244289312497, (-12)); (57937796647532807, (-16))];
  [(2451545, 0); (68081964381225071, (-13)); (38645152136360323, (-16))];
  [(2451545, 0); (36506421797599935, (-12)); (93350108210371019, (-17))];
  [(2451545, 0); (12704723491479904, (-13)); (45849707060427889, (-16))];
  [(2451545, 0); (2103013916380093, (-11)); (31088357337717554, (-16))];
  [(2451545, 0); (18913914093078176, (-12)); (29901028303592128, (-16))];
  [(2451545, 0); (32308943296887478, (-13)); (32607717490851229, (-16))];
  [(2451545, 0); (2350048431202149, (-11)); (37904896642590771, (-16))];
  [(2451545, 0); (10697462211615131, (-12)); (3323229190024378, (-15))];
  [(2451545, 0); (33208134003538007, (-13)); (4299081741645054, (-15))];
  [(2451545, 0); (56700855263471922, (-13)); (2439203617219718, (-15))];
  [(2451545, 0); (1562333835520387, (-11)); (55994134006776264, (-16))];
  [(2451545, 0); (4485636350175072, (-12)); (43745802946753614, (-16))];
  [(2451545, 0); (13797499585088913, (-13)); (19258695161907795, (-16))];
  [(2451545, 0); (16877047318995534, (-12)); (20456447411802259, (-17))];
  [(2451545, 0); (46417618222894625, (-13)); (156545794067641, (-14))];
  [(2451545, 0); (11273564393478653, (-12)); (13090993453114095, (-16))];
  [(2451545, 0); (32826356588040951, (-12)); (50487827569092758, (-18))];
  [(2451545, 0); (32646389088882548, (-12)); (34420487069092047, (-16))];
  [(2451545, 0); (23279744899564284, (-12)); (16306104719560963, (-16))];
  [(2451545, 0); (30913274630698426, (-12)); (43254671279123684, (-16))];
  [(2451545, 0); (20192847317325617, (-12)); (57214214697164607, (-16))];
  [(2451545, 0); (16327709944527869, (-12)); (12013486272435756, (-16))];
  [(2451545, 0); (26119383881909562, (-12)); (42279522010788924, (-16))];
  [(2451545, 0); (32047558420583926, (-12)); (48798378098948803, (-17))];
  [(2451545, 0); (36139124442377615, (-12)); (53132186705266164, (-16))];
  [(2451545, 0); (1026831535995462, (-11)); (13014570951320721, (-16))];
  [(2451545, 0); (17008124671868401, (-12)); (29454030707556385, (-16))];
  [(2451545, 0); (30900723411959203, (-12)); (64614932594234631, (-17))];
  [(2451545, 0); (19378076603245452, (-12)); (57126058704701066, (-16))];
  [(2451545, 0); (27065414484861508, (-13)); (45899119528633392, (-16))];
  [(2451545, 0); (18319162654075462, (-12)); (60402188726731509, (-17))];
  [(2451545, 0); (1839768487869668, (-11)); (52360093629329114, (-16))];
  [(2451545, 0); (49733044755808141, (-13)); (43951200793804333, (-16))];
  [(2451545, 0); (28909087221197104, (-12)); (87473317989349653, (-18))];
  [(2451545, 0); (17664741565236349, (-12)); (55503295138338231, (-16))];
  [(2451545, 0); (10065628729219719, (-12)); (60669477451006628, (-16))];
  [(2451545, 0); (55530310778877247, (-13)); (83502214214135506, (-18))];
  [(2451545, 0); (32148706903021335, (-12)); (3160900808745204, (-15))];
  [(2451545, 0); (50196663070703389, (-13)); (11829136215778036, (-16))];
  [(2451545, 0); (11760163769060928, (-13)); (95164018810706352, (-18))];
  [(2451545, 0); (22025660268028721, (-12)); (46586070456731434, (-16))];
  [(2451545, 0); (35162102401252037, (-13)); (38705657816317114, (-16))];
  [(2451545, 0); (17963798806208491, (-12)); (47712362042690444, (-16))];
  [(2451545, 0); (12601177440307458, (-12)); (28660829819375166, (-16))];
  [(2451545, 0); (87575959763271985, (-13)); (22096968680270734, (-16))];
  [(2451545, 0); (26149723475935458, (-12)); (60040623248895741, (-17))];
  [(2451545, 0); (33082513617376128, (-12)); (54435914572280737, (-16))];
  [(2451545, 0); (1189956957697343, (-11)); (58271364778660555, (-16))];
  [(2451545, 0); (32309248133859746, (-12)); (30400282353760204, (-16))];
  [(2451545, 0); (34255471380086077, (-12)); (2228955765636087, (-16))];
  [(2451545, 0); (16035101114446254, (-12)); (4908817377861709, (-15))];
  [(2451545, 0); (11602462523744867, (-12)); (43612322363493661, (-18))];
  [(2451545, 0); (25942281095359896, (-12)); (53557132494262305, (-17))];
  [(2451545, 0); (23774972775520397, (-12)); (52982108769441112, (-16))];
  [(2451545, 0); (9845979588697794, (-13)); (45653726689745966, (-17))];
  [(2451545, 0); (8731400649359668, (-12)); (53180461701584392, (-17))];
  [(2451545, 0); (16768383783781355, (-12)); (44938542674045578, (-17))];
  [(2451545, 0); (2999962170291083, (-11)); (33557350345284291, (-16))];
  [(2451545, 0); (195920960961745, (-10)); (32334999986486395, (-16))];
  [(2451545, 0); (33601583340774312, (-12)); (22444364678764899, (-16))];
  [(2451545, 0); (31230282151453332, (-12)); (35427564161810636, (-16))];
  [(2451545, 0); (15322033999234784, (-12)); (47871821165550301, (-16))];
  [(2451545, 0); (10664414773124834, (-12)); (24566763933818123, (-16))];
  [(2451545, 0); (89735919719612684, (-13)); (59001385992814122, (-16))];
  [(2451545, 0); (26313358196560494, (-12)); (11201620796341913, (-16))];
  [(2451545, 0); (1479681625213251, (-11)); (66733202829199456, (-17))];
  [(2451545, 0); (2290833402587369, (-11)); (52263090050408536, (-16))];
  [(2451545, 0); (18938391399319386, (-12)); (12698410245236147, (-17))];
  [(2451545, 0); (87943956227085655, (-13)); (15838720805495612, (-16))];
  [(2451545, 0); (23246100001179977, (-12)); (32830141424335011, (-16))];
  [(2451545, 0); (19223789927430891, (-12)); (12573015010670332, (-16))];
  [(2451545, 0); (18910251499855738, (-12)); (50470875513569524, (-16))];
  [(2451545, 0); (11663914913425724, (-12)); (3943175560860972, (-15))];
  [(2451545, 0); (39900891382148498, (-13)); (4978224632501842, (-15))];
  [(2451545, 0); (35475578814703775, (-12)); (30368784578073047, (-16))];
  [(2451545, 0); (89113254468402665, (-13)); (31543919283500728, (-16))];
  [(2451545, 0); (98750297820502419, (-13)); (53081196811808624, (-16))];
  [(2451545, 0); (89634618696651378, (-13)); (49084219249893764, (-16))];
  [(2451545, 0); (30508588134792732, (-12)); (56169669799253654, (-16))];
  [(2451545, 0); (68093999106434949, (-13)); (51636731183413573, (-16))];
  [(2451545, 0); (85941308215580409, (-14)); (34246551918491619, (-16))];
  [(2451545, 0); (14379439703771395, (-12)); (36879931772472219, (-16))]
].

(** test_data.rs:17012-18013 [PR00_DATA] *)
Definition PR00_DATA : list (list (Z * Z)) := [
  [(24642620042662332, (-10)); (34494094239519046, (-17)); ((-50581944537078424), (-23)); ((-42605982984009986), (-24))];
  [(2452164470290429, (-9)); (92599124418676082, (-17)); ((-24675622096540799), (-24)); ((-20784672174760211), (-25))];
  [(24838286296017971, (-10)); (64587577076051517, (-17)); ((-12840737523388134), (-22)); ((-10815959121986198), (-23))];
  [(24547408411546899, (-10)); (25050919384306469, (-17)); ((-1271212488108523), (-22)); ((-10707626631022564), (-24))];
  [(24842493101990428, (-10)); (60549303216642003, (-17)); ((-13008042829341814), (-22)); ((-10956883063994238), (-23))];
  [(24580454134960473, (-10)); (61449793061880653, (-17)); ((-2585716819349767), (-22)); ((-21779907398761258), (-24))];
  [(24553738497474175, (-10)); (52585671822840863, (-17)); ((-15230946423232876), (-23)); ((-12829270406220514), (-24))];
  [(2475759134925649, (-9)); (28429110895043797, (-17)); ((-96310354450952386), (-23)); ((-81123755926649032), (-24))];
  [(24848393406380583, (-10)); (16476138958445219, (-17)); ((-13242546053182999), (-22)); ((-11154408889782708), (-23))];
  [(2466943977062549, (-9)); (40648678705840624, (-17)); ((-6124945945167668), (-22)); ((-51591401854173846), (-24))];
  [(24654016318814475, (-10)); (18534862957294007, (-17)); ((-5511406104950836), (-22)); ((-46423457396615748), (-24))];
  [(24596309641616195, (-10)); (40837823443650456, (-17)); ((-32162712578991064), (-23)); ((-27091168546428645), (-24))];
  [(24780974245218402, (-10)); (35283707445247903, (-17)); ((-105610932734016), (-20)); ((-88957782152730296), (-24))];
  [(24756330392885078, (-10)); (15628030745905375, (-17)); ((-95808312912617856), (-23)); ((-80700878288485707), (-24))];
  [(24752014842469543, (-10)); (30501818653737323, (-17)); ((-94092438844058738), (-23)); ((-79255570045854903), (-24))];
  [(24785959841755638, (-10)); (87766026588658952, (-18)); ((-10759284803204128), (-22)); ((-90627181189011236), (-24))];
  [(24802903685318818, (-10)); (60849413182825107, (-18)); ((-11433197995685851), (-22)); ((-96303660073789709), (-24))];
  [(24731500419124905, (-10)); (14181519454070735, (-17)); ((-85932389464507227), (-23)); ((-72382229604010092), (-24))];
  [(24571305511071314, (-10)); (14323455378270911, (-17)); ((-22216523018238485), (-23)); ((-18713333588531261), (-24))];
  [(24604515885477941, (-10)); (21608380448960618, (-17)); ((-35425896587310367), (-23)); ((-29839800763013966), (-24))];
  [(24784880085745938, (-10)); (45416047290940165, (-17)); ((-1071648435141668), (-21)); ((-90266666120392779), (-24))];
  [(24648363061314188, (-10)); (63788927135448437, (-17)); ((-52867336132057026), (-23)); ((-44531004971570803), (-24))];
  [(24870479032439897, (-10)); (99585803256564942, (-17)); ((-14121309606055579), (-22)); ((-1189460552167004), (-22))];
  [(2465406316698628, (-9)); (53637894687032273, (-17)); ((-55134090613427798), (-23)); ((-46440328619486648), (-24))];
  [(24679838999600285, (-10)); (51872731710320363, (-18)); ((-65384235056092468), (-23)); ((-55074189648448983), (-24))];
  [(2472428974195953, (-9)); (77859883928232398, (-18)); ((-83064162632395765), (-23)); ((-69966276150230903), (-24))];
  [(24629040049257488, (-10)); (68140767050939288, (-17)); ((-45181980514572668), (-23)); ((-38057506697407446), (-24))];
  [(24621960727394745, (-10)); (98006457601610308, (-17)); ((-42367441151690778), (-23)); ((-35686775059859003), (-24))];
  [(24863961841239971, (-10)); (40891357684972274, (-17)); ((-13861861598175867), (-22)); ((-11676068304286963), (-23))];
  [(24544494254298406, (-10)); (45283718736387879, (-17)); ((-1155385363695651), (-22)); ((-97319961887796518), (-25))];
  [(24860499322380042, (-10)); (61596016323522029, (-17)); ((-13724225833135079), (-22)); ((-11560135492352056), (-23))];
  [(24726625374143361, (-10)); (87266265156606793, (-17)); ((-83996297484915079), (-23)); ((-70751428283639465), (-24))];
  [(24814847385702073, (-10)); (10695557301861813, (-17)); ((-11908264695438471), (-22)); ((-10030522306453094), (-23))];
  [(24661532998701846, (-10)); (46711012083504477, (-17)); ((-58104863609153489), (-23)); ((-48942658351244248), (-24))];
  [(24666603231529747, (-10)); (43092918995419949, (-17)); ((-6012135250550205), (-22)); ((-50641179283793476), (-24))];
  [(24632482960101105, (-10)); (76785698994499207, (-17)); ((-46551706628458724), (-23)); ((-39211248967205005), (-24))];
  [(24764776952612, (-7)); (34556381942361747, (-17)); ((-99168597764088315), (-23)); ((-83531300102305644), (-24))];
  [(24547777471332741, (-10)); (91607765666294061, (-17)); ((-1286156183354637), (-22)); ((-10833499772358096), (-24))];
  [(24577747820013068, (-10)); (11458377497444572, (-17)); ((-24778770984800584), (-23)); ((-20871556137372492), (-24))];
  [(24545766959164892, (-10)); (80938303160351521, (-17)); ((-12061476992564711), (-23)); ((-10159575481139104), (-24))];
  [(24836672836305024, (-10)); (58257268137228679, (-17)); ((-12776538649616088), (-22)); ((-10761883381155015), (-23))];
  [(24827363817202887, (-10)); (13931737602595762, (-17)); ((-12406105717880735), (-22)); ((-10449861782723501), (-23))];
  [(24668620987336906, (-10)); (70691384465059359, (-17)); ((-60924991762921869), (-23)); ((-51318097516974725), (-24))];
  [(24615802328153402, (-10)); (2211420172701779, (-16)); ((-39914982847922793), (-23)); ((-3362103010450763), (-23))];
  [(24848053085052338, (-10)); (99986895231994, (-14)); ((-13229342278848998), (-22)); ((-11143287138933712), (-23))];
  [(24601939075227152, (-10)); (39862793147728892, (-18)); ((-34400295991797471), (-23)); ((-28975920935523712), (-24))];
  [(24580956172944522, (-10)); (75275700034122839, (-17)); ((-26057398533765964), (-23)); ((-21948564625137758), (-24))];
  [(24725074411200704, (-10)); (56714190635413519, (-17)); ((-83378202797115799), (-23)); ((-70230797216726264), (-24))];
  [(24862635909262043, (-10)); (71871362172870068, (-17)); ((-13809247241370403), (-22)); ((-11631750387858799), (-23))];
  [(2476631597368414, (-9)); (32701641605175547, (-17)); ((-99780653748453535), (-23)); ((-84046844672483453), (-24))];
  [(24690552476153015, (-10)); (31590633898902054, (-17)); ((-69646460000080451), (-23)); ((-58664330065143677), (-24))];
  [(24697105751005593, (-10)); (71616259705786611, (-17)); ((-72254549446430061), (-23)); ((-60861165627495224), (-24))];
  [(24638826827982743, (-10)); (19508142594757061, (-17)); ((-49072636478687036), (-23)); ((-41334668604106816), (-24))];
  [(24641182409638441, (-10)); (70455929801849615, (-17)); ((-5001157117750286), (-22)); ((-42125548357089011), (-24))];
  [(24565789094645781, (-10)); (15110731852871295, (-17)); ((-20022456605996008), (-23)); ((-168652362668226), (-22))];
  [(24726107011676556, (-10)); (20500599926135021, (-17)); ((-83787468625764151), (-23)); ((-70575528386927646), (-24))];
  [(24843808838134059, (-10)); (50031370759223581, (-17)); ((-13060333043136859), (-22)); ((-11000927949566971), (-23))];
  [(24817936257723267, (-10)); (16842462331636909, (-17)); ((-12031145842250852), (-22)); ((-10134027066858384), (-23))];
  [(24666907182098236, (-10)); (47938544179289333, (-17)); ((-60242438438276899), (-23)); ((-50743171906628026), (-24))];
  [(2461799763146976, (-9)); (60794291397778533, (-17)); ((-40789680555699706), (-23)); ((-34357802009873531), (-24))];
  [(24533141365503646, (-10)); (48386412729908812, (-17)); ((-70384826428296289), (-24)); ((-59286267947612152), (-25))];
  [(24636802519638753, (-10)); (20977707056799799, (-18)); ((-48266796238250884), (-23)); ((-40655896447637322), (-24))];
  [(2469297684715895, (-9)); (10982916564135092, (-17)); ((-70609908906939337), (-23)); ((-59475858528655051), (-24))];
  [(24618972557450784, (-10)); (10250996837798965, (-17)); ((-41175436999818035), (-23)); ((-34682730848503489), (-24))];
  [(24803600775560923, (-10)); (81753398456231441, (-17)); ((-11461225004422531), (-22)); ((-96539736062614593), (-24))];
  [(24652135109580816, (-10)); (43167068883691639, (-17)); ((-54366809204142845), (-23)); ((-4579403518480111), (-23))];
  [(24667730534162945, (-10)); (13031742097013199, (-17)); ((-60568529846190116), (-23)); ((-51017843928511211), (-24))];
  [(24724228895029812, (-10)); (77796566331126349, (-17)); ((-83042745992317401), (-23)); ((-69948236570869046), (-24))];
  [(24824749491037265, (-10)); (82675505788938974, (-17)); ((-12302397012854457), (-22)); ((-10362506277471931), (-23))];
  [(24830316161200535, (-10)); (32896731959178371, (-17)); ((-12523607586028196), (-22)); ((-1054883549045058), (-22))];
  [(24852502021624409, (-10)); (17136506700567133, (-17)); ((-13405964612562176), (-22)); ((-11292058962825605), (-23))];
  [(2471891258503092, (-9)); (8296999915199943, (-18)); ((-80925177256134768), (-23)); ((-68164574468374483), (-24))];
  [(24553242487042234, (-10)); (5185263604701853, (-16)); ((-1503363423507992), (-22)); ((-1266307118616443), (-23))];
  [(24713920984036112, (-10)); (81249120539750674, (-17)); ((-789430180537959), (-21)); ((-6649496998757912), (-23))];
  [(24759542004029928, (-10)); (30647891464768939, (-17)); ((-97086295513645645), (-23)); ((-81777343526261165), (-24))];
  [(24786949075267953, (-10)); (8619659420826965, (-16)); ((-10798938475682937), (-22)); ((-90961190430915178), (-24))];
  [(24758240986565338, (-10)); (70414948078329465, (-17)); ((-96570410932183853), (-23)); ((-81342805670893382), (-24))];
  [(2470748369945291, (-9)); (89538166191014046, (-17)); ((-76382984206738331), (-23)); ((-64338612427100786), (-24))];
  [(24561574194158795, (-10)); (88482041399668554, (-17)); ((-1834894168677886), (-22)); ((-15455607814927361), (-24))];
  [(24845122726741699, (-10)); (24433454448907843, (-17)); ((-1311248979401369), (-21)); ((-11044860417183565), (-23))];
  [(24520507761173304, (-10)); (65013759862247367, (-17)); ((-20142581855413348), (-24)); ((-16966419690660198), (-25))];
  [(24663424183241646, (-10)); (65538382624796887, (-17)); ((-58857811589450701), (-23)); ((-49576878508851511), (-24))];
  [(24583685861187456, (-10)); (65455447315042381, (-17)); ((-2714271328223509), (-22)); ((-22862742641201851), (-24))];
  [(24641458582312441, (-10)); (927245744264799, (-15)); ((-50122301721928923), (-23)); ((-42218818470264835), (-24))];
  [(24875924385060645, (-10)); (73967040060289568, (-17)); ((-14337790993077847), (-22)); ((-12076951265319032), (-23))];
  [(24865260793722328, (-10)); (84101202050198698, (-17)); ((-13913697955847625), (-22)); ((-11719730899569298), (-23))];
  [(24807645727094612, (-10)); (7393086083929119, (-16)); ((-11622077665526173), (-22)); ((-97894623820417345), (-24))];
  [(24539817012310866, (-10)); (10275476779646731, (-17)); ((-96921364705998145), (-24)); ((-816384196622524), (-23))];
  [(24601239678876051, (-10)); (65022921645814213, (-17)); ((-34124545977672504), (-23)); ((-2874365227687148), (-23))];
  [(24718908956554974, (-10)); (88891834161989458, (-17)); ((-80927236647800044), (-23)); ((-6816630912699725), (-23))];
  [(24759808300813804, (-10)); (92368056646631003, (-17)); ((-9719466716818727), (-22)); ((-81868626708661655), (-24))];
  [(24577062782861474, (-10)); (3014339470291022, (-16)); ((-24507047701949647), (-23)); ((-20642679259042516), (-24))];
  [(24686870703740916, (-10)); (99230045373272135, (-17)); ((-68184763292514396), (-23)); ((-57433119489506531), (-24))];
  [(24740722631659335, (-10)); (38185559661733481, (-17)); ((-89601384098746592), (-23)); ((-7547268261813328), (-23))];
  [(24528705239106985, (-10)); (90671059925249675, (-17)); ((-52757409603023185), (-24)); ((-44438412093452523), (-25))];
  [(24561827735621436, (-10)); (93346732620859396, (-17)); ((-18449978676059801), (-23)); ((-15540712891164668), (-24))];
  [(24618677602451248, (-10)); (16310665670325553, (-17)); ((-41058362708614356), (-23)); ((-34584117295692513), (-24))];
  [(24716570425909651, (-10)); (62604558735493065, (-17)); ((-79996064658876597), (-23)); ((-6738196802903538), (-23))];
  [(24755102054959922, (-10)); (8210113008609663, (-16)); ((-95322398073496011), (-23)); ((-8029158442766691), (-23))];
  [(24520932635758556, (-10)); (69093253129552445, (-17)); ((-21834099264129682), (-24)); ((-18391211928137265), (-25))];
  [(24784964221644802, (-10)); (19412457202313882, (-18)); ((-10719657853460214), (-22)); ((-90293397036988404), (-24))];
  [(24706096422490543, (-10)); (79922217839587151, (-17)); ((-75830826641819015), (-23)); ((-6387352125611586), (-23))];
  [(24703235807463876, (-10)); (54519484481501967, (-17)); ((-74692036157839386), (-23)); ((-62914299770527809), (-24))];
  [(24736204141272223, (-10)); (34897906609000706, (-17)); ((-87804070397462592), (-23)); ((-73958776466943286), (-24))];
  [(24572877314827787, (-10)); (54923678358269501, (-17)); ((-22843306579476174), (-23)); ((-19241283432870967), (-24))];
  [(24650897544408017, (-10)); (24533678712058737, (-17)); ((-53873839299636471), (-23)); ((-45378798729278309), (-24))];
  [(24696090006087562, (-10)); (43763953179320714, (-17)); ((-71849439587050135), (-23)); ((-60519935096851168), (-24))];
  [(2478646702268505, (-9)); (71200965813170614, (-17)); ((-10779705687923263), (-22)); ((-90799189575565864), (-24))];
  [(24832142062323792, (-10)); (49464198660652248, (-17)); ((-12596296814977587), (-22)); ((-10610062793593667), (-23))];
  [(24782224993448411, (-10)); (130326308647426, (-15)); ((-10610751992604182), (-22)); ((-8937606550753529), (-23))];
  [(24640501701385025, (-10)); (19969948331146004, (-17)); ((-49738818464129819), (-23)); ((-41895804372922955), (-24))];
  [(24836529594327644, (-10)); (20620259955393183, (-18)); ((-12770617836957207), (-22)); ((-1075689618570999), (-22))];
  [(24595204071768085, (-10)); (23405733104192883, (-17)); ((-3172229023366394), (-22)); ((-26720193742622315), (-24))];
  [(24859381926143342, (-10)); (63359898741277199, (-17)); ((-13679789566197822), (-22)); ((-11522706112158618), (-23))];
  [(24711680027976125, (-10)); (87026830732998706, (-17)); ((-78051930701325239), (-23)); ((-65744392821673577), (-24))];
  [(24548703590359958, (-10)); (7832186821900885, (-16)); ((-13229387689820296), (-23)); ((-11143325389323018), (-24))];
  [(24842274431638326, (-10)); (57834915658893538, (-17)); ((-12999334645473013), (-22)); ((-10949548021082557), (-23))];
  [(2467688285329456, (-9)); (38164325915995023, (-17)); ((-64209769987144759), (-23)); ((-54084918887886985), (-24))];
  [(24742718292362173, (-10)); (95848147935679451, (-17)); ((-90397431025828176), (-23)); ((-76143205709724775), (-24))];
  [(24664629801658788, (-10)); (4228603373539005, (-16)); ((-59336409039399036), (-23)); ((-49980008815432389), (-24))];
  [(24831470099214716, (-10)); (43912417749067889, (-17)); ((-12569548093882101), (-22)); ((-10587531916889177), (-23))];
  [(24564207458095122, (-10)); (46503753333899445, (-18)); ((-19392960934402545), (-23)); ((-1633500196844052), (-23))];
  [(24565176707929014, (-10)); (63508644820606475, (-17)); ((-19780811083904987), (-23)); ((-16661694368688864), (-24))];
  [(24766742158763395, (-10)); (22435807864879964, (-17)); ((-99949756154212297), (-23)); ((-84189282340474493), (-24))];
  [(2453118077077338, (-9)); (99552522172998181, (-17)); ((-62607113937774898), (-24)); ((-52734975998312635), (-25))];
  [(24534300607215823, (-10)); (63584331342898459, (-17)); ((-75001635565291708), (-24)); ((-63175080315967371), (-25))];
  [(24823489481158699, (-10)); (72642251525716495, (-17)); ((-12252241513539473), (-22)); ((-10320259496136701), (-23))];
  [(24880284067846797, (-10)); (31988033120841664, (-17)); ((-14511025911235204), (-22)); ((-12222869814769782), (-23))];
  [(24558868067895593, (-10)); (20027166816429465, (-18)); ((-17269168256331636), (-23)); ((-14546097339890219), (-24))];
  [(24587134083402934, (-10)); (71715480831890421, (-17)); ((-28514457082611582), (-23)); ((-24018184440684676), (-24))];
  [(24672477214251775, (-10)); (23801750756867956, (-17)); ((-62456901250279818), (-23)); ((-5260844944291882), (-23))];
  [(24863619568261039, (-10)); (84847159977642062, (-17)); ((-13848422873200146), (-22)); ((-11664748650744923), (-23))];
  [(24663223214700925, (-10)); (17418695069150925, (-17)); ((-58775964514658863), (-23)); ((-4950793740530584), (-23))];
  [(24806043906962383, (-10)); (32906128015431024, (-17)); ((-11558203750577758), (-22)); ((-97356603592385308), (-24))];
  [(24697606116876462, (-10)); (38662343805674759, (-17)); ((-72452254101734791), (-23)); ((-6102769542892662), (-23))];
  [(24737493382490706, (-10)); (86785358880804675, (-17)); ((-88318916562059377), (-23)); ((-7439243964713427), (-23))];
  [(24844747275201678, (-10)); (92275474347833319, (-17)); ((-13097826430964444), (-22)); ((-11032509231354664), (-23))];
  [(2452751905342136, (-9)); (60383468837462562, (-17)); ((-48027431829648521), (-24)); ((-40454275967973583), (-25))];
  [(24877501576113286, (-10)); (23834865048673903, (-17)); ((-14400322744596184), (-22)); ((-12129622762342989), (-23))];
  [(24670802571193171, (-10)); (60072466836152194, (-18)); ((-61790121491462607), (-23)); ((-5204681016000387), (-23))];
  [(24523297353286603, (-10)); (55964862008537131, (-17)); ((-31234297603177124), (-24)); ((-26309149724818636), (-25))];
  [(24541380340037853, (-10)); (34014172331125048, (-17)); ((-1031487812869028), (-22)); ((-86883872507306056), (-25))];
  [(24876063924821909, (-10)); (43661980327375216, (-17)); ((-14343220507882716), (-22)); ((-12081524632703477), (-23))];
  [(24805409494221415, (-10)); (69812649665180282, (-17)); ((-11533117430154863), (-22)); ((-97145297492777808), (-24))];
  [(24593243957925439, (-10)); (49356009067771967, (-17)); ((-30943707318937938), (-23)); ((-2606438086867991), (-23))];
  [(24875387784952195, (-10)); (57793388873621165, (-17)); ((-14316383948297208), (-22)); ((-12058919768230317), (-23))];
  [(24732301311194208, (-10)); (37382665192571596, (-17)); ((-86251858824626835), (-23)); ((-72651323768849689), (-24))];
  [(24855727419536384, (-10)); (81176250672948314, (-18)); ((-13534215615486944), (-22)); ((-11400086839142013), (-23))];
  [(24755470211547841, (-10)); (15878260811946021, (-17)); ((-95466194612091498), (-23)); ((-80412706557957251), (-24))];
  [(24567262428397387, (-10)); (33309890831953515, (-17)); ((-20609183759412858), (-23)); ((-17359445956535308), (-24))];
  [(24661386604086948, (-10)); (88852372380363143, (-18)); ((-58045132180126036), (-23)); ((-48892345610758579), (-24))];
  [(24689895076312819, (-10)); (85855378500050739, (-17)); ((-69387144319681202), (-23)); ((-58445904309319315), (-24))];
  [(24777375880405535, (-10)); (58797049381807298, (-18)); ((-10417855073692322), (-22)); ((-87751263827797164), (-24))];
  [(24831192246266999, (-10)); (87254051248206155, (-17)); ((-12558669166398633), (-22)); ((-10578368421822173), (-23))];
  [(24802277887737276, (-10)); (51625840968354464, (-17)); ((-11408488676689365), (-22)); ((-96095529517650436), (-24))];
  [(24876339916841509, (-10)); (77323098672525359, (-17)); ((-14354331689371893), (-22)); ((-12090883759043769), (-23))];
  [(24727512859429261, (-10)); (53220458879235644, (-17)); ((-84347931465171973), (-23)); ((-71047615223792439), (-24))];
  [(24672345709370603, (-10)); (9877130895958619, (-17)); ((-62404042703020793), (-23)); ((-52563925840955942), (-24))];
  [(24552782897860105, (-10)); (98102259167439609, (-17)); ((-14852676910104063), (-23)); ((-12510647929618772), (-24))];
  [(24636059103440931, (-10)); (21098950495407642, (-17)); ((-47971865867047556), (-23)); ((-40407471866653764), (-24))];
  [(24585483917850624, (-10)); (31717454762333042, (-17)); ((-27856529877228338), (-23)); ((-23464001805481165), (-24))];
  [(24591728203238328, (-10)); (20759278543426629, (-17)); ((-30339694123360586), (-23)); ((-25555610868467247), (-24))];
  [(24752812975762365, (-10)); (10584580290217216, (-17)); ((-94409095940046809), (-23)); ((-79522295395520817), (-24))];
  [(24758508646285259, (-10)); (92127111020066899, (-17)); ((-9667773340346078), (-22)); ((-81433205109405966), (-24))];
  [(24830670782135222, (-10)); (7028038946026427, (-16)); ((-12537860957516065), (-22)); ((-10560841333812963), (-23))];
  [(24671396357690501, (-10)); (65703685592496652, (-17)); ((-62028668309488991), (-23)); ((-52247741970015083), (-24))];
  [(24520203255919935, (-10)); (81770640553925333, (-17)); ((-18938108499634119), (-24)); ((-15951872468905893), (-25))];
  [(24600805281387283, (-10)); (487956471436503, (-15)); ((-33951123434700142), (-23)); ((-2859757568803042), (-23))];
  [(24623565208624774, (-10)); (58017126158817012, (-17)); ((-43004016474541199), (-23)); ((-3622297266201968), (-23))];
  [(24853256479698694, (-10)); (74066728769859513, (-17)); ((-13436198838245694), (-22)); ((-11317525735935968), (-23))];
  [(24843144419858344, (-10)); (94568250255247521, (-17)); ((-13034083632484566), (-22)); ((-10978817650055413), (-23))];
  [(24668922780358172, (-10)); (92427504835344854, (-17)); ((-61045891355568088), (-23)); ((-51419933182530897), (-24))];
  [(24739080916335159, (-10)); (68920598344382955, (-17)); ((-88949631219111888), (-23)); ((-74923700716515388), (-24))];
  [(24554952967197904, (-10)); (70418433845717665, (-18)); ((-1571217776846246), (-22)); ((-13234619285032286), (-24))];
  [(24604798818571279, (-10)); (31373508931374505, (-17)); ((-35538818704330789), (-23)); ((-29934916872928719), (-24))];
  [(24606452242263271, (-10)); (27877015920246262, (-17)); ((-36196311851534207), (-23)); ((-30488733893967069), (-24))];
  [(24814777103693881, (-10)); (69697214794642726, (-17)); ((-11905703974072282), (-22)); ((-10028365369784227), (-23))];
  [(24710792644521338, (-10)); (72624018672844792, (-17)); ((-7769841022952873), (-22)); ((-65446616859446176), (-24))];
  [(24683305539116547, (-10)); (33352015656782796, (-17)); ((-66764135611094973), (-23)); ((-56236502013149905), (-24))];
  [(24776657755731656, (-10)); (54552585709680124, (-17)); ((-10389485996975515), (-22)); ((-87512306545523769), (-24))];
  [(24842909976937231, (-10)); (24796957100016292, (-17)); ((-13024481399030102), (-22)); ((-10970729534841306), (-23))];
  [(24847214639043473, (-10)); (84879470475520957, (-17)); ((-13195933865572178), (-22)); ((-11115146696714224), (-23))];
  [(24667501682420238, (-10)); (54044471377459324, (-17)); ((-60479137665383783), (-23)); ((-50942547461180931), (-24))];
  [(24588351857003286, (-10)); (80431290138051503, (-17)); ((-28999160631800811), (-23)); ((-24426458012569744), (-24))];
  [(24522973522560801, (-10)); (78951549929136944, (-17)); ((-29955437015988213), (-24)); ((-25231944945220837), (-25))];
  [(24644189136436004, (-10)); (65072370227312448, (-17)); ((-51207251618010872), (-23)); ((-43132689165312671), (-24))];
  [(24632722420493341, (-10)); (40216980853494755, (-17)); ((-46645495046133746), (-23)); ((-39290248455345089), (-24))];
  [(24701419367150776, (-10)); (85801595986676582, (-18)); ((-73967738572628089), (-23)); ((-62304212300121231), (-24))];
  [(24537156611819519, (-10)); (76045586525300146, (-17)); ((-86366055583898888), (-24)); ((-72747513530372359), (-25))];
  [(24880170516952365, (-10)); (22920835037459997, (-17)); ((-14506473477704388), (-22)); ((-12219035227006798), (-23))];
  [(24854182079569637, (-10)); (1387609853755194, (-16)); ((-13472774216231928), (-22)); ((-11348333763313659), (-23))];
  [(24818444675998469, (-10)); (95289317729040834, (-17)); ((-12051679668932309), (-22)); ((-10151323038339778), (-23))];
  [(24678683232782246, (-10)); (39969346441216269, (-17)); ((-64925924148306281), (-23)); ((-54688147021633589), (-24))];
  [(24571973860196644, (-10)); (68369895644238154, (-17)); ((-22484501629488571), (-23)); ((-18939056269924628), (-24))];
  [(24670514716704814, (-10)); (5276603167305649, (-16)); ((-61677490120690429), (-23)); ((-51951938950316248), (-24))];
  [(24610605697585586, (-10)); (29706858849686046, (-17)); ((-37848378638639346), (-23)); ((-31880296240255529), (-24))];
  [(24834192139540846, (-10)); (92539096337641225, (-17)); ((-12678007847367595), (-22)); ((-10678889306442785), (-23))];
  [(24652675709396382, (-10)); (78737920621435942, (-17)); ((-54583241997835122), (-23)); ((-45976339997509038), (-24))];
  [(24595707043964718, (-10)); (21746561179744728, (-17)); ((-31922276244311923), (-23)); ((-2688864516624171), (-23))];
  [(24825657847889704, (-10)); (17584460647619427, (-17)); ((-12338267076672984), (-22)); ((-10392720207416188), (-23))];
  [(24577077002137816, (-10)); (13873838823675666, (-17)); ((-24512056167625785), (-23)); ((-20646897969994152), (-24))];
  [(24613982537220521, (-10)); (48305227106917503, (-17)); ((-3919222149853031), (-22)); ((-33012236630165355), (-24))];
  [(24649527021636334, (-10)); (73750577207542467, (-17)); ((-53330685557014712), (-23)); ((-44921291622194264), (-24))];
  [(24819625851890491, (-10)); (44936875483182948, (-17)); ((-12098459449880015), (-22)); ((-10190726397963342), (-23))];
  [(24681854690645831, (-10)); (40853489432957479, (-17)); ((-66187373962346167), (-23)); ((-55750686427819692), (-24))];
  [(24810342142384867, (-10)); (22457515344982226, (-17)); ((-11729120072125427), (-22)); ((-98796259175853748), (-24))];
  [(24637333565574898, (-10)); (1372038061577604, (-16)); ((-48478476558349072), (-23)); ((-40834198175629248), (-24))];
  [(24705543784255097, (-10)); (73376882901327378, (-17)); ((-75610760150796703), (-23)); ((-63688155721879145), (-24))];
  [(24582825422720746, (-10)); (95042256604904141, (-17)); ((-26801659543287896), (-23)); ((-22575467607962171), (-24))];
  [(24875398152854373, (-10)); (48648086667706791, (-17)); ((-14316759946414595), (-22)); ((-12059236477473865), (-23))];
  [(24519345784615241, (-10)); (75453127750974625, (-17)); ((-15525092117265019), (-24)); ((-13077034041040179), (-25))];
  [(24533896464608954, (-10)); (79349916696531586, (-17)); ((-73400470637163164), (-24)); ((-61826393421725279), (-25))];
  [(24586256788690616, (-10)); (6875900599981869, (-16)); ((-28165404570310526), (-23)); ((-23724171912385701), (-24))];
  [(24642349261391843, (-10)); (16642491243045843, (-18)); ((-50472938306926186), (-23)); ((-42514165288397019), (-24))];
  [(24781197382057901, (-10)); (11343948344322252, (-17)); ((-10569873093080293), (-22)); ((-890317359817609), (-22))];
  [(24709382842413764, (-10)); (28662237376212019, (-17)); ((-77135927450401235), (-23)); ((-64972828594965015), (-24))];
  [(24807554405084262, (-10)); (8322293396989231, (-16)); ((-11618482385035481), (-22)); ((-97864340196327558), (-24))];
  [(24733237195744854, (-10)); (1241657113750938, (-16)); ((-86623104249332249), (-23)); ((-7296402974313851), (-23))];
  [(24515925127418879, (-10)); (2977035764807725, (-16)); ((-19016111466137351), (-25)); ((-16017575618398354), (-26))];
  [(24660600533581628, (-10)); (54723803875126464, (-17)); ((-57734303927517371), (-23)); ((-48630529989338836), (-24))];
  [(24577750474003549, (-10)); (36048207187506254, (-17)); ((-247808046172444), (-21)); ((-20873269098589974), (-24))];
  [(24712686917303395, (-10)); (41248247964561058, (-17)); ((-78450589748172264), (-23)); ((-66080189729479985), (-24))];
  [(24515976948595429, (-10)); (63524786422709989, (-17)); ((-21211500062457019), (-25)); ((-17866786636956952), (-26))];
  [(24638522416647379, (-10)); (38021448173248973, (-17)); ((-48952296358014674), (-23)); ((-41233304190765564), (-24))];
  [(24596099510933021, (-10)); (98083342456001799, (-17)); ((-32081412148951272), (-23)); ((-27022687890523274), (-24))];
  [(24605927903814511, (-10)); (61280088833889379, (-17)); ((-35989090215433948), (-23)); ((-30314187787003258), (-24))];
  [(24777539902613694, (-10)); (73989264036347779, (-17)); ((-10424649786559954), (-22)); ((-87808496783838877), (-24))];
  [(24630223128397595, (-10)); (91710194861510841, (-17)); ((-45653475487464269), (-23)); ((-38454654473672555), (-24))];
  [(24567626406220682, (-10)); (46730477056686359, (-17)); ((-2075448597376898), (-22)); ((-17481836341662907), (-24))];
  [(24691211116461772, (-10)); (8359985886417447, (-16)); ((-69910496001559123), (-23)); ((-58886731823105358), (-24))];
  [(24761215256857881, (-10)); (47156211710219231, (-17)); ((-97752471165928272), (-23)); ((-82338473960554964), (-24))];
  [(24526204295851164, (-10)); (36236506462241402, (-17)); ((-42788515020717679), (-24)); ((-36041452331817588), (-25))];
  [(24836006093765846, (-10)); (44383836009612343, (-17)); ((-12749964472793479), (-22)); ((-10739499525890451), (-23))];
  [(2456540251609751, (-9)); (6042434524364515, (-16)); ((-19870501278630743), (-23)); ((-16737241857922238), (-24))];
  [(24570007021539756, (-10)); (59089561623019582, (-17)); ((-21701842728103876), (-23)); ((-18279810127059628), (-24))];
  [(2475783227047977, (-9)); (25733700616894895, (-17)); ((-96406071174981379), (-23)); ((-81204379658152172), (-24))];
  [(24715907887865892, (-10)); (95735463081578454, (-17)); ((-7973386473432243), (-22)); ((-67161112828109382), (-24))];
  [(24781663379138228, (-10)); (43533503344948288, (-17)); ((-10588535676857396), (-22)); ((-89188933917530666), (-24))];
  [(24577417235735203, (-10)); (59162938071155358, (-17)); ((-2464918189830475), (-22)); ((-20762401171807504), (-24))];
  [(24700760298471604, (-10)); (85429754812268444, (-19)); ((-73705293516313003), (-23)); ((-62083150620782244), (-24))];
  [(24872049892721074, (-10)); (99002785782651803, (-17)); ((-14183786634332356), (-22)); ((-11947230924430122), (-23))];
  [(24783677745669112, (-10)); (49823821871082619, (-17)); ((-10668680046675637), (-22)); ((-89864002795959624), (-24))];
  [(24636719401445063, (-10)); (19680418535714317, (-17)); ((-48234436165845399), (-23)); ((-40628639039744288), (-24))];
  [(24667900263409154, (-10)); (50945604308695847, (-17)); ((-60637545887682791), (-23)); ((-51075977246958566), (-24))];
  [(24821615056450954, (-10)); (14649781909200466, (-17)); ((-12177457545398846), (-22)); ((-10257267760582907), (-23))];
  [(24876281272962634, (-10)); (66221878131147227, (-17)); ((-1435195503562775), (-21)); ((-12088881865484543), (-23))];
  [(24668876432000282, (-10)); (33984389648976321, (-17)); ((-61025132259735689), (-23)); ((-51402447463231386), (-24))];
  [(24558103091132445, (-10)); (82976811157475117, (-17)); ((-16968127301440454), (-23)); ((-14292525716280895), (-24))];
  [(24540085071371826, (-10)); (20335662165859625, (-17)); ((-97991543302681537), (-24)); ((-825398482549535), (-23))];
  [(2477660485776721, (-9)); (93096694093578014, (-18)); ((-10387202085977471), (-22)); ((-8749306879695355), (-23))];
  [(24555695362319467, (-10)); (21761855315862166, (-18)); ((-16007264242919906), (-23)); ((-1348317535428995), (-23))];
  [(24862451429879731, (-10)); (3219212711957925, (-16)); ((-13801751944185611), (-22)); ((-11625436978850152), (-23))];
  [(24792747986955796, (-10)); (46052822897373691, (-17)); ((-11029424538142504), (-22)); ((-9290261149431563), (-23))];
  [(24553067705075494, (-10)); (26878968248861568, (-17)); ((-14963123209003639), (-23)); ((-12603678618229661), (-24))];
  [(24644923504974646, (-10)); (46101437321363592, (-17)); ((-51498584579150829), (-23)); ((-43378083590114027), (-24))];
  [(24543136965732509, (-10)); (45247090733924544, (-17)); ((-11014004654954768), (-23)); ((-92772727345589296), (-25))];
  [(246198183858435, (-8)); (51044808176805689, (-17)); ((-41513479049132924), (-23)); ((-34967469087272318), (-24))];
  [(24804610059186085, (-10)); (24647252778131001, (-17)); ((-11501141085622968), (-22)); ((-9687595561525904), (-23))];
  [(2462718782663574, (-9)); (28284871077893559, (-17)); ((-44443692847339528), (-23)); ((-37435635156577658), (-24))];
  [(24804746453638277, (-10)); (41079914347863955, (-17)); ((-11506631393469204), (-22)); ((-96922201358639309), (-24))];
  [(24681866532270852, (-10)); (69196850898033457, (-17)); ((-66193211174502168), (-23)); ((-55755603205220574), (-24))];
  [(24555868374134861, (-10)); (27475450662817769, (-17)); ((-16077084159857408), (-23)); ((-13541985789914931), (-24))];
  [(24555287729189675, (-10)); (84524650304592763, (-17)); ((-15848407695964372), (-23)); ((-13349367937465065), (-24))];
  [(24782759668351514, (-10)); (96816194410118461, (-17)); ((-10632351375779936), (-22)); ((-89558000575566683), (-24))];
  [(24537477067048373, (-10)); (30165769867619996, (-17)); ((-87622384974408854), (-24)); ((-738057399217113), (-23))];
  [(24580863854276952, (-10)); (6134240374044716, (-16)); ((-26020125553622571), (-23)); ((-21917168996276775), (-24))];
  [(2477848848671867, (-9)); (4701479788932813, (-16)); ((-10462271452610163), (-22)); ((-88125390109754865), (-24))];
  [(2462764544133334, (-9)); (64292586933437501, (-17)); ((-44627136542263091), (-23)); ((-37590152722400145), (-24))];
  [(24756955786083378, (-10)); (33932223337718781, (-17)); ((-96057784636000516), (-23)); ((-80911012321463462), (-24))];
  [(24718531579624531, (-10)); (60132360597914536, (-17)); ((-80775994988381811), (-23)); ((-68038915852052624), (-24))];
  [(24872642244961662, (-10)); (45836730908022938, (-17)); ((-14207135371126667), (-22)); ((-11966897939837711), (-23))];
  [(24672620416977596, (-10)); (28125958170231447, (-17)); ((-62514030648070533), (-23)); ((-52656570450769231), (-24))];
  [(24779438772997046, (-10)); (99922246591823738, (-17)); ((-10500278542926947), (-22)); ((-88445529926072446), (-24))];
  [(2472005115017355, (-9)); (68649394466754898, (-17)); ((-81380727254448121), (-23)); ((-68548291536868695), (-24))];
  [(24585156345345732, (-10)); (78105231960485022, (-17)); ((-27728086318662223), (-23)); ((-2335581173646035), (-23))];
  [(24702339181957734, (-10)); (72467153250334548, (-17)); ((-74336126462460023), (-23)); ((-62614511326964493), (-24))];
  [(24567142077486962, (-10)); (86674866396256212, (-18)); ((-20560335300137871), (-23)); ((-17318300115984641), (-24))];
  [(24766590342397592, (-10)); (48127382397914409, (-17)); ((-99890394616740463), (-23)); ((-84139281165577468), (-24))];
  [(24839835539728403, (-10)); (22057572013404803, (-17)); ((-12902187935047571), (-22)); ((-10867719789107313), (-23))];
  [(24635251488078651, (-10)); (17353570565847021, (-17)); ((-47650496219518584), (-23)); ((-40136777059257428), (-24))];
  [(24861071885123053, (-10)); (71250532441379666, (-17)); ((-13747037325418776), (-22)); ((-11579349978093438), (-23))];
  [(24740324659842933, (-10)); (84473561562468569, (-17)); ((-89444935971813843), (-23)); ((-75340903852113509), (-24))];
  [(24879211195094343, (-10)); (45490677541097957, (-17)); ((-14468407209667837), (-22)); ((-12186971399032743), (-23))];
  [(24516807842700235, (-10)); (95547501062838081, (-17)); ((-54386822966424536), (-25)); ((-45810893097699152), (-26))];
  [(24750460608840995, (-10)); (61761821860112331, (-17)); ((-93475501786312458), (-23)); ((-78735914069298389), (-24))];
  [(24663126371767148, (-10)); (67923095938422062, (-17)); ((-58739454997234258), (-23)); ((-49477184853335308), (-24))];
  [(24531266080477238, (-10)); (90549977073855925, (-17)); ((-62942843814792249), (-24)); ((-53017766657278699), (-25))];
  [(24797431599219968, (-10)); (9856889791192861, (-16)); ((-11215919261559423), (-22)); ((-94473486454783852), (-24))];
  [(2463636455866328, (-9)); (13955546772444827, (-17)); ((-48093073409116247), (-23)); ((-40509566922946565), (-24))];
  [(24752669696080931, (-10)); (5863381810474495, (-16)); ((-94354019033709989), (-23)); ((-79475903234134487), (-24))];
  [(24636336779588144, (-10)); (80409051277159183, (-17)); ((-4808466768814041), (-22)); ((-40502486649379732), (-24))];
  [(24673188704713201, (-10)); (93917128804512895, (-17)); ((-6274267800833532), (-22)); ((-52849163788766333), (-24))];
  [(24655876616598023, (-10)); (86694625438522355, (-18)); ((-55853582915772408), (-23)); ((-47046368523080103), (-24))];
  [(24779490618721284, (-10)); (51259103080096224, (-17)); ((-1050214710049077), (-21)); ((-88461269086062727), (-24))];
  [(24674863759392505, (-10)); (58976634836701902, (-17)); ((-63407524004894068), (-23)); ((-53409174232722376), (-24))];
  [(24720300313283796, (-10)); (75912403514714244, (-17)); ((-81480118189849545), (-23)); ((-68632010115528185), (-24))];
  [(24718444990480109, (-10)); (27108152512578187, (-17)); ((-80740241545641858), (-23)); ((-68008800153912914), (-24))];
  [(2458714831951607, (-9)); (7353305858887309, (-16)); ((-28520191642030394), (-23)); ((-24023014752038947), (-24))];
  [(24608867681336738, (-10)); (43229789729296386, (-17)); ((-37157638465834715), (-23)); ((-31298474716424767), (-24))];
  [(24824298324862425, (-10)); (96600365892176954, (-17)); ((-12284507728372284), (-22)); ((-1034743784629122), (-22))];
  [(2470033400422954, (-9)); (68346249114856938, (-17)); ((-73538423801974103), (-23)); ((-61942593584576209), (-24))];
  [(24731059606496356, (-10)); (78992838399411136, (-17)); ((-85759638592320235), (-23)); ((-72236718774242029), (-24))];
  [(24789950606698808, (-10)); (89592312129011287, (-17)); ((-10918334798053092), (-22)); ((-91966884799886533), (-24))];
  [(24728720597255598, (-10)); (26243188204503853, (-17)); ((-84827223733342306), (-23)); ((-71451330786903364), (-24))];
  [(24654652781604961, (-10)); (5855315801913471, (-16)); ((-55368799245013337), (-23)); ((-46638027463511976), (-24))];
  [(24788343087425842, (-10)); (44276417653664468, (-17)); ((-10854217138008372), (-22)); ((-91426811467822879), (-24))];
  [(24577608760153814, (-10)); (46917727969618461, (-18)); ((-24723192225616469), (-23)); ((-2082474125728549), (-23))];
  [(24613483526506284, (-10)); (50906462893448079, (-17)); ((-38993848596257054), (-23)); ((-32845143953596796), (-24))];
  [(24552794080563514, (-10)); (11458657337470868, (-18)); ((-14853268374495231), (-23)); ((-12511146129559806), (-24))];
  [(24581842867620834, (-10)); (38675589248856979, (-17)); ((-26408616462388909), (-23)); ((-22244401118327915), (-24))];
  [(24709584731457611, (-10)); (13864312431173142, (-18)); ((-77215141867832521), (-23)); ((-6503955216900026), (-23))];
  [(24722450229087221, (-10)); (35095953967446081, (-17)); ((-8233360158974095), (-22)); ((-69350912869182761), (-24))];
  [(24576962097339123, (-10)); (8794380341478647, (-17)); ((-24466151939093919), (-23)); ((-20608232102210261), (-24))];
  [(24541538391126082, (-10)); (52139438296646623, (-17)); ((-10378462232318033), (-23)); ((-87419451608111841), (-25))];
  [(24678035235541342, (-10)); (15751875351159128, (-17)); ((-64667226705611516), (-23)); ((-5447024201734138), (-23))];
  [(24691977276509814, (-10)); (59059140640084884, (-18)); ((-70212138060379374), (-23)); ((-59140809766193064), (-24))];
  [(24550503192408802, (-10)); (95357907537776498, (-17)); ((-13945838430762682), (-23)); ((-11746803336974806), (-24))];
  [(24691462623099019, (-10)); (75585021540958397, (-17)); ((-70010211390069885), (-23)); ((-58970723693821582), (-24))];
  [(24830943515065275, (-10)); (4036273795521913, (-16)); ((-12548589634082381), (-22)); ((-10569878270123118), (-23))];
  [(24791347562044556, (-10)); (86068796301031569, (-17)); ((-10973883241396398), (-22)); ((-92434778245568175), (-24))];
  [(24583949008623622, (-10)); (59247658376701606, (-17)); ((-27247130551913916), (-23)); ((-22950694981822362), (-24))];
  [(24809025148047842, (-10)); (12933792057476357, (-18)); ((-11676653802826602), (-22)); ((-98354327376386929), (-24))];
  [(2472758463254326, (-9)); (83122296646464511, (-17)); ((-84377667795596834), (-23)); ((-71072662611742489), (-24))];
  [(24811241886401381, (-10)); (71379817550207059, (-18)); ((-11764845530332876), (-22)); ((-99097180439046143), (-24))];
  [(24673535398071269, (-10)); (25109635595275437, (-17)); ((-62877834967923386), (-23)); ((-52963008663119845), (-24))];
  [(24831580402077138, (-10)); (93286246139296636, (-17)); ((-12574131655754391), (-22)); ((-10591392724553339), (-23))];
  [(24693653447312443, (-10)); (10396084718234988, (-17)); ((-70878996297484948), (-23)); ((-59702515152628736), (-24))];
  [(24797851170736048, (-10)); (86598538399233749, (-17)); ((-11232559674907276), (-22)); ((-94613651324765436), (-24))];
  [(24865263385739895, (-10)); (37709705830734008, (-17)); ((-13913616533281972), (-22)); ((-11719662316036607), (-23))];
  [(24750868279174818, (-10)); (84007893535902978, (-17)); ((-93638533270574329), (-23)); ((-7887323810276308), (-23))];
  [(24603668957678247, (-10)); (34869774012359234, (-17)); ((-35089567250222264), (-23)); ((-29556505169217746), (-24))];
  [(24856474476682246, (-10)); (34357809812243367, (-17)); ((-1356403341041984), (-21)); ((-11425202845953502), (-23))];
  [(24568343119777762, (-10)); (46944674111512708, (-17)); ((-2103955991687585), (-22)); ((-17721958695209291), (-24))];
  [(24712318449452077, (-10)); (71586770966747293, (-17)); ((-78305242144916459), (-23)); ((-65957761112554354), (-24))];
  [(245618318596823, (-8)); (21152662657988319, (-17)); ((-18448747534067811), (-23)); ((-15539675880522993), (-24))];
  [(24666279435823034, (-10)); (8193592842379871, (-17)); ((-59991178018770369), (-23)); ((-50531531226222725), (-24))];
  [(24842393810780118, (-10)); (42916912318110101, (-17)); ((-13004023492865731), (-22)); ((-10953497512428866), (-23))];
  [(24804050543129239, (-10)); (70586994940051584, (-17)); ((-11479069632249542), (-22)); ((-96690044224254423), (-24))];
  [(24689428051780923, (-10)); (72650242376778817, (-17)); ((-69200864909324862), (-23)); ((-58288998174916048), (-24))];
  [(2471255630341074, (-9)); (91743974226177361, (-17)); ((-78400647835214561), (-23)); ((-66038122855358425), (-24))];
  [(24755223376298659, (-10)); (57680014679692371, (-17)); ((-95369681059743155), (-23)); ((-80331411645183277), (-24))];
  [(24594882393095247, (-10)); (10756093051366933, (-18)); ((-31593457702373839), (-23)); ((-26611676035638765), (-24))];
  [(24854394866141374, (-10)); (60535518750911843, (-17)); ((-13481423165640492), (-22)); ((-11355618912089638), (-23))];
  [(24693122586883735, (-10)); (82037425661064323, (-17)); ((-70670701498805819), (-23)); ((-59527065103616176), (-24))];
  [(24656863517978378, (-10)); (70726646037370877, (-17)); ((-56248581019289725), (-23)); ((-47379081759615302), (-24))];
  [(24544563223431162, (-10)); (51210254654353538, (-17)); ((-11581521119869956), (-23)); ((-97553009532961008), (-25))];
  [(24531056688963119, (-10)); (12733630265950457, (-17)); ((-62079060019241256), (-24)); ((-52290187715189359), (-25))];
  [(24556640547114452, (-10)); (66729789373569437, (-18)); ((-16383380599823369), (-23)); ((-13799984192876414), (-24))];
  [(24686562521427507, (-10)); (3491453297677799, (-16)); ((-6805962887343823), (-22)); ((-57327716761741392), (-24))];
  [(24711432147033471, (-10)); (84303561365165125, (-17)); ((-77953230298319495), (-23)); ((-65661255889523912), (-24))];
  [(24530317333514532, (-10)); (924815741796292, (-15)); ((-59170068917138385), (-24)); ((-49839897863126071), (-25))];
  [(24605143315806556, (-10)); (28623923767041237, (-17)); ((-35675729563881135), (-23)); ((-30050239085344897), (-24))];
  [(24843582166752545, (-10)); (33294838421805906, (-17)); ((-13051250854942806), (-22)); ((-1099327787681483), (-22))];
  [(24817002936244709, (-10)); (48204787226611467, (-17)); ((-11994148683676888), (-22)); ((-10102863766928237), (-23))];
  [(24833628933234955, (-10)); (49834477099935315, (-17)); ((-12655437044342498), (-22)); ((-10659877557123464), (-23))];
  [(24600277380436086, (-10)); (18561235257991204, (-17)); ((-33739953734697768), (-23)); ((-28419704063533176), (-24))];
  [(24541650940295476, (-10)); (53677274602066249, (-17)); ((-10423288669228684), (-23)); ((-87797031874297345), (-25))];
  [(24795197501011873, (-10)); (96523179488413624, (-17)); ((-11127052173416511), (-22)); ((-93724944721185605), (-24))];
  [(24744677305790079, (-10)); (90477916411810799, (-18)); ((-91173156012771734), (-23)); ((-76796611305268095), (-24))];
  [(24606452327460181, (-10)); (19424074111624101, (-17)); ((-36196009530685761), (-23)); ((-30488479244268597), (-24))];
  [(2486695495423066, (-9)); (65388687049859617, (-17)); ((-13981007015255586), (-22)); ((-11776426399634606), (-23))];
  [(24742297746250792, (-10)); (53470624353690399, (-17)); ((-9022847762613884), (-22)); ((-76000893551935393), (-24))];
  [(24635404272091039, (-10)); (35196299136666997, (-18)); ((-4771071425359273), (-22)); ((-40187499674976817), (-24))];
  [(2477126339212303, (-9)); (70122078119730546, (-17)); ((-10174992675371771), (-22)); ((-85705594902847796), (-24))];
  [(2456569920978033, (-9)); (91242886943604129, (-17)); ((-19989733905953937), (-23)); ((-1683767341185641), (-23))];
  [(24523495863682861, (-10)); (24248765205101197, (-17)); ((-32011237475441374), (-24)); ((-26963578637748709), (-25))];
  [(24869247322055968, (-10)); (56320822397671277, (-17)); ((-1407214751418143), (-21)); ((-11853195503351886), (-23))];
  [(24792678562536528, (-10)); (55077933882542407, (-17)); ((-11026699149932945), (-22)); ((-92879655112400307), (-24))];
  [(24572739596103495, (-10)); (9223577057638539, (-16)); ((-22790014427585702), (-23)); ((-19196394598774005), (-24))];
  [(24659152472237283, (-10)); (46211364665070198, (-17)); ((-5715801389266206), (-22)); ((-48145111651953621), (-24))];
  [(24572796002903157, (-10)); (61235754398571918, (-17)); ((-22811216656589503), (-23)); ((-19214253576249591), (-24))];
  [(24799527093330435, (-10)); (27185007831371044, (-17)); ((-11298981456011839), (-22)); ((-9517313263799058), (-23))];
  [(24630418762792018, (-10)); (8402607748114499, (-16)); ((-45730981421820291), (-23)); ((-38519938965017321), (-24))];
  [(24875660310025485, (-10)); (8302229838086238, (-16)); ((-14327323697332646), (-22)); ((-12068134494265841), (-23))];
  [(24725727128476729, (-10)); (63880505548708255, (-17)); ((-83638099392940746), (-23)); ((-7044971228692889), (-23))];
  [(24563292249426255, (-10)); (41688803704676758, (-18)); ((-19028926976779364), (-23)); ((-16028370328513637), (-24))];
  [(24662762746923692, (-10)); (59970965847587387, (-17)); ((-58594510679168719), (-23)); ((-49355095929992262), (-24))];
  [(24633309865943152, (-10)); (2401002457443232, (-16)); ((-46878500798683113), (-23)); ((-39486512937051948), (-24))];
  [(24678110719525921, (-10)); (7206564244545518, (-16)); ((-64699489503769945), (-23)); ((-54497417489576274), (-24))];
  [(24619265203190367, (-10)); (31779310100481561, (-17)); ((-41292690090225416), (-23)); ((-34781495006750854), (-24))];
  [(24518597570304503, (-10)); (4112136744488607, (-16)); ((-12535491779348282), (-24)); ((-1055884573705158), (-24))];
  [(24546284422017448, (-10)); (81926900063636054, (-17)); ((-12267331824392036), (-23)); ((-10332970306946603), (-24))];
  [(24692917903309395, (-10)); (59654776599990444, (-17)); ((-7058840047187194), (-22)); ((-59457741628901974), (-24))];
  [(2467935064952808, (-9)); (48965032908565465, (-17)); ((-65191740067973089), (-23)); ((-54912048033226778), (-24))];
  [(24713431541044796, (-10)); (60472582216855586, (-18)); ((-78745356076647966), (-23)); ((-66328476134643566), (-24))];
  [(24731457846725192, (-10)); (37884301002032661, (-18)); ((-85915043357295029), (-23)); ((-72367618699753923), (-24))];
  [(24616183977247714, (-10)); (10543634670212143, (-17)); ((-40066319630686976), (-23)); ((-33748503503371905), (-24))];
  [(24589070614215895, (-10)); (71813694747157852, (-17)); ((-29284696142378103), (-23)); ((-24666969151797868), (-24))];
  [(24755766715187416, (-10)); (85222841593564902, (-17)); ((-95586883985135321), (-23)); ((-80514365152171378), (-24))];
  [(24579316437352896, (-10)); (19110673794616651, (-17)); ((-25402976711894879), (-23)); ((-21397334630676675), (-24))];
  [(24686377966559799, (-10)); (44616594784527108, (-17)); ((-67986609968193818), (-23)); ((-57266211766968524), (-24))];
  [(24830690695268987, (-10)); (9450110431442349, (-16)); ((-12538749317263665), (-22)); ((-10561589613473547), (-23))];
  [(24742634209092865, (-10)); (26252917706618883, (-17)); ((-90361219694384977), (-23)); ((-76112704324587909), (-24))];
  [(24837723392292326, (-10)); (28152922602476782, (-17)); ((-12818203693318201), (-22)); ((-10796978515579888), (-23))];
  [(24549947493307819, (-10)); (65732319735647615, (-17)); ((-13723636518801289), (-23)); ((-11559639103438828), (-24))];
  [(2469385929479497, (-9)); (99836724916737263, (-17)); ((-70964427419313128), (-23)); ((-59774475156464646), (-24))];
  [(24627263781791544, (-10)); (44878553571030577, (-17)); ((-44474563223602477), (-23)); ((-3746163776952199), (-23))];
  [(24802278102848018, (-10)); (17980463679663217, (-17)); ((-11408363411479923), (-22)); ((-9609447438870457), (-23))];
  [(2457049504835858, (-9)); (4410036832189026, (-16)); ((-218953541810571), (-21)); ((-18442807926910768), (-24))];
  [(24583153964848449, (-10)); (99887167896134066, (-17)); ((-26932526486656628), (-23)); ((-22685698932862109), (-24))];
  [(24856273132866072, (-10)); (67952591936872331, (-17)); ((-13556158787620035), (-22)); ((-11418569924896701), (-23))];
  [(24822173718992043, (-10)); (597809323757861, (-15)); ((-12199857276144023), (-22)); ((-10276135412977644), (-23))];
  [(24752851050185259, (-10)); (7659217520765883, (-16)); ((-94426865032966744), (-23)); ((-79537262587421336), (-24))];
  [(24735838097418072, (-10)); (57893877501195523, (-17)); ((-87659394871638422), (-23)); ((-73836913951615328), (-24))];
  [(24527331899533244, (-10)); (65100720584205085, (-17)); ((-47284922784865657), (-24)); ((-39828848693142302), (-25))];
  [(24775666966021354, (-10)); (57177837641038121, (-18)); ((-1034988412296994), (-21)); ((-87178733610465963), (-24))];
  [(24532614205878796, (-10)); (4477418992527511, (-16)); ((-68286666678415224), (-24)); ((-57518954345509758), (-25))];
  [(24775266587034855, (-10)); (199857646134459, (-15)); ((-10334016211238826), (-22)); ((-87045075645475704), (-24))];
  [(24610533863579007, (-10)); (44982028711153177, (-17)); ((-3782041495769233), (-22)); ((-31856741983385762), (-24))];
  [(24811119791399548, (-10)); (18539398418672159, (-17)); ((-11760034675547971), (-22)); ((-99056657837754295), (-24))];
  [(24821349230537978, (-10)); (51188176060132307, (-17)); ((-12167029921632302), (-22)); ((-10248484405873496), (-23))];
  [(2466708882965012, (-9)); (52329611520378783, (-17)); ((-60314861528318043), (-23)); ((-5080417503670106), (-23))];
  [(24727135820653131, (-10)); (45351358183293544, (-17)); ((-84197655196173869), (-23)); ((-70921035112679057), (-24))];
  [(24832942742643137, (-10)); (82401052982019962, (-17)); ((-12628274051629996), (-22)); ((-1063699773279296), (-22))];
  [(24607008003292726, (-10)); (34442410103694998, (-17)); ((-36417621199494241), (-23)); ((-30675146306532107), (-24))];
  [(24673825395980789, (-10)); (95360443102877901, (-17)); ((-62995972798185002), (-23)); ((-53062518051933571), (-24))];
  [(24854648346972885, (-10)); (56981719956059762, (-17)); ((-13491490969352365), (-22)); ((-11364099184597151), (-23))];
  [(24765872755644973, (-10)); (89627062305734984, (-17)); ((-99606632495539949), (-23)); ((-83900263780658365), (-24))];
  [(24687151444879603, (-10)); (82843818113097423, (-17)); ((-68295773438988181), (-23)); ((-57526625115970681), (-24))];
  [(2455420966852603, (-9)); (1310389705260927, (-16)); ((-15416779501598897), (-23)); ((-1298580058803124), (-23))];
  [(2467547707414344, (-9)); (94653920312410489, (-18)); ((-63649494361455844), (-23)); ((-53612989744139671), (-24))];
  [(2454133101819444, (-9)); (18847219620111744, (-17)); ((-10294657624383874), (-23)); ((-86713551957099595), (-25))];
  [(24529515710268547, (-10)); (35432610253014374, (-17)); ((-559590045156088), (-22)); ((-47135166827097148), (-25))];
  [(24850165736713153, (-10)); (24524235602845668, (-17)); ((-13313070674281457), (-22)); ((-11213812909022657), (-23))];
  [(24830690011836463, (-10)); (16985711496158229, (-17)); ((-12538413824961685), (-22)); ((-10561307022927845), (-23))];
  [(24546144964885726, (-10)); (95251616644341253, (-17)); ((-12212394165759409), (-23)); ((-10286695436134406), (-24))];
  [(24582952457379997, (-10)); (34130687279297289, (-17)); ((-26849763573669648), (-23)); ((-22615986404118868), (-24))];
  [(24799156495731277, (-10)); (7105037302181435, (-16)); ((-11284415788782367), (-22)); ((-95050443687257427), (-24))];
  [(24587375518924519, (-10)); (30075940005700463, (-19)); ((-28607645123776196), (-23)); ((-24096678222062774), (-24))];
  [(24699792610954205, (-10)); (82401452070296277, (-17)); ((-73323649242974656), (-23)); ((-61761685529540464), (-24))];
  [(24844884974432853, (-10)); (5480420741519243, (-17)); ((-13102958057460661), (-22)); ((-11036831682639981), (-23))];
  [(24601411559618874, (-10)); (49535968037652867, (-17)); ((-34192293792388435), (-23)); ((-28800717347568293), (-24))];
  [(24717241188893956, (-10)); (51776722444819812, (-17)); ((-80262423050207758), (-23)); ((-67606325973210196), (-24))];
  [(24739451854380667, (-10)); (55668227579704921, (-17)); ((-89096640900702935), (-23)); ((-75047529328674853), (-24))];
  [(24821795571410162, (-10)); (33144058247229236, (-17)); ((-12184710900756578), (-22)); ((-10263377378110996), (-23))];
  [(24588105931261056, (-10)); (87853687393285085, (-17)); ((-28901641423017405), (-23)); ((-2434431601925444), (-23))];
  [(2451661106964794, (-9)); (71839554286901519, (-17)); ((-46466081891884129), (-25)); ((-39139125878563497), (-26))];
  [(24856059488485456, (-10)); (93839374771850925, (-17)); ((-13547764264786932), (-22)); ((-1141149908370506), (-22))];
  [(24759007000656668, (-10)); (80749268189697876, (-17)); ((-96875496171654047), (-23)); ((-81599783860255234), (-24))];
  [(24833646044945098, (-10)); (20712691463973876, (-17)); ((-12656001816062665), (-22)); ((-10660353273399687), (-23))];
  [(24800450578083391, (-10)); (22928664130637588, (-17)); ((-11335695180216572), (-22)); ((-95482378224150239), (-24))];
  [(24791549329977348, (-10)); (75117208744925923, (-17)); ((-10981864793967624), (-22)); ((-92502008142747477), (-24))];
  [(24526269579325831, (-10)); (84617589929756287, (-17)); ((-43067416383338529), (-24)); ((-36276375421840959), (-25))];
  [(24864197605544738, (-10)); (37719487627315984, (-17)); ((-13871226264395232), (-22)); ((-11683956312809464), (-23))];
  [(24692826510861898, (-10)); (15467959009734011, (-17)); ((-70550292583607645), (-23)); ((-59425642743542697), (-24))];
  [(24569338157308497, (-10)); (81618283972970629, (-17)); ((-2143670493688167), (-22)); ((-1805648031392936), (-23))];
  [(24597705717841205, (-10)); (76726930766250223, (-17)); ((-32719414947646929), (-23)); ((-27560087878478504), (-24))];
  [(24549724110744419, (-10)); (23774507022665181, (-17)); ((-13633119579929208), (-23)); ((-11483395234353851), (-24))];
  [(2453911482456442, (-9)); (5190568190331738, (-16)); ((-9414504336752361), (-23)); ((-79299879679502602), (-25))];
  [(24712449499417786, (-10)); (52802993956218791, (-17)); ((-78356618811499421), (-23)); ((-66001036502661281), (-24))];
  [(24706112346726665, (-10)); (16481797030609313, (-17)); ((-75834637065168817), (-23)); ((-63876730836804968), (-24))];
  [(2462195579271974, (-9)); (20887714383543399, (-17)); ((-4236241111715937), (-22)); ((-3568253818111471), (-23))];
  [(24679707264209022, (-10)); (92696715526755513, (-19)); ((-65331669213936301), (-23)); ((-55029912596687875), (-24))];
  [(24831592985248985, (-10)); (50808656424920162, (-18)); ((-12574281310632082), (-22)); ((-1059151878125659), (-22))];
  [(2483265903538276, (-9)); (75697138109588624, (-17)); ((-12616963223893896), (-22)); ((-10627470441217484), (-23))];
  [(2472941924936648, (-9)); (22030541821764527, (-17)); ((-85104937849416554), (-23)); ((-71685253840122589), (-24))];
  [(24777333527537612, (-10)); (51944667756359109, (-17)); ((-1041635375069984), (-21)); ((-87738617943488708), (-24))];
  [(24860725840465482, (-10)); (89356429148793726, (-17)); ((-13733345770483379), (-22)); ((-1156781736182214), (-22))];
  [(24579572688528695, (-10)); (86531974786041599, (-17)); ((-25507579586250784), (-23)); ((-21485443309092929), (-24))];
  [(24664759330361593, (-10)); (9563790526592858, (-16)); ((-59390049760360409), (-23)); ((-50025191254847204), (-24))];
  [(24822900711697969, (-10)); (6269170620974297, (-16)); ((-12228784238351907), (-22)); ((-10300501057100019), (-23))];
  [(24729911629068805, (-10)); (60559232655044726, (-17)); ((-85302309235509383), (-23)); ((-71851502923552693), (-24))];
  [(24672590815343787, (-10)); (80773382986896047, (-17)); ((-62504350900606678), (-23)); ((-52648417044262051), (-24))];
  [(24755922009379049, (-10)); (81493083188229454, (-17)); ((-95648502300533785), (-23)); ((-80566267247304276), (-24))];
  [(24714058837615894, (-10)); (62970334280181295, (-17)); ((-78997120873175961), (-23)); ((-66540541659901918), (-24))];
  [(24590052503596116, (-10)); (99744137188137894, (-17)); ((-29676343418626824), (-23)); ((-24996859932792955), (-24))];
  [(24603992054954078, (-10)); (27767273587755803, (-17)); ((-35217793363952776), (-23)); ((-29664512080966726), (-24))];
  [(24673838168298001, (-10)); (44928995198475186, (-17)); ((-62999046996780804), (-23)); ((-53065107498706731), (-24))];
  [(24708312392599192, (-10)); (1229530322410064, (-16)); ((-7670951610160058), (-22)); ((-64613655478204512), (-24))];
  [(24804600984886969, (-10)); (42243237118187449, (-18)); ((-11500698934643231), (-22)); ((-96872231306656142), (-24))];
  [(24563641210467215, (-10)); (47184765651864624, (-17)); ((-19169433543365535), (-23)); ((-16146721262624596), (-24))];
  [(24809606296012374, (-10)); (39369866760087935, (-17)); ((-11699919808899031), (-22)); ((-98550300676326224), (-24))];
  [(24815681227881028, (-10)); (51135391909138184, (-18)); ((-11941407706005313), (-22)); ((-10058439195714135), (-23))];
  [(24777398406848204, (-10)); (61477766196509009, (-17)); ((-10418972175264097), (-22)); ((-87760673353467636), (-24))];
  [(24562625337855588, (-10)); (36449359275647086, (-17)); ((-18764953702220503), (-23)); ((-15806021406442363), (-24))];
  [(24688820736900498, (-10)); (60409118628783121, (-17)); ((-68958824802687812), (-23)); ((-58085123911891878), (-24))];
  [(24753438000475038, (-10)); (48797861177075663, (-17)); ((-9465921296552091), (-22)); ((-79732972976797847), (-24))];
  [(24554027058282592, (-10)); (10215903289111727, (-17)); ((-15344033294124381), (-23)); ((-12924525290962766), (-24))];
  [(2485434570310527, (-9)); (67140371502440321, (-17)); ((-13479494026716979), (-22)); ((-11353993967439896), (-23))];
  [(24691591852079625, (-10)); (65220542837306827, (-18)); ((-70058863975690397), (-23)); ((-59011704546852178), (-24))];
  [(245793477776402, (-8)); (49983822478281903, (-17)); ((-25416669935500548), (-23)); ((-21408868652495702), (-24))];
  [(24813903626933261, (-10)); (15126066792870452, (-17)); ((-11870745285894409), (-22)); ((-99989191061563441), (-24))];
  [(24539432435807018, (-10)); (93213034922727034, (-18)); ((-95391371822655147), (-24)); ((-80349682122603555), (-25))];
  [(24786879705802766, (-10)); (31547770886748916, (-17)); ((-10795962016710215), (-22)); ((-90936119239701585), (-24))];
  [(24672422298716479, (-10)); (1198642354136662, (-16)); ((-62434589220178689), (-23)); ((-52589655662182872), (-24))];
  [(24716979364555315, (-10)); (97315383696422975, (-17)); ((-80160096373792502), (-23)); ((-67520134572819035), (-24))];
  [(24575717126482516, (-10)); (54721619066619331, (-17)); ((-23972804332663659), (-23)); ((-20192677502300372), (-24))];
  [(24534919960929533, (-10)); (51509900328203284, (-17)); ((-77460248588049123), (-24)); ((-65246009489816769), (-25))];
  [(24820619429541836, (-10)); (45942313393271295, (-17)); ((-12137981975003155), (-22)); ((-10224016854633058), (-23))];
  [(24624012339796089, (-10)); (53613052517280813, (-17)); ((-43181683117796046), (-23)); ((-36372624124584415), (-24))];
  [(24516720702940272, (-10)); (9195192097737348, (-17)); ((-50577471507447903), (-25)); ((-42602215279425489), (-26))];
  [(24696969536611843, (-10)); (97803474435745663, (-17)); ((-7220141314596826), (-22)); ((-60816408069555769), (-24))];
  [(24865120608299021, (-10)); (33930092877201612, (-17)); ((-13907922674841235), (-22)); ((-11714866287768821), (-23))];
  [(24799629048549016, (-10)); (33636899234250939, (-17)); ((-1130306228138533), (-21)); ((-95207506084487125), (-24))];
  [(24560441745756459, (-10)); (97077496941117591, (-17)); ((-17898863892577739), (-23)); ((-15076500071705726), (-24))];
  [(24731857131365282, (-10)); (30716526064950678, (-17)); ((-86074925741068099), (-23)); ((-72502290195379891), (-24))];
  [(24733491669936385, (-10)); (37559639901499953, (-17)); ((-86725318773454576), (-23)); ((-73050126675854937), (-24))];
  [(24567487961354563, (-10)); (44593918232567376, (-17)); ((-20699335977058117), (-23)); ((-1743538261508249), (-23))];
  [(24872381441311692, (-10)); (83104909059898424, (-18)); ((-14196612918248386), (-22)); ((-11958034709046863), (-23))];
  [(2473555136270138, (-9)); (43268021944410928, (-17)); ((-87544767367741603), (-23)); ((-73740361366988072), (-24))];
  [(24852891385083143, (-10)); (33981316723329491, (-17)); ((-13421518140956221), (-22)); ((-11305159949198564), (-23))];
  [(24847814736555177, (-10)); (40278073705393524, (-17)); ((-13219624727579086), (-22)); ((-11135101889674489), (-23))];
  [(24837379874330861, (-10)); (67077433981599377, (-21)); ((-12804428672111492), (-22)); ((-10785375594329853), (-23))];
  [(24594989489016491, (-10)); (76491250347033346, (-17)); ((-3163905357955951), (-22)); ((-26650082174139227), (-24))];
  [(24829768599487287, (-10)); (89950660670506333, (-17)); ((-12502055809869622), (-22)); ((-10530682083801408), (-23))];
  [(24850901785631962, (-10)); (73012762360105454, (-17)); ((-13342539118824703), (-22)); ((-11238634652398981), (-23))];
  [(24556048596807178, (-10)); (73975255054913636, (-17)); ((-16150615350326485), (-23)); ((-1360392229074722), (-23))];
  [(24712392227395466, (-10)); (16472551945725677, (-17)); ((-78332394449593442), (-23)); ((-65980631934181148), (-24))];
  [(24733085049956855, (-10)); (83574475795268188, (-17)); ((-86565420063957342), (-23)); ((-72915441428809715), (-24))];
  [(2462097738379111, (-9)); (71580774426901472, (-18)); ((-41972712977015473), (-23)); ((-35354289188715847), (-24))];
  [(24815296937116943, (-10)); (87071081560103225, (-17)); ((-11926448914971979), (-22)); ((-10045839166156939), (-23))];
  [(24807129267882961, (-10)); (95262962813140928, (-17)); ((-11601620879402192), (-22)); ((-97722313030572758), (-24))];
  [(24723894583615838, (-10)); (48486367918977868, (-18)); ((-82906875647555435), (-23)); ((-69833790800744166), (-24))];
  [(24523773110416522, (-10)); (50822056605554089, (-17)); ((-33124527010052433), (-24)); ((-2790132026476634), (-24))];
  [(24687980929944688, (-10)); (60046637321786567, (-17)); ((-68624785832226624), (-23)); ((-5780375753063239), (-23))];
  [(24553524890299379, (-10)); (88392165697036174, (-17)); ((-15147410539406231), (-23)); ((-12758906791744142), (-24))];
  [(2459180287922137, (-9)); (9047982249273071, (-16)); ((-30372168787961619), (-23)); ((-2558296479920411), (-23))];
  [(24624376123489696, (-10)); (84661572671536445, (-17)); ((-43327609251958423), (-23)); ((-36495540047369613), (-24))];
  [(24704400197680779, (-10)); (20040213434647736, (-17)); ((-75153788977209841), (-23)); ((-63303241574662973), (-24))];
  [(24696333126572785, (-10)); (22153557374919486, (-17)); ((-71945278720792689), (-23)); ((-60600661936018935), (-24))];
  [(24656979631101377, (-10)); (53296723799503787, (-17)); ((-56294070558952127), (-23)); ((-47417398328314756), (-24))];
  [(24544887040790846, (-10)); (24527368310230568, (-17)); ((-11709254849874008), (-23)); ((-98628931223367231), (-25))];
  [(24695445543228327, (-10)); (25098324921026904, (-17)); ((-71592368727024496), (-23)); ((-60303400189224026), (-24))];
  [(24831267971902345, (-10)); (28224760454015196, (-17)); ((-12561446292510584), (-22)); ((-10580707639678528), (-23))];
  [(24559377570675178, (-10)); (73269000953348484, (-17)); ((-17474652273767957), (-23)); ((-14719179822790029), (-24))];
  [(2480896549467491, (-9)); (99718599145725562, (-18)); ((-11674315669218977), (-22)); ((-98334632902081409), (-24))];
  [(24813870437561083, (-10)); (4231601864808614, (-16)); ((-11869533358083073), (-22)); ((-99978982799271392), (-24))];
  [(24772865393927335, (-10)); (24631023911697048, (-17)); ((-10238529708521682), (-22)); ((-86240777521470788), (-24))];
  [(24781591134279184, (-10)); (12188248033477733, (-18)); ((-10585493909848748), (-22)); ((-8916331262625808), (-23))];
  [(24729612943374664, (-10)); (74972570526124616, (-17)); ((-85184083357581039), (-23)); ((-71751919370777413), (-24))];
  [(24741251709101819, (-10)); (94087033586332325, (-17)); ((-89814042616935622), (-23)); ((-756518082980629), (-22))];
  [(24580008945490238, (-10)); (63083575001434111, (-17)); ((-25680163656322283), (-23)); ((-21630813638764371), (-24))];
  [(2487982312694848, (-9)); (17038417326144328, (-17)); ((-1449263300196128), (-21)); ((-12207377172351167), (-23))];
  [(2465491066818187, (-9)); (8092224255872017, (-16)); ((-55472260677856421), (-23)); ((-46725174687438545), (-24))];
  [(24548530311056687, (-10)); (16214261954472986, (-17)); ((-13157997368542774), (-23)); ((-11083192176940417), (-24))];
  [(24653625190172647, (-10)); (94829458186512861, (-17)); ((-54961528205962451), (-23)); ((-46294976536575742), (-24))];
  [(24546989263795917, (-10)); (54097741743721539, (-17)); ((-12546568494496577), (-23)); ((-10568175831840267), (-24))];
  [(24778433281811257, (-10)); (62337456696717408, (-17)); ((-10460136678662427), (-22)); ((-88107408566474096), (-24))];
  [(24794429323550193, (-10)); (47851757643383397, (-17)); ((-11096305121778342), (-22)); ((-93465957374832409), (-24))];
  [(24782010158008407, (-10)); (28234339553690802, (-17)); ((-10602267597832488), (-22)); ((-89304600089868829), (-24))];
  [(24778608948209016, (-10)); (21426924399254976, (-18)); ((-10466884209948991), (-22)); ((-8816424410449273), (-23))];
  [(24691778061843351, (-10)); (44345861499825989, (-17)); ((-70134431391166567), (-23)); ((-59075356192659562), (-24))];
  [(24541931380019756, (-10)); (42722348126867005, (-17)); ((-10534394955617301), (-23)); ((-88732897940857885), (-25))];
  [(24675913603162076, (-10)); (47866426400761108, (-19)); ((-63822761837515471), (-23)); ((-53758935717633578), (-24))];
  [(24788401928234296, (-10)); (64191306739350029, (-18)); ((-10856406897010298), (-22)); ((-91445256159032155), (-24))];
  [(24775696150976797, (-10)); (43283433682651173, (-17)); ((-10351194337962408), (-22)); ((-87189769761445388), (-24))];
  [(24637207092212019, (-10)); (33576862197425883, (-17)); ((-48428962854046613), (-23)); ((-40792491988524494), (-24))];
  [(24634815834930311, (-10)); (53748154651497315, (-17)); ((-47478667231044761), (-23)); ((-3999204274692373), (-23))];
  [(24643378962013312, (-10)); (6084767188765331, (-16)); ((-5088484506620707), (-22)); ((-42861120956818503), (-24))];
  [(24539081301862192, (-10)); (55983611516434406, (-17)); ((-94013332232085118), (-24)); ((-79188937278085355), (-25))];
  [(24773594415566758, (-10)); (88722574483880179, (-17)); ((-10267780709694387), (-22)); ((-86487163394856103), (-24))];
  [(24728491339791631, (-10)); (69776648881477166, (-18)); ((-84735272675777163), (-23)); ((-71373878936646593), (-24))];
  [(24628326450778265, (-10)); (7899104874533095, (-16)); ((-44898585639775963), (-23)); ((-378187986500232), (-22))];
  [(24775837732222532, (-10)); (76207808144753231, (-17)); ((-10356956539257811), (-22)); ((-87238305706947142), (-24))];
  [(24757981671789158, (-10)); (25529263920796685, (-18)); ((-96464572013170228), (-23)); ((-81253655852241499), (-24))];
  [(24677115610060096, (-10)); (42078866576179308, (-17)); ((-64302502286311128), (-23)); ((-54163028790471967), (-24))];
  [(24636293097535162, (-10)); (9709173586121842, (-16)); ((-48067957138764528), (-23)); ((-40488411085680513), (-24))];
  [(24810886705300515, (-10)); (59047708870267301, (-17)); ((-11750925034038818), (-22)); ((-98979925866557556), (-24))];
  [(24741528296483574, (-10)); (60059179562088028, (-17)); ((-89922698971934873), (-23)); ((-75743331288224125), (-24))];
  [(24598339246737598, (-10)); (585757217810009, (-15)); ((-32970672585027474), (-23)); ((-27771726215454474), (-24))];
  [(24684407188229812, (-10)); (17007801367329423, (-17)); ((-67201655106911152), (-23)); ((-56605031700264878), (-24))];
  [(24790436456619981, (-10)); (97226309414746626, (-17)); ((-10937689340896764), (-22)); ((-92129911217832231), (-24))];
  [(24631963077510633, (-10)); (8059419670590483, (-16)); ((-46345080170326592), (-23)); ((-39037204188187652), (-24))];
  [(2474054695976356, (-9)); (15755998149535244, (-17)); ((-89530620301780355), (-23)); ((-75413077137224621), (-24))];
  [(2474603814164293, (-9)); (95527381155703639, (-17)); ((-91717854071184263), (-23)); ((-77255419214306374), (-24))];
  [(2480846449693141, (-9)); (59360938574818944, (-18)); ((-11654372948962412), (-22)); ((-98166652171470454), (-24))];
  [(24809735361936321, (-10)); (95353712495409426, (-17)); ((-11705275942849385), (-22)); ((-98595416251466192), (-24))];
  [(24609954016496018, (-10)); (24862696283285735, (-17)); ((-37588986536501826), (-23)); ((-31661806113175566), (-24))];
  [(24713676762677589, (-10)); (5433552492580187, (-16)); ((-78844811067354215), (-23)); ((-66412248668113475), (-24))];
  [(24814232337921718, (-10)); (65896995626206178, (-17)); ((-1188402136249061), (-21)); ((-10010101758360186), (-23))];
  [(24704734637679309, (-10)); (90499277044092297, (-17)); ((-75289611473077398), (-23)); ((-63417647040896824), (-24))];
  [(24708937278643968, (-10)); (78638307319866774, (-17)); ((-76960696804071135), (-23)); ((-64825229011672124), (-24))];
  [(2484552170998564, (-9)); (80740824557705881, (-17)); ((-13128582897702235), (-22)); ((-11058415896479371), (-23))];
  [(24748246867656223, (-10)); (7142787382876723, (-16)); ((-92595393524490685), (-23)); ((-77994584767500237), (-24))];
  [(24720763994083395, (-10)); (23483225710125843, (-18)); ((-81661616509082366), (-23)); ((-68784889060211533), (-24))];
  [(24777240565798902, (-10)); (51284096152796455, (-17)); ((-10412653666087488), (-22)); ((-87707451537476459), (-24))];
  [(24721542281350945, (-10)); (29461563793259027, (-17)); ((-81972250642060381), (-23)); ((-69046541171553605), (-24))];
  [(24673343760777521, (-10)); (71597391293119517, (-17)); ((-62803462213810404), (-23)); ((-52900363299735503), (-24))];
  [(24599898952944754, (-10)); (90753833826924257, (-17)); ((-3359230949004963), (-22)); ((-28295340948735272), (-24))];
  [(24817963937222008, (-10)); (22726192624246055, (-17)); ((-12032270167689074), (-22)); ((-10134974104203977), (-23))];
  [(24575451271441109, (-10)); (60490549174952235, (-17)); ((-23867292685774975), (-23)); ((-2010380335020725), (-23))];
  [(2477954166465465, (-9)); (836240022645382, (-15)); ((-10504306127878611), (-22)); ((-88479454919958659), (-24))];
  [(24777980116822086, (-10)); (88102227204863603, (-18)); ((-10441899609656484), (-22)); ((-87953794809854714), (-24))];
  [(24718619582557189, (-10)); (98230213029385238, (-17)); ((-8081251254977799), (-22)); ((-68069675179589394), (-24))];
  [(24542547661670926, (-10)); (69281109652090633, (-17)); ((-10780570972088404), (-23)); ((-90806478002840395), (-25))];
  [(24715398361199866, (-10)); (20178232718648714, (-17)); ((-7952820054834668), (-22)); ((-66987878586359747), (-24))];
  [(24599118259978034, (-10)); (14358015069650565, (-17)); ((-33278758351363048), (-23)); ((-280312317967096), (-22))];
  [(24864272340824297, (-10)); (69096423741736834, (-17)); ((-13874323581568518), (-22)); ((-11686565232731165), (-23))];
  [(24760543828612887, (-10)); (23184316472241451, (-17)); ((-97484464050599388), (-23)); ((-82112727269718932), (-24))];
  [(24593017577326563, (-10)); (72746563908581252, (-18)); ((-30851993028708845), (-23)); ((-25987128451346943), (-24))];
  [(24879120517512853, (-10)); (98516337726637804, (-17)); ((-14465011506501179), (-22)); ((-12184111143804094), (-23))];
  [(24808207903041625, (-10)); (21649906341429881, (-17)); ((-11644229691769139), (-22)); ((-98081213889622235), (-24))];
  [(24722798600772223, (-10)); (37628182860758319, (-17)); ((-82472263550405699), (-23)); ((-69467710062147155), (-24))];
  [(24582283956130296, (-10)); (67036109173908787, (-17)); ((-26585182877137202), (-23)); ((-22393125840779006), (-24))];
  [(24738943654881646, (-10)); (40673961262748437, (-17)); ((-88893913411129542), (-23)); ((-74876768713395945), (-24))];
  [(24527027566613969, (-10)); (28972563339219215, (-17)); ((-46060100391897305), (-24)); ((-38797161151059164), (-25))];
  [(24701943291890323, (-10)); (56653932588790201, (-17)); ((-74178036317650235), (-23)); ((-62481349462956509), (-24))];
  [(24797588675991436, (-10)); (74052587342613352, (-17)); ((-11222069317006467), (-22)); ((-94525289357998724), (-24))];
  [(24681409268508651, (-10)); (25762687376016391, (-19)); ((-66008597243748169), (-23)); ((-55600099930992941), (-24))];
  [(24739266416515405, (-10)); (90981998566912736, (-17)); ((-8902428947160155), (-22)); ((-74986586559760481), (-24))];
  [(24709639527881905, (-10)); (45138650496104871, (-17)); ((-7723867677969558), (-22)); ((-65059376002653636), (-24))];
  [(24782164771006163, (-10)); (50413988715277058, (-17)); ((-10608505387584397), (-22)); ((-8935714199320212), (-23))];
  [(24642312776198625, (-10)); (63521113258477735, (-17)); ((-50460886990667369), (-23)); ((-42504014271464854), (-24))];
  [(24516929165955442, (-10)); (83953132698528854, (-17)); ((-59166214879932652), (-25)); ((-49836651545786752), (-26))];
  [(24642773262044615, (-10)); (72788024103602611, (-17)); ((-50644409067311071), (-23)); ((-42658597859467085), (-24))];
  [(24743594482013881, (-10)); (38736574735507401, (-18)); ((-90742268230458669), (-23)); ((-76433667616778798), (-24))];
  [(24529660887323874, (-10)); (43726767093363439, (-17)); ((-56539730191882505), (-24)); ((-47624321376376248), (-25))];
  [(2452493633110892, (-9)); (49658306999628254, (-17)); ((-37750654445655255), (-24)); ((-31797981585460988), (-25))];
  [(24764652019515899, (-10)); (58754882738760039, (-17)); ((-9911986938434239), (-22)); ((-83490255406667837), (-24))];
  [(24658616489848844, (-10)); (81624001660586587, (-18)); ((-5694331906859688), (-22)); ((-47964270758931593), (-24))];
  [(24579587785522295, (-10)); (32812565257166448, (-17)); ((-25511447625616563), (-23)); ((-21488701420676189), (-24))];
  [(24559781571321003, (-10)); (20934848195678091, (-17)); ((-17633257825996172), (-23)); ((-14852775822731298), (-24))];
  [(24766718535410259, (-10)); (18454833472895005, (-17)); ((-99940201870053778), (-23)); ((-84181234613721249), (-24))];
  [(24656947792205862, (-10)); (96044621386358631, (-17)); ((-56283107220241408), (-23)); ((-47408163732317468), (-24))];
  [(24836436373112085, (-10)); (71582201679797464, (-17)); ((-12767186568603294), (-22)); ((-10754005973353815), (-23))];
  [(24634414924377925, (-10)); (13545491876504112, (-17)); ((-47317610175228103), (-23)); ((-39856381806199139), (-24))];
  [(24640135806952906, (-10)); (8543106636545621, (-16)); ((-49595891376797473), (-23)); ((-41775414595373537), (-24))];
  [(2459725275177334, (-9)); (7399954138574909, (-16)); ((-32539143887897679), (-23)); ((-27408242674137737), (-24))];
  [(24647628550905697, (-10)); (32899322383187757, (-17)); ((-52573963592199599), (-23)); ((-44283892576910322), (-24))];
  [(2454174895108162, (-9)); (52262218845260944, (-18)); ((-10460344357688793), (-23)); ((-8810915788021528), (-24))];
  [(24614323664288409, (-10)); (90884633898405942, (-17)); ((-3932959482266166), (-22)); ((-33127948383913905), (-24))];
  [(24848504061794635, (-10)); (58132619746056868, (-17)); ((-13247112942478707), (-22)); ((-11158255653868264), (-23))];
  [(24517013917527474, (-10)); (29021918353129761, (-17)); ((-62318637988617569), (-25)); ((-52491988080517519), (-26))];
  [(24659096962562855, (-10)); (43463421643211719, (-17)); ((-57135826195702774), (-23)); ((-48126422599016783), (-24))];
  [(24808473672758108, (-10)); (38859613403386106, (-17)); ((-11654868857906005), (-22)); ((-98170829292023199), (-24))];
  [(24830922386244209, (-10)); (45971274223721126, (-17)); ((-12547771564395622), (-22)); ((-10569189196907909), (-23))];
  [(24563142776925806, (-10)); (28473560144447807, (-17)); ((-18970442525264081), (-23)); ((-15979107937182225), (-24))];
  [(24873820583682037, (-10)); (13570079987237671, (-17)); ((-14253874240868186), (-22)); ((-12006266839296277), (-23))];
  [(24583529617416221, (-10)); (60299101938025568, (-17)); ((-2708036384573452), (-22)); ((-22810224711040854), (-24))];
  [(24585967990017361, (-10)); (25263235247353177, (-17)); ((-2804880787788819), (-22)); ((-23625960648686729), (-24))];
  [(24788070407996885, (-10)); (93080415774053338, (-17)); ((-10843565707888309), (-22)); ((-91337092763924876), (-24))];
  [(24761123024627292, (-10)); (1464523401297263, (-16)); ((-97714493657088886), (-23)); ((-82306484895875955), (-24))];
  [(2456841557891652, (-9)); (64900989339267479, (-17)); ((-21069093985735215), (-23)); ((-17746835714999391), (-24))];
  [(24876230903853597, (-10)); (13381354324863814, (-17)); ((-14349741488544742), (-22)); ((-12087017359281471), (-23))];
  [(24587628875615979, (-10)); (54192965749902977, (-17)); ((-28710558641062951), (-23)); ((-24183363927930211), (-24))];
  [(24580394695370053, (-10)); (37881349763540051, (-17)); ((-25832589299074266), (-23)); ((-21759204201856649), (-24))];
  [(24764393302059313, (-10)); (8797292126740075, (-17)); ((-9901498017331072), (-22)); ((-83401905542278071), (-24))];
  [(24760835165753355, (-10)); (94681217699948572, (-17)); ((-97603184108246844), (-23)); ((-82212727077995997), (-24))];
  [(24546170848945775, (-10)); (85531019724592339, (-17)); ((-12222302656906901), (-23)); ((-10295041517114306), (-24))];
  [(24709965253772452, (-10)); (54138330603918938, (-17)); ((-7736858884543193), (-22)); ((-65168803018812012), (-24))];
  [(2479834128436225, (-9)); (96972213534498586, (-18)); ((-11251747571727994), (-22)); ((-94775274056537479), (-24))];
  [(24698244667412303, (-10)); (98541755660506558, (-17)); ((-72708612631848646), (-23)); ((-61243630329646572), (-24))];
  [(24767187070852052, (-10)); (12337793037237876, (-17)); ((-10012631370959575), (-22)); ((-84337999600540517), (-24))];
  [(24533443061264646, (-10)); (68952299639434955, (-17)); ((-71592970063798808), (-24)); ((-60303906704831696), (-25))];
  [(24614489083871385, (-10)); (15870902013541588, (-17)); ((-39392405161504613), (-23)); ((-3318085453950864), (-23))];
  [(24701105892654941, (-10)); (82688120583529279, (-17)); ((-73846004893441766), (-23)); ((-62201674070097441), (-24))];
  [(24777175433953735, (-10)); (61302041429129439, (-17)); ((-10410102959480514), (-22)); ((-87685966526710542), (-24))];
  [(24520258423139127, (-10)); (10418541823862371, (-17)); ((-19129150861669462), (-24)); ((-16112790513884102), (-25))];
  [(24778021413899446, (-10)); (99727381213079069, (-17)); ((-10443903771924785), (-22)); ((-87970676190015526), (-24))];
  [(24605012453917605, (-10)); (58245441848887447, (-17)); ((-35624858762858817), (-23)); ((-30007389793911442), (-24))];
  [(24820024399081008, (-10)); (32275455456826008, (-17)); ((-1211426089374554), (-21)); ((-10204036207513345), (-23))];
  [(24764261444335319, (-10)); (26042958498296365, (-17)); ((-98963221052438621), (-23)); ((-8335830800479061), (-23))];
  [(24655186648191563, (-10)); (28757770922588388, (-17)); ((-55579954091628399), (-23)); ((-46815886576762909), (-24))];
  [(24627320702851983, (-10)); (80275243419654463, (-17)); ((-44498610855011961), (-23)); ((-37481893475070975), (-24))];
  [(24775565112104099, (-10)); (4518441544786771, (-16)); ((-10345989962940744), (-22)); ((-87145932476096901), (-24))];
  [(24600040745209325, (-10)); (85000587313067699, (-18)); ((-33645434341489109), (-23)); ((-28340088862979645), (-24))];
  [(24580652902888041, (-10)); (93491958569247657, (-17)); ((-2593750053025622), (-22)); ((-218475726141721), (-22))];
  [(24688266057618503, (-10)); (89471741922295245, (-17)); ((-68739362776261197), (-23)); ((-57900267527876933), (-24))];
  [(24764018033958464, (-10)); (42160180573208139, (-17)); ((-9886704813197161), (-22)); ((-83277300011712429), (-24))];
  [(24846226594367567, (-10)); (11394487087794114, (-18)); ((-13156302340566944), (-22)); ((-11081764427695966), (-23))];
  [(24813023861135682, (-10)); (62937221291909862, (-17)); ((-11835943672805684), (-22)); ((-99696051493948092), (-24))];
  [(24834835864107851, (-10)); (16611847686727477, (-17)); ((-12703309335148758), (-22)); ((-10700201155319692), (-23))];
  [(24688613123929501, (-10)); (36615264988088703, (-17)); ((-68875302509247115), (-23)); ((-58014771744815516), (-24))];
  [(24832466512161437, (-10)); (3241105198966423, (-16)); ((-12609133645432576), (-22)); ((-10620875461729289), (-23))];
  [(24827129070421872, (-10)); (75031479324366013, (-17)); ((-12397011924752586), (-22)); ((-1044220193494928), (-22))];
  [(24851452151558362, (-10)); (14859365749802445, (-17)); ((-13364198056648408), (-22)); ((-11256878323037069), (-23))];
  [(24836618446647483, (-10)); (4320357540463482, (-17)); ((-12774160828598591), (-22)); ((-10759880504382725), (-23))];
  [(24674952563364734, (-10)); (52448671483306564, (-18)); ((-63440707743108065), (-23)); ((-534371254275337), (-22))];
  [(24657037360884259, (-10)); (99334283098799658, (-17)); ((-5631886308097525), (-22)); ((-47438281467172206), (-24))];
  [(24688863380831662, (-10)); (47714230986660178, (-17)); ((-68975281060329241), (-23)); ((-5809898528158551), (-23))];
  [(24570132833079011, (-10)); (3035326496095585, (-16)); ((-2175074001340308), (-22)); ((-18320997094553436), (-24))];
  [(24633252953038965, (-10)); (85909309164145586, (-17)); ((-46858326258350909), (-23)); ((-39469519598223819), (-24))];
  [(24875311329012117, (-10)); (64507199142574212, (-17)); ((-14313369695641059), (-22)); ((-12056380814883373), (-23))];
  [(24532212785059381, (-10)); (9873211417946437, (-17)); ((-66676175276006805), (-24)); ((-56162411612428226), (-25))];
  [(24848480880662547, (-10)); (58247525369886721, (-17)); ((-1324619139388908), (-21)); ((-11157479418713844), (-23))];
  [(24627203808915, (-7)); (7143101054985026, (-16)); ((-44451765727228169), (-23)); ((-37442435072759516), (-24))];
  [(2479230296050061, (-9)); (28901784442731815, (-17)); ((-11011655853495075), (-22)); ((-92752943014255183), (-24))];
  [(24834949941188958, (-10)); (45300927575881844, (-17)); ((-12707960741222416), (-22)); ((-10704119109242575), (-23))];
  [(24624428416260825, (-10)); (62139440911463117, (-17)); ((-4334751236766117), (-22)); ((-36512304760879956), (-24))];
  [(24592952377530616, (-10)); (26118426863702171, (-17)); ((-30826809974009518), (-23)); ((-25965916360553986), (-24))];
  [(24640423173499932, (-10)); (28747612331734218, (-17)); ((-49707933930465942), (-23)); ((-41869789834972812), (-24))];
  [(24553148643829674, (-10)); (74334533441939787, (-17)); ((-14997203259656178), (-23)); ((-12632384791380673), (-24))];
  [(24585020150080952, (-10)); (68265911776128185, (-17)); ((-27673524708289969), (-23)); ((-23309853617127941), (-24))];
  [(24581953588926704, (-10)); (93701834339618129, (-17)); ((-26454843331719304), (-23)); ((-22283338751630075), (-24))];
  [(24819234915183242, (-10)); (52906511114676114, (-17)); ((-12082942044046974), (-22)); ((-10177655838202755), (-23))];
  [(24598236182261785, (-10)); (1898753810281425, (-16)); ((-3292810517382971), (-22)); ((-27735871002418212), (-24))];
  [(2479920828835004, (-9)); (92464021535698238, (-17)); ((-11286560957341783), (-22)); ((-95068512786019198), (-24))];
  [(2485799246471243, (-9)); (36075878231569558, (-17)); ((-13624416651788677), (-22)); ((-1147606461842637), (-22))];
  [(24575667378709717, (-10)); (47013974681524195, (-17)); ((-23952711105631772), (-23)); ((-20175752654968993), (-24))];
  [(24757568275998118, (-10)); (32467770342306712, (-17)); ((-96301337933974139), (-23)); ((-81116161169815016), (-24))];
  [(24781682160654701, (-10)); (3347804740465079, (-16)); ((-10589242697761231), (-22)); ((-89194889267977117), (-24))];
  [(24554923540728102, (-10)); (13230571209082875, (-17)); ((-15700719843929646), (-23)); ((-13224968091466185), (-24))];
  [(24777983434573147, (-10)); (15296481488046643, (-17)); ((-10442057368207399), (-22)); ((-87955123635426229), (-24))];
  [(24797087752725715, (-10)); (33331606076362963, (-17)); ((-11201983647367669), (-22)); ((-94356104541818768), (-24))];
  [(24693835663886117, (-10)); (75974826782062621, (-17)); ((-70954079386713378), (-23)); ((-597657588426713), (-22))];
  [(24810189501246451, (-10)); (12896109547990731, (-17)); ((-11723010898805871), (-22)); ((-98744800629354298), (-24))];
  [(24852917427326571, (-10)); (29703450349782756, (-17)); ((-13422536929550961), (-22)); ((-1130601809116857), (-22))];
  [(2483557562343685, (-9)); (62173682678496978, (-17)); ((-12732913716815031), (-22)); ((-10725137400714544), (-23))];
  [(24721327030046172, (-10)); (38156685971300142, (-17)); ((-81886982495655698), (-23)); ((-68974718444530266), (-24))];
  [(24800707387708519, (-10)); (70149508426052565, (-17)); ((-11346097334165468), (-22)); ((-95569997234886171), (-24))];
  [(24711074625634262, (-10)); (69749958709340654, (-17)); ((-77810450995478905), (-23)); ((-65540990593221663), (-24))];
  [(24768965667622988, (-10)); (26191824740759206, (-17)); ((-10083428325687232), (-22)); ((-84934333702768455), (-24))];
  [(24814235127720465, (-10)); (90601674464087811, (-17)); ((-11884230584169301), (-22)); ((-10010277989135094), (-23))];
  [(24521286184645444, (-10)); (72350387512680125, (-17)); ((-23241598980868846), (-24)); ((-19576771509331872), (-25))];
  [(24642014434659914, (-10)); (38302365875906275, (-17)); ((-5034122167170518), (-22)); ((-42403218254424778), (-24))];
  [(24751609401934105, (-10)); (54601936186758993, (-17)); ((-93932137610966238), (-23)); ((-79120545746730775), (-24))];
  [(24750063865318163, (-10)); (99279085046787607, (-17)); ((-93319193353392254), (-23)); ((-7860425296978542), (-23))];
  [(24800137014475111, (-10)); (10823299905938244, (-17)); ((-11323175363335171), (-22)); ((-95376921798958678), (-24))];
  [(24596613161794804, (-10)); (83648287290248347, (-17)); ((-32285137340923916), (-23)); ((-27194288886531603), (-24))];
  [(247571389352143, (-8)); (78880636165188756, (-17)); ((-96132418090190888), (-23)); ((-80973877276703414), (-24))];
  [(24739236153072459, (-10)); (25354708455752129, (-17)); ((-89009642241607836), (-23)); ((-74974248963062955), (-24))];
  [(24600269252459439, (-10)); (99715322917350768, (-17)); ((-33739948735952868), (-23)); ((-28419699853010187), (-24))];
  [(24742696236131131, (-10)); (29331935491201688, (-17)); ((-90386012773734158), (-23)); ((-76133587932890029), (-24))];
  [(24720363519257409, (-10)); (12312441379357242, (-17)); ((-81502728090931421), (-23)); ((-68651054797767692), (-24))];
  [(24629913699500416, (-10)); (89981338825422053, (-17)); ((-45530334572245549), (-23)); ((-3835093090617312), (-23))];
  [(24759029220977076, (-10)); (32475236610790703, (-17)); ((-96882414025063308), (-23)); ((-81605610879112227), (-24))];
  [(24651183655587658, (-10)); (61112398089422149, (-17)); ((-53989091950615576), (-23)); ((-4547587788531744), (-23))];
  [(24524488739312892, (-10)); (74292907689430665, (-17)); ((-3598020240926085), (-23)); ((-30306701445344358), (-25))];
  [(24635160533570345, (-10)); (56342235841676536, (-17)); ((-47615870736075739), (-23)); ((-40107611459320923), (-24))];
  [(24752080250479686, (-10)); (96710228809884446, (-17)); ((-94121087576550184), (-23)); ((-7927970133262561), (-23))];
  [(24625229820958828, (-10)); (55842058433628239, (-17)); ((-43666012347028907), (-23)); ((-36780582400767878), (-24))];
  [(24556383973094146, (-10)); (69174451278518823, (-17)); ((-16283816861674906), (-23)); ((-13716120059692126), (-24))];
  [(24835038261706475, (-10)); (72230512116837386, (-17)); ((-12711580708338742), (-22)); ((-10707168265592185), (-23))];
  [(24628416752803642, (-10)); (74001659016263643, (-17)); ((-44934303890975863), (-23)); ((-37848884705764415), (-24))];
  [(24779457936721775, (-10)); (50001032248903399, (-17)); ((-1050084220382842), (-21)); ((-88450277732230694), (-24))];
  [(24698932107828809, (-10)); (56840562288246077, (-18)); ((-72978341646607688), (-23)); ((-6147082740398391), (-23))];
  [(24865940929495655, (-10)); (38955877203058631, (-17)); ((-13940570093724507), (-22)); ((-11742365732207793), (-23))];
  [(24779332722365982, (-10)); (68634870900808709, (-17)); ((-10495936046170095), (-22)); ((-88408952379553855), (-24))];
  [(24637037017431534, (-10)); (37069134225082667, (-17)); ((-48361456266134152), (-23)); ((-40735630107032403), (-24))];
  [(24868330006438871, (-10)); (39122727732585616, (-17)); ((-1403559382817602), (-21)); ((-1182240574747748), (-22))];
  [(2467618748259367, (-9)); (39341722212399355, (-17)); ((-63933240294102446), (-23)); ((-53851993493180228), (-24))];
  [(24779976791377533, (-10)); (95604431493172781, (-17)); ((-10521660495321563), (-22)); ((-88625633539768471), (-24))];
  [(24608903984459653, (-10)); (37053218658555087, (-17)); ((-37171831991724746), (-23)); ((-31310430150880442), (-24))];
  [(24657617604543786, (-10)); (47978631311838005, (-17)); ((-56547606392629683), (-23)); ((-47630955626563427), (-24))];
  [(24761091848616875, (-10)); (32757850494354546, (-17)); ((-97702814131195825), (-23)); ((-82296647043930665), (-24))];
  [(24767265045310864, (-10)); (89326518492552098, (-17)); ((-10016038939332847), (-22)); ((-84366702095364946), (-24))];
  [(24797051810202436, (-10)); (17176852387336328, (-17)); ((-11200489816716647), (-22)); ((-9434352176670386), (-23))];
  [(2472629541745001, (-9)); (5428165425567496, (-16)); ((-83863748685129525), (-23)); ((-70639780304110423), (-24))];
  [(24860656069943621, (-10)); (75930755330137489, (-17)); ((-13730517320719697), (-22)); ((-1156543491323094), (-22))];
  [(24812421127333194, (-10)); (7111004285211151, (-16)); ((-1181200306415258), (-21)); ((-99494395908296704), (-24))];
  [(2473905186589207, (-9)); (34211877940612345, (-17)); ((-88936696201512464), (-23)); ((-74912805343773547), (-24))];
  [(24583021637690058, (-10)); (84345551508841266, (-17)); ((-26879276572748069), (-23)); ((-22640845676494617), (-24))];
  [(24540896272920319, (-10)); (656572471583452, (-16)); ((-10121253692687891), (-23)); ((-85252942834454307), (-25))];
  [(24748772840132592, (-10)); (28056634127729108, (-17)); ((-92802868604664772), (-23)); ((-78169344354471503), (-24))];
  [(24785151145056151, (-10)); (58065296886190254, (-17)); ((-10727315766938253), (-22)); ((-90357900870189043), (-24))];
  [(24571578044719836, (-10)); (963180050721129, (-15)); ((-22328181714081269), (-23)); ((-18807385498528657), (-24))];
  [(24657060381022338, (-10)); (30362851898959609, (-17)); ((-5632527583589388), (-22)); ((-47443683033471102), (-24))];
  [(24605926377288015, (-10)); (4252764369061024, (-16)); ((-35987737196107303), (-23)); ((-30313048117128256), (-24))];
  [(24858606324048387, (-10)); (47726682386787611, (-17)); ((-13648878613484558), (-22)); ((-1149666932101953), (-22))];
  [(24804980698460657, (-10)); (11346203129669274, (-17)); ((-1151582997686106), (-21)); ((-96999682501576217), (-24))];
  [(24555586128364466, (-10)); (52814635003249122, (-17)); ((-15965831656275452), (-23)); ((-1344827602217228), (-23))];
  [(24863415916637145, (-10)); (76197278892908871, (-17)); ((-13840288435939149), (-22)); ((-11657896883801237), (-23))];
  [(24816769439962846, (-10)); (81356998638899969, (-17)); ((-11984993469443757), (-22)); ((-10095152183172381), (-23))];
  [(24775721851635743, (-10)); (43927536944675427, (-17)); ((-10352219117013219), (-22)); ((-8719840163971754), (-23))];
  [(24517046627044398, (-10)); (96810047268022303, (-17)); ((-63889245570504765), (-25)); ((-53814936032022032), (-26))];
  [(24815929541057409, (-10)); (73908469779976971, (-17)); ((-11951557731172954), (-22)); ((-10066988724672295), (-23))];
  [(24693222115749633, (-10)); (90706118056259233, (-17)); ((-70710632866764328), (-23)); ((-59560699935162073), (-24))];
  [(24658346591512579, (-10)); (51722058307586871, (-17)); ((-5683770233011198), (-22)); ((-47875308086501793), (-24))];
  [(24518982695978093, (-10)); (49452693998598052, (-17)); ((-14070603115293717), (-24)); ((-11851894631403751), (-25))];
  [(24760373290839549, (-10)); (528005879524166, (-16)); ((-97415922287159967), (-23)); ((-82054993443281065), (-24))];
  [(247820233842918, (-8)); (39489490556710416, (-17)); ((-10602838425812093), (-22)); ((-89309408265475459), (-24))];
  [(24832495590343652, (-10)); (16659852573003597, (-17)); ((-12610227551362058), (-22)); ((-10621796876234884), (-23))];
  [(24694086547365203, (-10)); (86618133990732549, (-17)); ((-71054289028945155), (-23)); ((-59850167031222277), (-24))];
  [(24682266127980426, (-10)); (26874263446583657, (-17)); ((-66350462908460243), (-23)); ((-55888058862323919), (-24))];
  [(24707158837956199, (-10)); (19653895093184082, (-17)); ((-76250994322935934), (-23)); ((-64227435231466801), (-24))];
  [(24880150920879352, (-10)); (98128232513297919, (-17)); ((-14505993193780796), (-22)); ((-12218630676156426), (-23))];
  [(24839316397807891, (-10)); (66683900911966709, (-17)); ((-12881717097330714), (-22)); ((-10850476874240855), (-23))];
  [(24595482663462749, (-10)); (48915864044366875, (-17)); ((-31834111845378483), (-23)); ((-26814382879270912), (-24))];
  [(24842482113366141, (-10)); (58888463472768926, (-17)); ((-13007599162328032), (-22)); ((-10956509356154161), (-23))];
  [(24529826741963075, (-10)); (70551004532302231, (-17)); ((-57210068973295559), (-24)); ((-48188958481093934), (-25))];
  [(24859326264549266, (-10)); (22969073234304194, (-17)); ((-13677415033372804), (-22)); ((-11520706005083582), (-23))];
  [(2474685138942962, (-9)); (77504398615329206, (-18)); ((-9203782375150649), (-22)); ((-77524934806875472), (-24))];
  [(24569347827413366, (-10)); (3849909709546635, (-16)); ((-21438836100159564), (-23)); ((-18058275426932329), (-24))];
  [(24832032655866724, (-10)); (20592390834394181, (-17)); ((-12591830451375302), (-22)); ((-10606300703911648), (-23))];
  [(24737300799525599, (-10)); (3569043285145741, (-16)); ((-88240286426420538), (-23)); ((-74326208223021988), (-24))];
  [(24874934363241666, (-10)); (63936702331156947, (-17)); ((-14298374001910798), (-22)); ((-1204374970159281), (-22))];
  [(24724021522159977, (-10)); (24769955889534789, (-17)); ((-82958156493892173), (-23)); ((-69876985479921188), (-24))];
  [(24785681766927205, (-10)); (74941289530150179, (-17)); ((-10748487826984401), (-22)); ((-90536236526976883), (-24))];
  [(24701489078525733, (-10)); (71881677333866656, (-17)); ((-7399798330543321), (-22)); ((-62329687923548602), (-24))];
  [(24747650696664448, (-10)); (76799370136920364, (-17)); ((-92358486308395883), (-23)); ((-7779503402048763), (-23))];
  [(2454742828093743, (-9)); (21152175549499841, (-17)); ((-12719872657680076), (-23)); ((-10714152707486904), (-24))];
  [(24738158862140574, (-10)); (21701860377424398, (-17)); ((-88581015598627875), (-23)); ((-74613209868492155), (-24))];
  [(24832329850008637, (-10)); (88452530905542859, (-17)); ((-12603920948488064), (-22)); ((-1061648472350538), (-22))];
  [(24555496868578368, (-10)); (49338111200359314, (-17)); ((-15930191222019906), (-23)); ((-13418255512891119), (-24))];
  [(24667290505248476, (-10)); (36694934185641004, (-17)); ((-6039445406389638), (-22)); ((-5087121710571482), (-23))];
  [(24550123741219491, (-10)); (35154260576369856, (-17)); ((-13792521096719358), (-23)); ((-11617661688009228), (-24))];
  [(24666314026680565, (-10)); (65909776610493842, (-17)); ((-60007231777179719), (-23)); ((-50545053564358949), (-24))];
  [(24541417186311446, (-10)); (92360657928922973, (-17)); ((-10331854025175755), (-23)); ((-8702686320555183), (-24))];
  [(24740772320173183, (-10)); (65619780286479723, (-17)); ((-89622238360361524), (-23)); ((-75490248497097428), (-24))];
  [(24617794379283004, (-10)); (95247165801310152, (-17)); ((-4071020942272463), (-22)); ((-34290862200219241), (-24))];
  [(24558656856516907, (-10)); (71127308869558437, (-17)); ((-17187910468681588), (-23)); ((-1447765260235352), (-23))];
  [(24801125164560089, (-10)); (26279501535358873, (-17)); ((-11362539489027163), (-22)); ((-95708492141847337), (-24))];
  [(2488064171542224, (-9)); (60009529405580841, (-17)); ((-14525362427206368), (-22)); ((-12234945692063698), (-23))];
  [(24694273079646397, (-10)); (29400425542116615, (-17)); ((-71126204544177547), (-23)); ((-59910742622894745), (-24))];
  [(24602236376255429, (-10)); (10413763442679069, (-17)); ((-34518800055358329), (-23)); ((-29075738808518072), (-24))];
  [(2468057832833895, (-9)); (51266060574184491, (-17)); ((-65680128171140973), (-23)); ((-55323425164011279), (-24))];
  [(2473847087398659, (-9)); (28134477980318717, (-17)); ((-88705370942364231), (-23)); ((-7471795636860581), (-23))];
  [(24740273143358752, (-10)); (62862951659711819, (-17)); ((-89423586281965114), (-23)); ((-75322920666003643), (-24))];
  [(24732928322756495, (-10)); (35087946501648071, (-17)); ((-86501154935144143), (-23)); ((-72861309880294941), (-24))];
  [(24577320847170847, (-10)); (48989974358057065, (-17)); ((-24610439722048826), (-23)); ((-20729768015501828), (-24))];
  [(24773709181378665, (-10)); (28080800141730755, (-18)); ((-10272003685430705), (-22)); ((-86522734196653086), (-24))];
  [(24672517347570676, (-10)); (22323459440814175, (-17)); ((-62472805066341317), (-23)); ((-52621845482211066), (-24))];
  [(24684649314778382, (-10)); (45355009412460578, (-17)); ((-67299085924759762), (-23)); ((-56687099240478429), (-24))];
  [(24632381158473119, (-10)); (85124688170585983, (-17)); ((-46511547755814911), (-23)); ((-3917742250481456), (-23))];
  [(24535289174272101, (-10)); (53229438785297234, (-17)); ((-78929440498381388), (-24)); ((-66483533394932283), (-25))];
  [(24568162108507892, (-10)); (43426242754762179, (-17)); ((-20967424609637773), (-23)); ((-17661197969205984), (-24))];
  [(24764453091541328, (-10)); (48219732537465976, (-17)); ((-99040328809886753), (-23)); ((-83423257105340933), (-24))];
  [(24795518802963491, (-10)); (42040678951926569, (-17)); ((-11139614928558392), (-22)); ((-93830762822230524), (-24))];
  [(24861901704483875, (-10)); (27816612224179793, (-17)); ((-13779869780508558), (-22)); ((-11607005281496278), (-23))];
  [(24778929132726933, (-10)); (22280485356886537, (-18)); ((-10479619558338664), (-22)); ((-88271515986139777), (-24))];
  [(24648081723509673, (-10)); (29964912549840073, (-17)); ((-527540916073332), (-21)); ((-44435617292477547), (-24))];
  [(24840512749288827, (-10)); (25952913044424575, (-17)); ((-12929138740014388), (-22)); ((-10890420884297117), (-23))];
  [(24736423338393038, (-10)); (61168720125984111, (-17)); ((-87892298685513939), (-23)); ((-7403309256874259), (-23))];
  [(24679418669296349, (-10)); (67742992374878364, (-17)); ((-65219541103069865), (-23)); ((-5493546529088881), (-23))];
  [(24554985405328958, (-10)); (98899015755310282, (-17)); ((-15728733224724427), (-23)); ((-13248564211314683), (-24))];
  [(24557495804288033, (-10)); (53077945804335902, (-17)); ((-16725396027382003), (-23)); ((-14088069271854553), (-24))];
  [(24768800338703464, (-10)); (36225088580146725, (-18)); ((-10076762771342468), (-22)); ((-84878188669675916), (-24))];
  [(24564779690618236, (-10)); (70995736882253224, (-17)); ((-19623199335576067), (-23)); ((-1652893546570799), (-23))];
  [(24810100286201751, (-10)); (33409660656494955, (-17)); ((-11719544052971375), (-22)); ((-98715598830968616), (-24))];
  [(24597992774709086, (-10)); (27065105367142728, (-17)); ((-32831613607665529), (-23)); ((-27654594608959714), (-24))];
  [(24588149921578555, (-10)); (43084110212413018, (-17)); ((-28917357454246593), (-23)); ((-24357553884371233), (-24))];
  [(24807853446890614, (-10)); (75969448821814556, (-18)); ((-11630075669818684), (-22)); ((-97961992293083099), (-24))];
  [(24571808076766082, (-10)); (73214957407240278, (-17)); ((-22418755687554625), (-23)); ((-18883677408772858), (-24))];
  [(24824317331381636, (-10)); (64753197688692454, (-17)); ((-12285137024240424), (-22)); ((-10347967912291949), (-23))];
  [(24756606570923543, (-10)); (5970088116773391, (-16)); ((-95919912830496519), (-23)); ((-80794880688861394), (-24))];
  [(24713978486572159, (-10)); (2685875278871096, (-16)); ((-78963725773539133), (-23)); ((-66512412431974884), (-24))];
  [(24559684720505318, (-10)); (73737501879511846, (-17)); ((-17596836584258505), (-23)); ((-14822097626787407), (-24))];
  [(24827337922881115, (-10)); (51359924320640915, (-17)); ((-12405224664696664), (-22)); ((-1044911965749854), (-22))];
  [(24655398084517485, (-10)); (67714365533370713, (-17)); ((-55665600167428085), (-23)); ((-46888027639775898), (-24))];
  [(24690465095075592, (-10)); (90494802915964689, (-17)); ((-69614047930523995), (-23)); ((-58637028859216603), (-24))];
  [(24616939250164204, (-10)); (90810315023817789, (-17)); ((-4036991416615717), (-22)); ((-34004226048850551), (-24))];
  [(24767766868752008, (-10)); (11638767799728322, (-17)); ((-10035689454004239), (-22)); ((-84532221531475706), (-24))];
  [(245588036190964, (-8)); (99162618258625634, (-17)); ((-17247398846167014), (-23)); ((-14527760616627911), (-24))];
  [(24877264390934473, (-10)); (82637324482524033, (-18)); ((-14390827016217897), (-22)); ((-12121624358062396), (-23))];
  [(24603379436505032, (-10)); (15337287403870592, (-17)); ((-34973636305800238), (-23)); ((-29458854675734952), (-24))];
  [(24655958389172782, (-10)); (64441034173573042, (-17)); ((-55888325370535841), (-23)); ((-47075632649835623), (-24))];
  [(24561384044873621, (-10)); (71768676812786691, (-17)); ((-18272647013365185), (-23)); ((-15391343588097353), (-24))];
  [(24583559295953717, (-10)); (72822751006228059, (-17)); ((-27092666293079108), (-23)); ((-2282058725971355), (-23))];
  [(24829273088650121, (-10)); (74225936088086253, (-18)); ((-12482019130622233), (-22)); ((-10513804867575676), (-23))];
  [(24874804591684709, (-10)); (62718934450619512, (-17)); ((-14293207628560366), (-22)); ((-12039397982475007), (-23))];
  [(24851041928865504, (-10)); (8595211729344987, (-17)); ((-13347856957203433), (-22)); ((-11243113952938916), (-23))];
  [(24637403123660977, (-10)); (91630930265758359, (-17)); ((-48509241381257695), (-23)); ((-40860111879290644), (-24))];
  [(24725877272663396, (-10)); (88947712700425585, (-17)); ((-83698814716590017), (-23)); ((-70500853777631634), (-24))];
  [(24801217518304065, (-10)); (94078234566755603, (-17)); ((-11366482426387208), (-22)); ((-9574170413549578), (-23))];
  [(24710053098131008, (-10)); (22412014039028594, (-17)); ((-7740226615132457), (-22)); ((-65197169953593585), (-24))];
  [(24516636359379282, (-10)); (23358394614141786, (-17)); ((-47279126055652667), (-25)); ((-39823966015173475), (-26))];
  [(24669502710184334, (-10)); (65785531499656369, (-17)); ((-61275492804304575), (-23)); ((-51613330164546877), (-24))];
  [(24866552057329426, (-10)); (95322700352672318, (-17)); ((-13965101266091365), (-22)); ((-11763028732058937), (-23))];
  [(24545183184696622, (-10)); (50721242025520641, (-18)); ((-11826269221082326), (-23)); ((-99614562035747657), (-25))];
  [(24729660843817862, (-10)); (69252386945348643, (-17)); ((-85202907750316412), (-23)); ((-71767775458634607), (-24))];
  [(24647248680516887, (-10)); (13246620465168291, (-17)); ((-5242209239788628), (-22)); ((-44155969034628714), (-24))];
  [(24830924367368887, (-10)); (87871808434643683, (-17)); ((-12548017016638254), (-22)); ((-10569395945267794), (-23))];
  [(24558229268093389, (-10)); (78282118489507546, (-17)); ((-17018126159443716), (-23)); ((-14334640556127461), (-24))];
  [(24609580771830459, (-10)); (49200516014135409, (-17)); ((-37441500332877903), (-23)); ((-3153757611886662), (-23))];
  [(24798730218527308, (-10)); (56375983305148969, (-17)); ((-11267402686875027), (-22)); ((-94907139601777289), (-24))];
  [(24573099052056386, (-10)); (26079469737841221, (-17)); ((-22930353026046249), (-23)); ((-1931460405063932), (-23))];
  [(24830133430532347, (-10)); (69946858105201204, (-17)); ((-12516487025262455), (-22)); ((-10542837727936737), (-23))];
  [(24753757367604664, (-10)); (28200485553905952, (-17)); ((-94785418707339361), (-23)); ((-79839278096887871), (-24))];
  [(24692575589441345, (-10)); (98603106472214974, (-17)); ((-70453797791840532), (-23)); ((-59344363633107119), (-24))];
  [(24726096536404402, (-10)); (56328648672466597, (-17)); ((-83784727218007), (-20)); ((-70573219255214289), (-24))];
  [(24878105228753816, (-10)); (82204956896440595, (-17)); ((-14424564566657971), (-22)); ((-12150042037792329), (-23))];
  [(24838655435166992, (-10)); (4179938184517562, (-16)); ((-12855329014537143), (-22)); ((-10828249768961037), (-23))];
  [(24769248597435593, (-10)); (37480517520806256, (-17)); ((-10094726466721333), (-22)); ((-85029499756397944), (-24))];
  [(24578617169241877, (-10)); (3495256626034936, (-16)); ((-25125480129387223), (-23)); ((-21163594809468826), (-24))];
  [(24750359754177728, (-10)); (16962346972065956, (-17)); ((-93433606031526782), (-23)); ((-78700624603228288), (-24))];
  [(24626506571189766, (-10)); (89001250897033291, (-17)); ((-4417514545297438), (-22)); ((-37209433380045825), (-24))];
  [(24634512884187098, (-10)); (27051421036479817, (-17)); ((-47357109863162912), (-23)); ((-39889653026738925), (-24))];
  [(24569589402828244, (-10)); (50358987936654909, (-17)); ((-215353919442347), (-21)); ((-18139605962705949), (-24))];
  [(24744220595090808, (-10)); (54222511882216751, (-17)); ((-90993300821505039), (-23)); ((-76645116393618784), (-24))];
  [(24788096438246639, (-10)); (43280274641039618, (-17)); ((-10844402959295283), (-22)); ((-91344145066782219), (-24))];
  [(2467480233576356, (-9)); (4368545401449021, (-16)); ((-63382485199190863), (-23)); ((-53388083645171944), (-24))];
  [(24591229754718477, (-10)); (35736359258332051, (-17)); ((-30142037064569531), (-23)); ((-25389121158342558), (-24))];
  [(24805085374274282, (-10)); (60770915383656454, (-17)); ((-11520189931057651), (-22)); ((-97036407094909092), (-24))];
  [(24577461626789765, (-10)); (39061666104096315, (-17)); ((-24666038474958533), (-23)); ((-20776599736624505), (-24))];
  [(24863833469189932, (-10)); (69914509252504919, (-17)); ((-13856871168906742), (-22)); ((-11671864785690176), (-23))];
  [(24582516755076074, (-10)); (17555091417956559, (-17)); ((-26675808199807085), (-23)); ((-22469461003274847), (-24))];
  [(2463274825408705, (-9)); (84344617459377946, (-17)); ((-46657525222753213), (-23)); ((-39300381666020054), (-24))];
  [(24730656593229398, (-10)); (94305414760038231, (-17)); ((-85599953264840874), (-23)); ((-72102213262292114), (-24))];
  [(24598504288151432, (-10)); (18593744691344549, (-17)); ((-33034725862903038), (-23)); ((-27825679318527369), (-24))];
  [(24518893855518652, (-10)); (42094991961389017, (-17)); ((-13714322902655931), (-24)); ((-1155179409521227), (-24))];
  [(24606851874342915, (-10)); (64712117070819186, (-17)); ((-36356726466716592), (-23)); ((-30623853696643637), (-24))];
  [(24529353383700284, (-10)); (4122060566492336, (-16)); ((-55315669451580774), (-24)); ((-46593275386547596), (-25))];
  [(24522604021561849, (-10)); (41342785478089616, (-17)); ((-28470826412662886), (-24)); ((-23981433627752752), (-25))];
  [(24599489283652497, (-10)); (41210746152547506, (-17)); ((-33427397230040621), (-23)); ((-28156432707699822), (-24))];
  [(24573245217636614, (-10)); (52553206434836763, (-17)); ((-2298954184328973), (-22)); ((-1936445974051836), (-23))];
  [(2474945443798699, (-9)); (49144871928639811, (-18)); ((-93073046664798997), (-23)); ((-78396919666928961), (-24))];
  [(24766301024664058, (-10)); (95223482576558338, (-17)); ((-99777194671657916), (-23)); ((-84043931036630928), (-24))];
  [(2459143379186125, (-9)); (13222864429504588, (-17)); ((-30222295282208309), (-23)); ((-25456723942030288), (-24))];
  [(24704208071212433, (-10)); (19997951041319961, (-18)); ((-75076655117392845), (-23)); ((-63238270487668777), (-24))];
  [(24654548999875463, (-10)); (16714914558471727, (-17)); ((-55325857059754968), (-23)); ((-46601856572274825), (-24))];
  [(24622897652524812, (-10)); (29369676432314251, (-18)); ((-42736312165873279), (-23)); ((-35997481030089819), (-24))];
  [(24591928688936345, (-10)); (37542650444679571, (-17)); ((-30420102782819933), (-23)); ((-25623340371712832), (-24))];
  [(24839709238899713, (-10)); (65164294259754973, (-17)); ((-12897335902420439), (-22)); ((-10863632844221318), (-23))];
  [(24527727786613624, (-10)); (69030126298636085, (-17)); ((-48861085687555815), (-24)); ((-41156475980440798), (-25))];
  [(24583275238213548, (-10)); (87296360228100522, (-17)); ((-26980260930170761), (-23)); ((-22725906420073749), (-24))];
  [(24754262690682481, (-10)); (59133349245583433, (-17)); ((-94987636071320525), (-23)); ((-80009609025200392), (-24))];
  [(24871390015255776, (-10)); (19639472912758704, (-17)); ((-14157225029496598), (-22)); ((-1192485765875168), (-22))];
  [(24632108823255422, (-10)); (37455609794347478, (-18)); ((-46399992461580541), (-23)); ((-39083457691650017), (-24))];
  [(24738099937680243, (-10)); (58605913913795527, (-17)); ((-88559046823060332), (-23)); ((-7459470521655406), (-23))];
  [(24721064614430848, (-10)); (53452230149486935, (-17)); ((-81783217756256622), (-23)); ((-68887315740627958), (-24))];
  [(24718598195183985, (-10)); (73330481720484508, (-17)); ((-80803015581594244), (-23)); ((-68061675731000779), (-24))];
  [(2451770512532135, (-9)); (84835758088542101, (-17)); ((-90032708722919872), (-25)); ((-75835994265526351), (-26))];
  [(24710881740986998, (-10)); (77828692110412534, (-17)); ((-77734054440133815), (-23)); ((-65476640549607124), (-24))];
  [(24852667495401269, (-10)); (44077138318393194, (-17)); ((-13412653314915422), (-22)); ((-11297692964073593), (-23))];
  [(24704896000386793, (-10)); (1899536219255249, (-17)); ((-75350267862054612), (-23)); ((-63468738889980244), (-24))];
  [(24570630669472767, (-10)); (14850178327913266, (-17)); ((-21948132684011761), (-23)); ((-18487264106272542), (-24))];
  [(24786250557135246, (-10)); (38520288160315741, (-17)); ((-10770966009963833), (-22)); ((-90725573866673485), (-24))];
  [(24811872523078364, (-10)); (36275170404976165, (-17)); ((-11790044343750806), (-22)); ((-99309434085189497), (-24))];
  [(24613154395316374, (-10)); (71404041443873079, (-17)); ((-38863755330861691), (-23)); ((-32735564310060033), (-24))];
  [(24673726451084614, (-10)); (29626817129868555, (-17)); ((-6295400399929503), (-22)); ((-53027167059643123), (-24))];
  [(24799948331215954, (-10)); (5514090347752415, (-16)); ((-11315846950046114), (-22)); ((-9531519339868642), (-23))];
  [(24840982707802551, (-10)); (42371198301256241, (-18)); ((-12947744482756558), (-22)); ((-10906092799758902), (-23))];
  [(24866437986397571, (-10)); (63228506070335533, (-17)); ((-13960436561106672), (-22)); ((-11759099576250037), (-23))];
  [(2464608289655563, (-9)); (78088072595940394, (-17)); ((-51960992855507666), (-23)); ((-43767577496179314), (-24))];
  [(2459907219041748, (-9)); (47534724958710151, (-17)); ((-33261754228321346), (-23)); ((-28016908951204096), (-24))];
  [(24684391494098622, (-10)); (31290542593517401, (-17)); ((-6719598100943061), (-22)); ((-56600252316970745), (-24))];
  [(24852360477488628, (-10)); (86718399902622945, (-17)); ((-13400611595381907), (-22)); ((-11287550030617029), (-23))];
  [(24587175942577808, (-10)); (40577699982347359, (-17)); ((-28529867664482909), (-23)); ((-24031165020909344), (-24))];
  [(24877921739461613, (-10)); (58586542243588102, (-17)); ((-14417172529542182), (-22)); ((-12143815606395616), (-23))];
  [(24669159053960755, (-10)); (41347988714278772, (-17)); ((-61137835108513604), (-23)); ((-51497378879989427), (-24))];
  [(24842604747049198, (-10)); (38290505227359617, (-17)); ((-13012394864307495), (-22)); ((-10960548852832341), (-23))];
  [(24652790360258417, (-10)); (31772213420542494, (-17)); ((-54626975182906296), (-23)); ((-46013177160572496), (-24))];
  [(2481208852869228, (-9)); (48676460879675931, (-17)); ((-11798685069064282), (-22)); ((-99382216300077567), (-24))];
  [(24622227330777575, (-10)); (74606712462134939, (-17)); ((-42472549196180937), (-23)); ((-35775309251179935), (-24))];
  [(2484868749653148, (-9)); (94798253578430614, (-17)); ((-13254554703679715), (-22)); ((-11164523968659302), (-23))];
  [(24591427090367735, (-10)); (47823027478802893, (-17)); ((-30221006018087527), (-23)); ((-25455637974187525), (-24))];
  [(24815942613993725, (-10)); (41233214579183053, (-17)); ((-11951947731272002), (-22)); ((-10067317228009521), (-23))];
  [(24638707025948199, (-10)); (49613373668701544, (-17)); ((-49026183859846112), (-23)); ((-4129554081837196), (-23))];
  [(2457379463027861, (-9)); (58932433739534495, (-17)); ((-23208318781032888), (-23)); ((-19548739063349576), (-24))];
  [(24569305225272691, (-10)); (49521974300684624, (-17)); ((-21422329961763432), (-23)); ((-18044372041879157), (-24))];
  [(24686839890490184, (-10)); (90063589633154828, (-17)); ((-6817214305358721), (-22)); ((-57422489259887903), (-24))];
  [(24601311759255864, (-10)); (48505357195941834, (-17)); ((-34152558236068397), (-23)); ((-28767247451305399), (-24))];
  [(24575064091152074, (-10)); (64586049528987632, (-17)); ((-23713458614303612), (-23)); ((-1997422644501996), (-23))];
  [(24815800968462969, (-10)); (76523233774300725, (-17)); ((-1194645428881994), (-21)); ((-10062690013342741), (-23))];
  [(24639320857324922, (-10)); (40597981669484473, (-17)); ((-49269970379675047), (-23)); ((-41500886113232038), (-24))];
  [(24551297325937939, (-10)); (9562562309128344, (-16)); ((-14261707497725938), (-23)); ((-12012864917156771), (-24))];
  [(24535345913642882, (-10)); (32727832290920567, (-17)); ((-79146961189886051), (-24)); ((-66666754561412438), (-25))];
  [(24629582649913621, (-10)); (22268931243730483, (-17)); ((-45395969823079608), (-23)); ((-38237753323361563), (-24))];
  [(24705791347157806, (-10)); (80417563695813543, (-17)); ((-75709505777281093), (-23)); ((-63771330746490059), (-24))];
  [(24593488463258971, (-10)); (25866994462399118, (-17)); ((-31040022541684624), (-23)); ((-26145508725250117), (-24))];
  [(24810979861328416, (-10)); (10178660823713048, (-17)); ((-11754435847350665), (-22)); ((-99009498010055317), (-24))];
  [(24655828426486813, (-10)); (69482542906888567, (-17)); ((-55836834573708465), (-23)); ((-4703226112599371), (-23))];
  [(24683817082563709, (-10)); (91140372169076, (-15)); ((-66966632699481632), (-23)); ((-56407068557814658), (-24))];
  [(24681742930200035, (-10)); (18415797661789957, (-17)); ((-66142029961919514), (-23)); ((-55712492449152284), (-24))];
  [(24668526615226595, (-10)); (64723504320117198, (-18)); ((-60884901983768143), (-23)); ((-51284329253138926), (-24))];
  [(2452197640985663, (-9)); (28361841532232313, (-17)); ((-25969402563665948), (-24)); ((-21874444208474171), (-25))];
  [(24668342661404479, (-10)); (74558276593106443, (-17)); ((-60814444296182689), (-23)); ((-51224981613070279), (-24))];
  [(24529427155778646, (-10)); (11743727306562801, (-17)); ((-555973661585811), (-22)); ((-4683055303996619), (-24))];
  [(24639562013847851, (-10)); (4701759298002216, (-16)); ((-49366143232292855), (-23)); ((-41581894049159742), (-24))];
  [(24731090724775665, (-10)); (31942184485394631, (-17)); ((-85770144175674611), (-23)); ((-72245567795562383), (-24))];
  [(24711075972233615, (-10)); (32413312742022982, (-17)); ((-77809501564903215), (-23)); ((-65540190872623286), (-24))];
  [(24518186234018207, (-10)); (49293608531195177, (-17)); ((-10902694559054482), (-24)); ((-91835144558830343), (-26))];
  [(24754293157394622, (-10)); (38613656161582055, (-17)); ((-9499893774215266), (-22)); ((-80019128603768828), (-24))];
  [(24523910281664394, (-10)); (68850119786514208, (-17)); ((-33677281973889503), (-24)); ((-28366914634439213), (-25))];
  [(24851146966113723, (-10)); (2905879584771377, (-16)); ((-13352116097188633), (-22)); ((-11246701494845356), (-23))];
  [(24747066200938723, (-10)); (4788264970346936, (-16)); ((-92124859030480728), (-23)); ((-77598246017998772), (-24))];
  [(246856438108879, (-8)); (63003982903487599, (-17)); ((-67695338462713062), (-23)); ((-57020869107254375), (-24))];
  [(24533269251252986, (-10)); (21155781104129445, (-17)); ((-70882648100659338), (-24)); ((-59705591125000542), (-25))];
  [(24744038615593896, (-10)); (21227263985744538, (-17)); ((-90919608001980086), (-23)); ((-76583043750040954), (-24))];
  [(24581163741346705, (-10)); (88474565532410021, (-17)); ((-26140481695697068), (-23)); ((-22018546904701949), (-24))];
  [(24781992188280914, (-10)); (39317843160673427, (-17)); ((-10601596953951422), (-22)); ((-8929895114891835), (-23))];
  [(24636323640935188, (-10)); (50010536569712105, (-18)); ((-48076442649153072), (-23)); ((-4049555856714912), (-23))];
  [(24728415100483075, (-10)); (13012924491283551, (-18)); ((-84704723505433159), (-23)); ((-71348146880598452), (-24))];
  [(24601186097781081, (-10)); (26191432430921235, (-17)); ((-34101690167471558), (-23)); ((-28724400461437743), (-24))];
  [(2485576650412119, (-9)); (96072358236793753, (-17)); ((-13536119995405246), (-22)); ((-11401690928884644), (-23))];
  [(24588768539118869, (-10)); (50136734232054503, (-17)); ((-2916368671003085), (-22)); ((-24565040966500203), (-24))];
  [(24569791249894518, (-10)); (99695006820062093, (-17)); ((-21617636821826184), (-23)); ((-18208882141928678), (-24))];
  [(24805335352243935, (-10)); (10442348157981862, (-17)); ((-11529932370236631), (-22)); ((-97118469222350242), (-24))];
  [(24577749585779952, (-10)); (82970284706143294, (-17)); ((-24782317612699775), (-23)); ((-20874543518923485), (-24))];
  [(24778645037147752, (-10)); (89232009224541509, (-17)); ((-10468665999030809), (-22)); ((-88179252399645443), (-24))];
  [(24553822987489426, (-10)); (26743407263192509, (-17)); ((-15263523605777646), (-23)); ((-128567106894653), (-22))];
  [(24732293812819486, (-10)); (27251896546453203, (-17)); ((-86248473482563626), (-23)); ((-72648472240944618), (-24))];
  [(24601918887482155, (-10)); (10573098757045096, (-17)); ((-3439252850843219), (-22)); ((-2896937825973063), (-23))];
  [(24802095391955972, (-10)); (54111151674307079, (-17)); ((-11401239980319407), (-22)); ((-96034472585770654), (-24))];
  [(24563459724864117, (-10)); (4848117489473508, (-16)); ((-19097301080297255), (-23)); ((-1608596293231112), (-23))];
  [(24797767758959299, (-10)); (37563034447503063, (-17)); ((-11229047023877075), (-22)); ((-94584063701871285), (-24))];
  [(24790085396849853, (-10)); (70666771281819496, (-17)); ((-10923620662873686), (-22)); ((-92011408486878628), (-24))];
  [(24554972290420989, (-10)); (17911753858945301, (-17)); ((-15720295720579514), (-23)); ((-13241457166274883), (-24))];
  [(24644832450908977, (-10)); (74866108584514535, (-17)); ((-51463512848979052), (-23)); ((-43348542109402007), (-24))];
  [(24842013018890414, (-10)); (7126035139680954, (-16)); ((-1298899062138648), (-21)); ((-10940835083724168), (-23))];
  [(24824750541293686, (-10)); (17807502356410809, (-17)); ((-12302180779928335), (-22)); ((-10362324141010884), (-23))];
  [(24573195045627574, (-10)); (73368020427723979, (-17)); ((-22970414332027461), (-23)); ((-19348348331065343), (-24))];
  [(24733892192055746, (-10)); (78830398899023224, (-17)); ((-86886263816467967), (-23)); ((-7318569326639917), (-23))];
  [(24872967077104291, (-10)); (87345704075309716, (-17)); ((-14220220332158302), (-22)); ((-1197791961233691), (-22))];
  [(24726119352541096, (-10)); (19520876323471559, (-17)); ((-8379233810982939), (-22)); ((-70579630031439807), (-24))];
  [(24560054118109616, (-10)); (81035568724062856, (-17)); ((-17744050943705328), (-23)); ((-14946098642386867), (-24))];
  [(24622995015662895, (-10)); (17956470924194179, (-17)); ((-42775634734886433), (-23)); ((-36030603060521724), (-24))];
  [(2466728682635237, (-9)); (35062655660565545, (-17)); ((-60392925898727682), (-23)); ((-50869929907688519), (-24))];
  [(24531633550814362, (-10)); (56387109521069811, (-17)); ((-64390831243956083), (-24)); ((-54237429687884243), (-25))];
  [(2485273187086999, (-9)); (34066187026135752, (-17)); ((-13415173965247386), (-22)); ((-11299816148267779), (-23))];
  [(24562493084350079, (-10)); (95563223958422749, (-17)); ((-18714702427730218), (-23)); ((-15763693952141186), (-24))];
  [(24601531630231766, (-10)); (52551447750836888, (-17)); ((-34240170577600403), (-23)); ((-28841044731474523), (-24))];
  [(24689536233419487, (-10)); (93294174639686811, (-18)); ((-69241374519562578), (-23)); ((-5832312006920605), (-23))];
  [(24617594586801692, (-10)); (46745791825593419, (-17)); ((-4062881493224678), (-22)); ((-342223023156986), (-22))];
  [(24654780371032557, (-10)); (24381559164280131, (-17)); ((-55418187483521654), (-23)); ((-4667962796876644), (-23))];
  [(24733595263236468, (-10)); (32547205441162597, (-17)); ((-86766322575473852), (-23)); ((-73084664835807095), (-24))];
  [(24658565132339471, (-10)); (24074070385171065, (-17)); ((-56923525019321399), (-23)); ((-47947597913821853), (-24))];
  [(24847158572159843, (-10)); (45946168369789853, (-17)); ((-13193549009922221), (-22)); ((-11113137894558213), (-23))];
  [(24614810838197377, (-10)); (6492341452786734, (-16)); ((-39522330638500119), (-23)); ((-3329029285218565), (-23))];
  [(24681611324809655, (-10)); (56139853539051809, (-17)); ((-66091185710956193), (-23)); ((-55669665521259275), (-24))]
].

