(** The coefficient table of /repo/src/fastest_coeffs.h:23-2494, copied digit for digit: (m, k) stands for the decimal m / 10^k.
    Generated once by a script from the C source; the number of entries and the increment are as declared there. *)
From Coq Require Import ZArith List.
Import ListNotations.
Local Open Scope Z_scope.

Definition fast_increment : Z := 128.
Definition fast_0 : list (Z * Z) := [
(831472372954840555082,21);
(831414005540308198583,21);
(831238918266223869580,21);
(830947156036480505392,21);
(830538793675450581766,21);
(830013935904800659316,21);
(829372717311066987023,21);
(828615302303967515840,21);
(827741885065490623496,21);
(826752689489751890761,21);
(825647969113678215081,21);
(824428007038499943704,21);
(823093115842108757896,21);
(821643637482293187624,21);
(820079943190897053817,21);
(818402433358933589780,21);
(816611537412689103554,21);
(814707713680854150873,21);
(812691449252757824873,21);
(810563259827706050764,21);
(808323689555523805517,21);
(805973310868314363198,21);
(803512724303517833491,21);
(800942558318331943035,21);
(798263469095534694553,21);
(795476140340800830231,21);
(792581283071560838138,21);
(789579635397499868255,21);
(786471962292734527722,21);
(783259055359786127148,21);
(779941732585400893107,21);
(776520838088307852054,21);
(772997241859018080490,21);
(769371839491718167992,21);
(765645551908390675777,21);
(761819325075220210586,21);
(757894129711408459649,21);
(753870960990470018181,21);
(749750838234153449413,21);
(745534804599028211314,21);
(741223926755909090502,21);
(736819294562192195208,21);
(732322020727209643809,21);
(727733240470738174110,21);
(723054111174766811487,21);
(718285812028632841830,21);
(713429543667664534112,21);
(708486527805442301009,21);
(703458006859804640953,21);
(698345243572719653891,21);
(693149520624175785599,21);
(687872140240182283755,21);
(682514423795047564525,21);
(677077711408058502407,21);
(671563361534684655219,21);
(665972750552474845875,21);
(660307272341742135247,21);
(654568337861228477514,21);
(648757374718860524432,21);
(642875826737744904271,21);
(636925153517562181449,21);
(630906829991492501541,21);
(624822345978837789815,21);
(618673205733470954470,21)].
Definition fast_1 : list (Z * Z) := [
(612460927488293727095,21);
(606187042995817604307,21);
(599853097065060292259,21);
(593460647094893878339,21);
(587011262603992944875,21);
(580506524757569142281,21);
(573948025891025337408,21);
(567337369030688098981,21);
(560676167411809700525,21);
(553966043993961543279,21);
(547208630974010734604,21);
(540405569296826038261,21);
(533558508163880174102,21);
(526669104539922661168,21);
(519739022657876970079,21);
(512769933522119303326,21);
(505763514410336290084,21);
(498721448374081555155,21);
(491645423738241937883,21);
(484537133599546865348,21);
(477398275324308896117,21);
(470230550045545592219,21);
(463035662159660077464,21);
(455815318822846149427,21);
(448571229447379538069,21);
(441305105197960123586,21);
(434018658488283970431,21);
(426713602477997000495,21);
(419391650570203500248,21);
(412054515909689722530,21);
(404703910882034223473,21);
(397341546613763640927,21);
(389969132473721613596,21);
(382588375575806771689,21);
(375200980283257823356,21);
(367808647714624070701,21);
(360413075251609871241,21);
(353015956048925771960,21);
(345618978546330835044,21);
(338223825983006376461,21);
(330832175914426429575,21);
(323445699731881031180,21);
(316066062184803764357,21);
(308694920906066150312,21);
(301333925940378832831,21);
(293984719275965256102,21);
(286648934379644393378,21);
(279328195735489559492,21);
(272024118387182545220,21);
(264738307484245039003,21);
(257472357832259801658,21);
(250227853447243409057,21);
(243006367114305704691,21);
(235809459950733935063,21);
(228638680973647728800,21);
(221495566672345989279,21);
(214381640585498134399,21);
(207298412883298144305,21);
(200247379954717363848,21);
(193230023999986955108,21);
(186247812628430653437,21);
(179302198461779749294,21);
(172394618743085786816,21);
(165526494951356295537,21)].
Definition fast_2 : list (Z * Z) := [
(158699232422028796430,21);
(151914219973401071195,21);
(145172829539132269838,21);
(138476415806921215879,21);
(131826315863480453272,21);
(125223848845901208904,21);
(118670315599523901184,21);
(112166998342411894374,21);
(105715160336527447260,21);
(993160455657086521652,22);
(929708784205405536216,22);
(866808633902153846673,22);
(804471847614677826321,22);
(742710063246745516574,22);
(681534710872001986415,22);
(620957009940759641076,22);
(560987966560835549235,22);
(501638370853247708703,22);
(442918794383505357026,22);
(384839587669171534490,22);
(327410877764400740086,22);
(270642565922108620236,22);
(214544325334371267788,22);
(159125598951669576520,22);
(104395597381551803740,22);
(503632968672305773861,23);
(-296256265336385191805,24);
(-555734794075828358179,23);
(-107461191566687631893,22);
(-158617678942645466689,22);
(-209035164602743607498,22);
(-258706116401622790435,22);
(-307623248430414844568,22);
(-355779522382659724178,22);
(-403168148836769782428,22);
(-449782588454727128013,22);
(-495616553096875425699,22);
(-540664006852556791594,22);
(-584919166986474642345,22);
(-628376504800633867154,22);
(-671030746411782619276,22);
(-712876873444269476554,22);
(-753910123638282386738,22);
(-794125991373483691715,22);
(-833520228108008270906,22);
(-872088842732959695914,22);
(-909828101842390379872,22);
(-946734529918955292072,22);
(-982804909435327500589,22);
(-101803628087157427284,21);
(-105242594264867719844,21);
(-108597145097841310535,21);
(-111867061962988789681,21);
(-115052151961296145188,21);
(-118152247877890054228,21);
(-121167208133862752684,21);
(-124096916729885473063,21);
(-126941283181660202750,21);
(-129700242447243679900,21);
(-132373754846295377252,21);
(-134961805971292009287,21);
(-137464406590764143257,21);
(-139881592544604443917,21);
(-142213424631507739937,21)].
Definition fast_3 : list (Z * Z) := [
(-144459988488595730827,21);
(-146621394463294696386,21);
(-148697777477524800682,21);
(-150689296884269657850,21);
(-152596136316595465399,21);
(-154418503529190731527,21);
(-156156630232500315270,21);
(-157810771919529219121,21);
(-159381207685401427021,21);
(-160868240039743037872,21);
(-162272194711985145998,21);
(-163593420449666626659,21);
(-164832288809824062392,21);
(-165989193943563151379,21);
(-167064552373901109572,21);
(-168058802766975601273,21);
(-168972405696717037360,21);
(-169805843403086798027,21);
(-170559619543971530131,21);
(-171234258940853617537,21);
(-171830307318344255307,21);
(-172348331037702334756,21);
(-172788916824434257702,21);
(-173152671490098081231,21);
(-173440221648409775845,21);
(-173652213425782242506,21);
(-173789312166397952319,21);
(-173852202131942051855,21);
(-173841586196111674845,21);
(-173758185534021086793,21);
(-173602739306629005878,21);
(-173376004340306061335,21);
(-173078754801670009478,21);
(-172711781867818603420,21);
(-172275893392080048372,21);
(-171771913565416961545,21);
(-171200682573611373538,21);
(-170563056250360139954,21);
(-169859905726417126370,21);
(-169092117074913228514,21);
(-168260590952989147473,21);
(-167366242239875284703,21);
(-166409999671557895518,21);
(-165392805472166642966,21);
(-164315614982222552021,21);
(-163179396283883837437,21);
(-161985129823331186483,21);
(-160733808030429803360,21);
(-159426434935813571281,21);
(-158064025785527417778,21);
(-156647606653372045704,21);
(-155178214051094831571,21);
(-153656894536566474008,21);
(-152084704320088470730,21);
(-150462708868975059140,21);
(-148791982510548842500,21);
(-147073608033699704256,21);
(-145308676289147314931,21);
(-143498285788550977715,21);
(-141643542302611558092,21);
(-139745558458309881988,21);
(-137805453335422323224,21);
(-135824352062461073398,21);
(-133803385412180564362,21)].
Definition fast_4 : list (Z * Z) := [
(-131743689396791985313,21);
(-129646404863030306753,21);
(-127512677087215337002,21);
(-125343655370452389253,21);
(-123140492634104758984,21);
(-120904345015691472298,21);
(-118636371465341922127,21);
(-116337733342949820048,21);
(-114009594016166518338,21);
(-111653118459372716065,21);
(-109269472853762789066,21);
(-106859824188683741331,21);
(-104425339864360325337,21);
(-101967187296145456177,21);
(-994865335204263567803,22);
(-969845448023236023083,22);
(-944623862453117940641,22);
(-919212214028948121358,22);
(-893622118924671249296,22);
(-867865170114848205607,22);
(-841952933560805999447,22);
(-815896944422443981537,22);
(-789708703296961439522,22);
(-763399672485739477779,22);
(-736981272290610500697,22);
(-710464877340710454501,22);
(-683861812951113146042,22);
(-657183351514422919859,22);
(-630440708926501142129,22);
(-603645041047437408421,22);
(-576807440198948140342,22);
(-549938931699267691267,22);
(-523050470436661057994,22);
(-496152937482609926456,22);
(-469257136745778041798,22);
(-442373791667729082677,22);
(-415513541961495605492,22);
(-388686940393953503370,22);
(-361904449613011935938,22);
(-335176439020573244121,22);
(-308513181692228674602,22);
(-281924851344595717162,22);
(-255421519351213023585,22);
(-229013151807887539724,22);
(-202709606648342685609,22);
(-176520630811025022733,22);
(-150455857457888787787,22);
(-124524803245954687053,22);
(-987368656524285036313,23);
(-731013203541311037958,23);
(-476273186619807602227,23);
(-223238850112297869746,23);
(280008549183706099625,24);
(277358294660976899965,23);
(524747175940274562800,23);
(770082569017439908660,23);
(101328092980087648006,22);
(125426012146140665460,22);
(149293943544662570388,22);
(172923961188884665885,22);
(196308285940195309527,22);
(219439287426209730936,22);
(242309485896793734561,22);
(264911554017603391442,22)].
Definition fast_5 : list (Z * Z) := [
(287238318600733545660,22);
(309282762272103349532,22);
(331038025075217068327,22);
(352497406010981520486,22);
(373654364513253609004,22);
(394502521859858221176,22);
(415035662518817155542,22);
(435247735429537541130,22);
(455132855218787699125,22);
(474685303351244439196,22);
(493899529214478216765,22);
(512770151138242716304,22);
(531291957347935772660,22);
(549459906852194576721,22);
(567269130264521220797,22);
(584714930558940249039,22);
(601792783759655322551,22);
(618498339564735599705,22);
(634827421903864652641,22);
(650776029430226859995,22);
(666340335946605799577,22);
(681516690765814614483,22);
(696301619005592065115,22);
(710691821818139612965,22);
(724684176554465098175,22);
(738275736863740761340,22);
(751463732727930683319,22);
(764245570431912463194,22);
(776618832469397474272,22);
(788581277384926976337,22);
(800130839552289779837,22);
(811265628889681067459,22);
(821983930512013155623,22);
(832284204320703352442,22);
(842165084531432683868,22);
(851625379140240473808,22);
(860664069328434949702,22);
(869280308806818224898,22);
(877473423099686122839,22);
(885242908769151987114,22);
(892588432580306151420,22);
(899509830607803234637,22);
(906007107284422380511,22);
(912080434392217309636,22);
(917730149996878741270,22);
(922956757325926607782,22);
(927760923591415126443,22);
(932143478757788968014,22);
(936105414255621187669,22);
(939647881641913207407,22);
(942772191207702781046,22);
(945479810533706027664,22);
(947772362994778183598,22);
(949651626213951355338,22);
(951119530466846413441,22);
(952178157037280176178,22);
(952829736524876819148,22);
(953076647105531166160,22);
(952921412745576373871,22);
(952366701370536278271,22);
(951415322989309503177,22);
(950070227774735681647,22);
(948334504101390751707,22);
(946211376541590265532,22)].
Definition fast_6 : list (Z * Z) := [
(943704203820504156086,22);
(940816476731309581094,22);
(937551816011396865758,22);
(933913970180541563870,22);
(929906813342047527948,22);
(925534342947849225647,22);
(920800677528557931506,22);
(915710054389489019888,22);
(910266827273659706599,22);
(904475463992783224043,22);
(898340544027328158361,22);
(891866756096650198371,22);
(885058895700238101867,22);
(877921862631190763615,22);
(870460658462897246546,22);
(862680384010083983748,22);
(854586236765221690659,22);
(846183508311429133375,22);
(837477581712920277068,22);
(828473928884114751980,22);
(819178107938471483651,22);
(809595760518180135312,22);
(799732609105757996648,22);
(789594454318716387764,22);
(779187172188340326784,22);
(768516711423724852015,22);
(757589090662164482692,22);
(746410395707000073884,22);
(734986776754032733461,22);
(723324445607601979047,22);
(711429672887474440213,22);
(699308785227581580779,22);
(686968162467783832748,22);
(674414234839716131287,22);
(661653480147834510694,22);
(648692420946761771905,22);
(635537621716019962559,22);
(622195686033254202751,22);
(608673253747022482973,22);
(594976998150253330588,22);
(581113623155428762890,22);
(567089860472591994478,22);
(552912466791220663653,22);
(538588220967053943333,22);
(524123921214928872869,22);
(509526382308646275110,22);
(494802432788957607945,22);
(479958912180662375380,22);
(465002668219884549017,22);
(449940554092515265783,22);
(434779425684853407241,22);
(419526138847447563340,22);
(404187546673120054463,22);
(388770496790168534895,22);
(373281828671714888124,22);
(357728370962169389680,22);
(342116938821758476141,22);
(326454331290065291604,22);
(310747328669506231447,22);
(295002689929673225788,22);
(279227150133440210622,22);
(263427417885741359249,22);
(247610172805882329528,22);
(231782063024293799591,22)].
Definition fast_7 : list (Z * Z) := [
(215949702704538760989,22);
(200119669591453143431,22);
(184298502586232419709,22);
(168492699349288496680,22);
(152708713931675090641,22);
(136952954435869880129,22);
(121231780706691841254,22);
(105551502053105091677,22);
(899183750016553651196,23);
(743386010822696258193,23);
(588183246471273707412,23);
(433636307232945251988,23);
(279805428998205086427,23);
(126750212499337003291,23);
(-254703971099550386531,24);
(-176798130311027175757,23);
(-327175412906725469539,23);
(-476545385331804925710,23);
(-624851921581533794464,23);
(-772039647752874400727,23);
(-918053960192777122884,23);
(-106284104324833178490,22);
(-120634788661366718077,22);
(-134852230226875247771,22);
(-148931294100519973078,22);
(-162866930853476296615,22);
(-176654178117594401476,22);
(-190288162111466874205,22);
(-203764099123495759369,22);
(-217077296951579609696,22);
(-230223156299061669505,22);
(-243197172126588360974,22);
(-255994934959561624976,22);
(-268612132150869431513,22);
(-281044549098614510063,22);
(-293288070418574950415,22);
(-305338681071131295974,22);
(-317192467442452205595,22);
(-328845618379712614776,22);
(-340294426180154721551,22);
(-351535287533818185945,22);
(-362564704419792716017,22);
(-373379284955845242022,22);
(-383975744201309962533,22);
(-394350904913155775322,22);
(-404501698255130062720,22);
(-414425164459938585870,22);
(-424118453444415760556,22);
(-433578825377650758921,22);
(-442803651202084772032,22);
(-451790413107587551789,22);
(-460536704958539877541,22);
(-469040232673985507672,22);
(-477298814560914094751,22);
(-485310381600771723054,22);
(-493072977689298017068,22);
(-500584759829825892696,22);
(-507843998280173986037,22);
(-514849076653303427964,22);
(-521598491971914657306,22);
(-528090854677170859488,22);
(-534324888591782357072,22);
(-540299430837655400572,22);
(-546013431708381041796,22)].
Definition fast_8 : list (Z * Z) := [
(-551465954496810906171,22);
(-556656175277993395256,22);
(-561583382647804357779,22);
(-566246977417538960298,22);
(-570646472264832865795,22);
(-574781491341238848225,22);
(-578651769836829588112,22);
(-582257153502198851469,22);
(-585597598128258789441,22);
(-588673168984241990120,22);
(-591484040214318093631,22);
(-594030494193287308957,22);
(-596312920841784027681,22);
(-598331816901454746627,22);
(-600087785170606569096,22);
(-601581533700810480725,22);
(-602813874954959694197,22);
(-603785724927326447609,22);
(-604498102226119424230,22);
(-604952127119116611631,22);
(-605149020542914278797,22);
(-605090103076376881197,22);
(-604776793878847099273,22);
(-604210609593744951695,22);
(-603393163218124903291,22);
(-602326162938837256222,22);
(-601011410935896536745,22);
(-599450802153716350018,22);
(-597646323040843391317,22);
(-595600050258849322837,22);
(-593314149361059764431,22);
(-590790873441773764507,22);
(-588032561756684640786,22);
(-585041638315173181950,22);
(-581820610445198463379,22);
(-578372067331465664064,22);
(-574698678527617162759,22);
(-570803192443151696800,22);
(-566688434805820984153,22);
(-562357307100216502471,22);
(-557812784983319834287,22);
(-553057916677746758127,22);
(-548095821343453915020,22);
(-542929687428649263015,22);
(-537562771000702349644,22);
(-531998394057807341695,22);
(-526239942822169029513,22);
(-520290866015511582754,22);
(-514154673117670768523,22);
(-507834932609073572141,22);
(-501335270197884388943,22);
(-494659367032617980353,22);
(-487810957901005926018,22);
(-480793829415919610204,22);
(-473611818189140221236,22);
(-466268808993793651418,22);
(-458768732916221277929,22);
(-451115565498113532672,22);
(-443313324869706107401,22);
(-435366069874822472774,22);
(-427277898188581847783,22);
(-419052944428566706558,22);
(-410695378260253277092,22);
(-402209402497498702544,22)].
Definition fast_9 : list (Z * Z) := [
(-393599251198885058400,22);
(-384869187760717781921,22);
(-376023503007467674308,22);
(-367066513280452297319,22);
(-358002558525536487832,22);
(-348836000380640318119,22);
(-339571220263849699039,22);
(-330212617462878818553,22);
(-320764607226682249563,22);
(-311231618859974003277,22);
(-301618093821427596390,22);
(-291928483826300218251,22);
(-282167248954252464221,22);
(-272338855763107207109,22);
(-262447775409285488646,22);
(-252498481775659533444,22);
(-242495449607560524530,22);
(-232443152657647901516,22);
(-222346061840382018537,22);
(-212208643396787077773,22);
(-202035357070221716080,22);
(-191830654293842946256,22);
(-181598976390459701524,22);
(-171344752785447841659,22);
(-161072399233397958729,22);
(-150786316059164128556,22);
(-140490886413957953571,22);
(-130190474547137412242,22);
(-119889424094323342185,22);
(-109592056382471266657,22);
(-993026687525074697183,23);
(-890255329001433948211,23);
(-787648932354562125724,23);
(-685249652618241146540,23);
(-583099339747908569642,23);
(-481239522814202146106,23);
(-379711394406930576734,23);
(-278555795254968683455,23);
(-177813199067227692071,23);
(-775236976000132386663,24);
(222730140442126654798,24);
(121537651881706244492,23);
(220231357271108733539,23);
(318315710891246220898,23);
(415752746468348553799,23);
(512504964248380791986,23);
(608535344210042478813,23);
(703807359014245199208,23);
(798284986685961206465,23);
(891932723024580452476,23);
(984715593738785290034,23);
(107659916630240357766,22);
(116754956152756248638,22);
(125753346485176220604,22);
(134651813733560731662,22);
(143447142636787781933,22);
(152136177607511777904,22);
(160715823743268690360,22);
(169183047807457617728,22);
(177534879179936204430,22);
(185768410776981605925,22);
(193880799940382604618,22);
(201869269295435888045,22);
(209731107577651766649,22)].
Definition fast_10 : list (Z * Z) := [
(217463670427963037812,22);
(225064381156266125894,22);
(232530731473125917841,22);
(239860282189490944815,22);
(247050663884288181082,22);
(254099577539762186418,22);
(261004795144461655687,22);
(267764160263764816605,22);
(274375588577874841845,22);
(280837068387202806741,22);
(287146661085097808230,22);
(293302501597869115513,22);
(299302798792087168533,22);
(305145835849139068774,22);
(310829970607048658437,22);
(316353635869560598226,22);
(321715339682534032240,22);
(326913665577675052742,22);
(331947272783659833029,22);
(336814896404726560331,22);
(341515347566807569990,22);
(346047513531298478462,22);
(350410357776568884280,22);
(354602920047340924858,22);
(358624316372060172875,22);
(362473739048404727803,22);
(366150456597097023748,22);
(369653813684179058385,22);
(372983231011940682964,22);
(376138205178691634178,22);
(379118308507581658340,22);
(381923188844700278732,22);
(384552569326661666804,22);
(387006248117945095277,22);
(389284098118221136287,22);
(391386066639944005252,22);
(393312175056476295842,22);
(395062518421033306848,22);
(396637265056755394799,22);
(398036656118202977761,22);
(399261005124597820326,22);
(400310697465144360585,22);
(401186189876763035778,22);
(401888009894591641258,22);
(402416755275608953313,22);
(402773093395744422041,22);
(402957760620868618573,22);
(402971561652026855072,22);
(402815368845340013304,22);
(402490121506946865737,22);
(401996825163432602857,22);
(401336550808131173329,22);
(400510434123766412284,22);
(399519674681838021790,22);
(398365535119223901361,22);
(397049340292425986809,22);
(395572476409943238340,22);
(393936390143226622396,22);
(392142587716682866628,22);
(390192633977227906761,22);
(388088151443859719070,22);
(385830819337740632546,22);
(383422372593309676581,22);
(380864600850902706997,22)].
Definition fast_11 : list (Z * Z) := [
(378159347431409609275,22);
(375308508293468318096,22);
(372314030973733209318,22);
(369177913510723085255,22);
(365902203352790472701,22);
(362488996250740352911,22);
(358940435135636018438,22);
(355258708982338911042,22);
(351446051659309519066,22);
(347504740765239503175,22);
(343437096453047957523,22);
(339245480241803926136,22);
(334932293817127510471,22);
(330499977820627663383,22);
(325951010628938789293,22);
(321287907122915217251,22);
(316513217447548164674,22);
(311629525763171093267,22);
(306639448988514501382,22);
(301545635536184866710,22);
(296350764041116987446,22);
(291057542082603579181,22);
(285668704900414009706,22);
(280187014105628129368,22);
(274615256386703497637,22);
(268956242211381771345,22);
(263212804524964143205,22);
(257387797445546746833,22);
(251484094956766456030,22);
(245504589598617914414,22);
(239452191156906725455,22);
(233329825351894608321,22);
(227140432526683408443,22);
(220886966335908999093,22);
(214572392435271874778,22);
(208199687172471933905,22);
(201771836280079629178,22);
(195291833570884962312,22);
(188762679636269269101,22);
(182187380548123403767,22);
(175568946564845403124,22);
(168910390841945853846,22);
(162214728147774996103,22);
(155484973584896369464,22);
(148724141317607399387,22);
(141935243306124080076,22);
(135121288047925294795,22);
(128285279326754275003,22);
(121430214969758445281,22);
(114559085613274869858,22);
(107674873477713456404,22);
(100780551152029641815,22);
(938790803882408146641,23);
(869734109064560119429,23);
(800664792108640895052,23);
(731612074171312902482,23);
(662605020916498532735,23);
(593672531030635993593,23);
(524843324865020312286,23);
(456145933209378684481,23);
(387608686200798923521,23);
(319259702372048361982,23);
(251126877843176705626,23);
(183237875660391988202,23)].
Definition fast_12 : list (Z * Z) := [
(115620115285868549186,23);
(483007622422852007059,24);
(-186932820843070034112,24);
(-853353904797455329115,24);
(-151599219771675255281,23);
(-217458720530792556924,23);
(-282888146600037857989,23);
(-347862064448672828401,23);
(-412355362347965707925,23);
(-476343259365718217635,23);
(-539801314176371720144,23);
(-602705433684159932323,23);
(-665031881456398799024,23);
(-726757285964317947813,23);
(-787858648628854928153,23);
(-848313351669007821576,23);
(-908099165750268083608,23);
(-967194257431004678072,23);
(-102557719640449674509,22);
(-108322696253466653482,22);
(-114012295268339416271,22);
(-119624498732761111452,22);
(-125157331696445651287,22);
(-130608862830260651078,22);
(-135977205023845738180,22);
(-141260515961539080687,22);
(-146456998676501564532,22);
(-151564902082884610246,22);
(-156582521485937077588,22);
(-161508199069943896020,22);
(-166340324363880263936,22);
(-171077334684716746149,22);
(-175717715558275228149,22);
(-180260001117568194329,22);
(-184702774478586080609,22);
(-189044668093441003975,22);
(-193284364080869922042,22);
(-197420594534034529732,22);
(-201452141805614354242,22);
(-205377838770183090977,22);
(-209196569063852221004,22);
(-212907267301215390176,22);
(-216508919269584217127,22);
(-220000562100566773860,22);
(-223381284419012192399,22);
(-226650226469371808558,22);
(-229806580219539050014,22);
(-232849589442222955349,22);
(-235778549773940013234,22);
(-238592808751701725145,22);
(-241291765827496146324,22);
(-243874872360661625048,22);
(-246341631588262027774,22);
(-248691598573592027865,22);
(-250924380132932847709,22);
(-253039634740697960691,22);
(-255037072413113186098,22);
(-256916454570593408291,22);
(-258677593878966008423,22);
(-260320354069717534162,22);
(-261844649739453247395,22);
(-263250446128731642459,22);
(-264537758880496950975,22);
(-265706653778289558776,22)].
Definition fast_13 : list (Z * Z) := [
(-266757246464459155111,22);
(-267689702138592805492,22);
(-268504235236379437679,22);
(-269201109089152179621,22);
(-269780635564342181898,22);
(-270243174687087896191,22);
(-270589134243261995871,22);
(-270818969364167577707,22);
(-270933182093176481986,22);
(-270932320934577017257,22);
(-270816980384915410862,22);
(-270587800447114543156,22);
(-270245466127663376554,22);
(-269790706917171427270,22);
(-269224296254590607369,22);
(-268547050975419879237,22);
(-267759830744198866481,22);
(-266863537471611969587,22);
(-265859114716531889921,22);
(-264747547073322930800,22);
(-263529859544745573285,22);
(-262207116900796607939,22);
(-260780423023825730366,22);
(-259250920240284947471,22);
(-257619788639449828760,22);
(-255888245379471308827,22);
(-254057543981124761556,22);
(-252128973609604678519,22);
(-250103858344739478359,22);
(-247983556439997539222,22);
(-245769459570643403201,22);
(-243462992071435090080,22);
(-241065610164222128564,22);
(-238578801175844575078,22);
(-236004082746693114037,22);
(-233343002030331689300,22);
(-230597134884559483436,22);
(-227768085054302904524,22);
(-224857483346725776918,22);
(-221866986798954189675,22);
(-218798277838799307138,22);
(-215653063438876642366,22);
(-212433074264517691987,22);
(-209140063815867055519,22);
(-205775807564556566243,22);
(-202342102085360346642,22);
(-198840764183222142025,22);
(-195273630016047500257,22);
(-191642554213670816832,22);
(-187949408993371563925,22);
(-184196083272362247374,22);
(-180384481777610752862,22);
(-176516524153425696797,22);
(-172594144067167720724,22);
(-168619288313498413845,22);
(-164593915917550098760,22);
(-160519997237402040069,22);
(-156399513066264282679,22);
(-152234453734734331148,22);
(-148026818213531103502,22);
(-143778613217079923037,22);
(-139491852308316760523,22);
(-135168555005115483686,22);
(-130810745888681710658,22)].
Definition fast_14 : list (Z * Z) := [
(-126420453714316226301,22);
(-121999710524887047813,22);
(-117550550767402828961,22);
(-113075010413035727252,22);
(-108575126080952908542,22);
(-104052934166326063736,22);
(-995104699728536351566,23);
(-949497668501652312967,23);
(-903728553364356763933,23);
(-857817623065582068875,23);
(-811785101262214349449,23);
(-765651158122056946231,23);
(-719435901992488725798,23);
(-673159371137851351291,23);
(-626841525548942068990,23);
(-580502238827697216589,23);
(-534161290150089295564,23);
(-487838356310490647849,23);
(-441553003850264462471,23);
(-395324681273798422126,23);
(-349172711354636287548,23);
(-303116283534747218975,23);
(-257174446419663202748,23);
(-211366100372138449731,23);
(-165709990207213789248,23);
(-120224697991074881177,23);
(-749286359465203312402,24);
(-298400394673150758020,24);
(150230397559290287587,24);
(596427404960260163468,24);
(104001398633389997676,23);
(148081553681653948010,23);
(191865955192711671630,23);
(235337569038958404136,23);
(278479583570576333731,23);
(321275415646031688166,23);
(363708716533605539573,23);
(405763377682291995208,23);
(447423536360066955581,23);
(488673581157838838457,23);
(529498157357465894235,23);
(569882172162047926506,23);
(609810799787139853900,23);
(649269486411187517899,23);
(688243954983998491859,23);
(726720209891677272618,23);
(764684541476874993227,23);
(802123530413159993580,23);
(839024051932213063565,23);
(875373279902990839019,23);
(911158690761618844656,23);
(946368067291306243327,23);
(980989502251233651264,23);
(101501140185368699670,22);
(104842248908878447194,22);
(108121180689596009528,22);
(111336872118183785596,22);
(114488292368375710328,22);
(117574443467867335855,22);
(120594360553697797084,22);
(123547112112087492664,22);
(126431800202723137322,22);
(129247560667452802280,22);
(131993563323394361153,22)].
Definition fast_15 : list (Z * Z) := [
(134669012140451026943,22);
(137273145403230718842,22);
(139805235857388930609,22);
(142264590840399576116,22);
(144650552396788801418,22);
(146962497377853603536,22);
(149199837525900817770,22);
(151362019543059365262,22);
(153448525144697818512,22);
(155458871097522988158,22);
(157392609242401407266,22);
(159249326501989980909,22);
(161028644873237487822,22);
(162730221404839558996,22);
(164353748159745995105,22);
(165898952162792344411,22);
(167365595333573702330,22);
(168753474404654685292,22);
(170062420825228405308,22);
(171292300650343690127,22);
(172443014415816948948,22);
(173514496998961910423,22);
(174506717465267233158,22);
(175419678901157470585,22);
(176253418232991503067,22);
(177008006032431768062,22);
(177683546308354950449,22);
(178280176285450023266,22);
(178798066169677284665,22);
(179237418900749095885,22);
(179598469891815541721,22);
(179881486756524357207,22);
(180086769023645003329,22);
(180214647839439801036,22);
(180265485657978320744,22);
(180239675919585257136,22);
(180137642717629609113,22);
(179959840453853894826,22);
(179706753482452019632,22);
(179378895743111561878,22);
(178976810383233188306,22);
(178501069369546815080,22);
(177952273089348571300,22);
(177331049941585293384,22);
(176638055918014250101,22);
(175873974174670689996,22);
(175039514593883366311,22);
(174135413337067820883,22);
(173162432388551425222,22);
(172121359090659648006,22);
(171013005670323306462,22);
(169838208757447130248,22);
(168597828895295613616,22);
(167292750043147309125,22);
(165923879071472879509,22);
(164492145249898746862,22);
(162998499728209574056,22);
(161443915010654574782,22);
(159829384423819872985,22);
(158155921578329479449,22);
(156424559824643004402,22);
(154636351703211580993,22);
(152792368389266484952,22);
(150893699132506348831,22)].
Definition fast_16 : list (Z * Z) := [
(148941450691946284529,22);
(146936746766213478105,22);
(144880727419542387757,22);
(142774548503756936596,22);
(140619381076500047506,22);
(138416410815988405458,22);
(136166837432563775367,22);
(133871874077307433104,22);
(131532746747999255282,22);
(129150693692685249875,22);
(126726964811125480254,22);
(124262821054400597609,22);
(121759533822933443264,22);
(119218384363212748234,22);
(116640663163469111840,22);
(114027669348586990772,22);
(111380710074510391738,22);
(108701099922405512027,22);
(105990160292857588803,22);
(103249218800347264402,22);
(100479608668283364181,22);
(976826681248407595326,23);
(948597397998680001707,23);
(920121701231205180171,23);
(891413087240663405686,23);
(862485078335300560382,23);
(833351216874106057175,23);
(804025059327335284154,23);
(774520170362733365033,23);
(744850116959968472363,23);
(715028462555652392224,23);
(685068761221313375642,23);
(654984551876693164157,23);
(624789352540736173808,23);
(594496654622468298501,23);
(564119917254172174859,23);
(533672561668945780872,23);
(503167965625017643561,23);
(472619457878821046942,23);
(442040312709122713147,23);
(411443744494245557813,23);
(380842902344421868274,23);
(350250864791438413365,23);
(319680634537424174582,23);
(289145133264915015631,23);
(258657196509964968506,23);
(228229568600325869593,23);
(197874897660506266980,23);
(167605730685465247574,23);
(137434508684857771554,23);
(107373561899400072825,23);
(774351050912206037222,24);
(476312329096932108620,24);
(179739153344913828647,24);
(-115250068026150436743,24);
(-408538262157430215240,24);
(-700009734810518881830,24);
(-989550212697529359140,24);
(-127704688496522110984,23);
(-156238844381914230262,23);
(-184546512427596291067,23);
(-212616874302977649017,23);
(-240439273642179809562,23);
(-268003219750039467159,23)].
Definition fast_17 : list (Z * Z) := [
(-295298391216083011210,23);
(-322314639435426720723,23);
(-349041992035452591087,23);
(-375470656207426648626,23);
(-401591021941965966441,23);
(-427393665167596914500,23);
(-452869350791463860101,23);
(-478009035641408387002,23);
(-502803871308742881402,23);
(-527245206890878791856,23);
(-551324591633307794364,23);
(-575033777470175880286,23);
(-598364721463032038506,23);
(-621309588137129026331,23);
(-643860751714846711591,23);
(-666010798245885143193,23);
(-687752527633716734257,23);
(-709078955558135361203,23);
(-729983315293484570641,23);
(-750459059422442856246,23);
(-770499861445137022159,23);
(-790099617283428028169,23);
(-809252446680348673513,23);
(-827952694494581836748,23);
(-846194931890021165288,23);
(-863973957420479179992,23);
(-881284798009584514900,23);
(-898122709826090423468,23);
(-914483179054685624276,23);
(-930361922562642808254,23);
(-945754888462495800494,23);
(-960658256571109842037,23);
(-975068438765514661215,23);
(-988982079235872779677,23);
(-100239605463608785763,22);
(-101530747413246837108,22);
(-102771367935108499936,22);
(-103961224422430293518,22);
(-105100097473716045521,22);
(-106187790857425311958,22);
(-107224131466778661165,22);
(-108208969264758890494,22);
(-109142177219381259629,22);
(-110023651229317290939,22);
(-110853310039956218930,22);
(-111631095149994884197,22);
(-112356970708646971419,22);
(-113030923403568215463,22);
(-113652962339602110059,22);
(-114223118908440956359,22);
(-114741446649318026840,22);
(-115208021100836454503,22);
(-115622939644049946284,22);
(-115986321336910645080,22);
(-116298306740207010868,22);
(-116559057735113307669,22);
(-116768757332475214827,22);
(-116927609473963332182,22);
(-117035838825226608945,22);
(-117093690561177760784,22);
(-117101430143551586693,22);
(-117059343090872795129,22);
(-116967734740980097013,22);
(-116826930006248379257,22)].
Definition fast_18 : list (Z * Z) := [
(-116637273121658596037,22);
(-116399127385864407935,22);
(-116112874895409699111,22);
(-115778916272246922003,22);
(-115397670384720374415,22);
(-114969574062164479888,22);
(-114495081803284975280,22);
(-113974665478479546959,22);
(-113408814026266253211,22);
(-112798033143984600957,22);
(-112142844972935168402,22);
(-111443787778127377519,22);
(-110701415622809114236,22);
(-109916298037944538957,22);
(-109089019686816925125,22);
(-108220180024931385970,22);
(-107310392955389764802,22);
(-106360286479915983754,22);
(-105370502345710423397,22);
(-104341695688310136247,22);
(-103274534670632443106,22);
(-102169700118386209270,22);
(-101027885152025192345,22);
(-998497948154308812008,23);
(-986361457015006402871,23);
(-973876655748246930488,23);
(-961050929916365190286,23);
(-947891769172138146105,23);
(-934406763409175583623,23);
(-920603598890469380922,23);
(-906490054356958417647,23);
(-892073997117914622990,23);
(-877363379124968326139,23);
(-862366233031589164704,23);
(-847090668239862398803,23);
(-831544866936306283078,23);
(-815737080118616487978,23);
(-799675623615058242533,23);
(-783368874098351944402,23);
(-766825265095798756787,23);
(-750053282997436773782,23);
(-733061463064018075525,23);
(-715858385436481461928,23);
(-698452671148786126409,23);
(-680852978145714965441,23);
(-663067997307481386826,23);
(-645106448482760802543,23);
(-626977076531890029770,23);
(-608688647381931853542,23);
(-590249944095203298716,23);
(-571669762953000513278,23);
(-552956909556100162373,23);
(-534120194943696596085,23);
(-515168431732329797079,23);
(-496110430276443595266,23);
(-476954994852103134756,23);
(-457710919865432410564,23);
(-438386986087277181340,23);
(-418991956915663876782,23);
(-399534574667439676410,23);
(-380023556900675307108,23);
(-360467592769156538676,23);
(-340875339410503987864,23);
(-321255418369197943973,23)].
Definition fast_19 : list (Z * Z) := [
(-301616412055992575564,23);
(-281966860245005685598,23);
(-262315256609809257030,23);
(-242670045299875130826,23);
(-223039617558575898118,23);
(-203432308384080993632,23);
(-183856393234277533909,23);
(-164320084776991355742,23);
(-144831529686655904529,23);
(-125398805488530435195,23);
(-106029917451672204415,23);
(-867327955316482155854,24);
(-675152913641518712638,24);
(-483851753104545291573,24);
(-293501335557769932588,24);
(-104177652615230481180,24);
(840442022771478958144,25);
(271090061213828637746,24);
(456886708636217294885,24);
(641361907564611910364,24);
(824444425246958221068,24);
(100606405821750295726,23);
(118615165675600578790,23);
(136463914874257485378,23);
(154145956289825905236,23);
(171654705140769636706,23);
(188983691191461173828,23);
(206126560888645086675,23);
(223077079434063144103,23);
(239829132792830895110,23);
(256376729636941056573,23);
(272714003223500402184,23);
(288835213207216685155,23);
(304734747386685260462,23);
(320407123384176817371,23);
(335846990258462183704,23);
(351049130050470068257,23);
(366008459261367522647,23);
(380720030262936314294,23);
(395179032639856198800,23);
(409380794463911311387,23);
(423320783499702736619,23);
(436994608342004212803,23);
(450398019484403704799,23);
(463526910319382156461,23);
(476377318069614620610,23);
(488945424650618146178,23);
(501227557464674778470,23);
(513220190126144337750,23);
(524919943118207308480,23);
(536323584381190321402,23);
(547428029832571112767,23);
(558230343818897148389,23);
(568727739499729628703,23);
(578917579163970574818,23);
(588797374478673089110,23);
(598364786670789981782,23);
(607617626642060343345,23);
(616553855017385084303,23);
(625171582127166582804,23);
(633469067923863194541,23);
(641444721833308011821,23);
(649097102541174898749,23);
(656424917715103632687,23)].
Definition fast_20 : list (Z * Z) := [
(663427023662958338657,23);
(670102424927795491810,23);
(676450273820044644529,23);
(682469869887525251023,23);
(688160659323871527759,23);
(693522234316026366108,23);
(698554332331408935064,23);
(703256835345506155222,23);
(707629769010476809138,23);
(711673301765615093362,23);
(715387743890304877992,23);
(718773546500291789924,23);
(721831300488032408247,23);
(724561735407938580650,23);
(726965718307318129604,23);
(729044252503875406940,23);
(730798476310635155423,23);
(732229661709144288850,23);
(733339212971884264747,23);
(734128665234775375920,23);
(734599683020745793799,23);
(734754058715258225737,23);
(734593710994830336597,23);
(734120683209452638829,23);
(733337141719967496728,23);
(732245374191355016119,23);
(730847787843014878861,23);
(729146907657012011139,23);
(727145374545387114529,23);
(724845943477565521351,23);
(722251481568945107037,23);
(719364966131744686118,23);
(716189482689201083881,23);
(712728222954231872138,23);
(708984482773655864257,23);
(704961660039112210374,23);
(700663252565801673161,23);
(696092855940177307472,23);
(691254161337735619636,23);
(686150953312070904788,23);
(680787107556324582597,23);
(675166588638215301593,23);
(669293447709806265528,23);
(663171820193170571955,23);
(656805923443159328512,23);
(650200054388410785683,23);
(643358587151825807998,23);
(636285970651646794888,23);
(628986726184373092646,23);
(621465444990643503531,23);
(613726785805332464285,23);
(605775472392990760317,23);
(597616291069856791357,23);
(589254088213594148099,23);
(580693767761965816410,23);
(571940288701587758180,23);
(562998662548002196115,23);
(553873950818146131014,23);
(544571262496510149348,23);
(535095751496040238082,23);
(525452614115022934027,23);
(515647086491062122543,23);
(505684442053339500839,23);
(495569988974256699088,23)].
Definition fast_21 : list (Z * Z) := [
(485309067621648645985,23);
(474907048012647350216,23);
(464369327270371719946,23);
(453701327084515566163,23);
(442908491176951992635,23);
(431996282773485212186,23);
(420970182082771107734,23);
(409835683783572966160,23);
(398598294521311340144,23);
(387263530415101094040,23);
(375836914576165720403,23);
(364323974638825019007,23);
(352730240304928790995,23);
(341061240902878646739,23);
(329322502962129748730,23);
(317519547804233142826,23);
(305657889151338601694,23);
(293743030753160130203,23);
(281780464033296821486,23);
(269775665755896121301,23);
(257734095713514719389,23);
(245661194437134461702,23);
(233562380929147129019,23);
(221443050420279223534,23);
(209308572151161147862,23);
(197164287179554201940,23);
(185015506213867531038,23);
(172867507473943343883,23);
(160725534579748128607,23);
(148594794468843234732,23);
(136480455343317803527,23);
(124387644646943291808,23);
(112321447073277739387,23);
(100286902605367005473,23);
(882890045877847201225,24);
(763326978315998568199,24);
(644228767529792380013,24);
(525643835459782418976,24);
(407620063901896608968,24);
(290204776937506045247,24);
(173444723723805766706,24);
(573860616484244659592,25);
(-579256601447129809831,25);
(-172445516855139978872,24);
(-286129223744603178401,24);
(-398933151471683798521,24);
(-510814341036775051638,24);
(-621730518333987194034,24);
(-731640108305292775383,24);
(-840502248693749103720,24);
(-948276803391555388537,24);
(-105492437538016840815,23);
(-116040631925863960139,23);
(-126468475335793167046,23);
(-136772257143744795961,23);
(-146948345396231690001,23);
(-156993187895820992227,23);
(-166903313244173671925,23);
(-176675331842487395514,23);
(-186305936849075486246,23);
(-195791905094055886799,23);
(-205130097950870097026,23);
(-214317462164644121497,23);
(-223351030637205421117,23)].
Definition fast_22 : list (Z * Z) := [
(-232227923168745655630,23);
(-240945347156019864382,23);
(-249500598247101752769,23);
(-257891060952624437755,23);
(-266114209213571661222,23);
(-274167606925580006200,23);
(-282048908419860059130,23);
(-289755858900738426376,23);
(-297286294839969704451,23);
(-304638144327833843006,23);
(-311809427381250833106,23);
(-318798256208930414976,23);
(-325602835433819615824,23);
(-332221462272949338845,23);
(-338652526674922864716,23);
(-344894511415224942069,23);
(-350945992149601917673,23);
(-356805637425754813494,23);
(-362472208653601482564,23);
(-367944560034401835918,23);
(-373221638449032109761,23);
(-378302483305743104600,23);
(-383186226347697993233,23);
(-387872091420681094562,23);
(-392359394201303914723,23);
(-396647541886111301701,23);
(-400736032841956212047,23);
(-404624456218095809173,23);
(-408312491520368761599,23);
(-411799908147960237043,23);
(-415086564893147550587,23);
(-418172409404541419592,23);
(-421057477614258761356,23);
(-423741893129556731340,23);
(-426225866589410255086,23);
(-428509694986558761776,23);
(-430593760955555893838,23);
(-432478532027361865092,23);
(-434164559851025946141,23);
(-435652479383043678834,23);
(-436943008044940375129,23);
(-438036944849687272935,23);
(-438935169497548655082,23);
(-439638641441941844384,23);
(-440148398925969356471,23);
(-440465557990201740657,23);
(-440591311452397972614,23);
(-440526927859759102890,23);
(-440273750414399336200,23);
(-439833195872687317957,23);
(-439206753419116562726,23);
(-438395983515392842489,23);
(-437402516725410826781,23);
(-436228052516814471251,23);
(-434874358039834783829,23);
(-433343266884099378305,23);
(-431636677814128347924,23);
(-429756553484226828249,23);
(-427704919133478460302,23);
(-425483861261575103258,23);
(-423095526286197242544,23);
(-420542119182673330285,23);
(-417825902106652539991,23);
(-414949193000528453179,23)].
Definition fast_23 : list (Z * Z) := [
(-411914364184333848390,23);
(-408723840931864319803,23);
(-405380100032764340012,23);
(-401885668341308427420,23);
(-398243121312639048598,23);
(-394455081527187324114,23);
(-390524217204034265055,23);
(-386453240703949710971,23);
(-382244907022857112119,23);
(-377902012276458334344,23);
(-373427392176791782957,23);
(-368823920501411533363,23);
(-364094507555994461798,23);
(-359242098631046497328,23);
(-354269672453505143905,23);
(-349180239633924225512,23);
(-343976841109999795926,23);
(-338662546587152699790,23);
(-333240452976901182711,23);
(-327713682833726460339,23);
(-322085382791172753977,23);
(-316358721997866921757,23);
(-310536890554190866259,23);
(-304623097950279270868,23);
(-298620571506079835605,23);
(-292532554814109750294,23);
(-286362306185669341502,23);
(-280113097101106212072,23);
(-273788210664884781517,23);
(-267390940066071719841,23);
(-260924587044905360173,23);
(-254392460366138209102,23);
(-247797874299740972931,23);
(-241144147109654920225,23);
(-234434599551184728525,23);
(-227672553377682423265,23);
(-220861329857108918892,23);
(-214004248299099744321,23);
(-207104624593109319652,23);
(-200165769758243626206,23);
(-193190988505322330110,23);
(-186183577811795423693,23);
(-179146825509988766485,23);
(-172084008889326943795,23);
(-164998393312966343087,23);
(-157893230849462818527,23);
(-150771758919912264932,23);
(-143637198961127387532,23);
(-136492755105304883201,23);
(-129341612876705033125,23);
(-122186937905778840625,23);
(-115031874661246304344,23);
(-107879545200534983015,23);
(-100733047939059738862,23);
(-935954564387392199190,24);
(-864698182161781326270,24);
(-793591535709335898878,24);
(-722664544342259342231,24);
(-651946832385152269008,24);
(-581467718082645003419,24);
(-511256202723101406751,24);
(-441340959980976682391,24);
(-371750325482115011495,24);
(-302512286594312090893,24)].
Definition fast_24 : list (Z * Z) := [
(-233654472446860898751,24);
(-165204144181543805632,24);
(-971881854382950145007,25);
(-296330930778333087529,25);
(374350318557888840534,25);
(103990492930665522531,24);
(170008006877860913661,24);
(235462711895771908792,24);
(300330175705594570618,24);
(364586403356421419591,24);
(428207844777551787079,24);
(491171402077186748311,24);
(553454436585029511952,24);
(615034775638214118408,24);
(675890719108685204992,24);
(736001045671158494674,24);
(795345018810736208159,24);
(853902392568785988461,24);
(911653417026953884206,24);
(968578843528107927274,24);
(102465992963409239201,23);
(107987844381954517861,23);
(113421666990184857697,23);
(118765741120669863183,23);
(124018399446962118877,23);
(129178027347317181048,23);
(134243063242041153760,23);
(139211998904448393775,23);
(144083379745542361494,23);
(148855805072399061464,23);
(153527928320389963832,23);
(158098457259274222282,23);
(162566154173287799080,23);
(166929836015300469068,23);
(171188374535185877309,23);
(175340696382495094506,23);
(179385783183615881223,23);
(183322671593499951850,23);
(187150453322187351919,23);
(190868275136241117781,23);
(194475338835288632730,23);
(197970901203875114180,23);
(201354273938795765367,23);
(204624823552140497340,23);
(207781971250251560127,23);
(210825192788842950831,23);
(213754018304492627786,23);
(216568032122775241954,23);
(219266872543273649843,23);
(221850231601753312277,23);
(224317854809751244041,23);
(226669540871874157159,23);
(228905141381085521987,23);
(231024560492300908704,23);
(233027754574556848419,23);
(234914731842113299123,23);
(236685551964774167771,23);
(238340325657774047483,23);
(239879214251553785076,23);
(241302429241780800814,23);
(242610231819949092105,23);
(243802932384921434983,23);
(244880890035772524199,23);
(245844512046309356806,23)].
Definition fast_25 : list (Z * Z) := [
(246694253321619750424,23);
(247430615837057783779,23);
(248054148060029584083,23);
(248565444354972896537,23);
(248965144371932805070,23);
(249253932419119233338,23);
(249432536819870756192,23);
(249501729254406187306,23);
(249462324086802481049,23);
(249315177677595679884,23);
(249061187682437026880,23);
(248701292337218105022,23);
(248236469730101589823,23);
(247667737060877201499,23);
(246996149888082565729,23);
(246222801364318543901,23);
(245348821460201170497,23);
(244375376177385136151,23);
(243303666751100867299,23);
(242134928842652587602,23);
(240870431722312039469,23);
(239511477443066006163,23);
(238059400005651662299,23);
(236515564515335941637,23);
(234881366330883401689,23);
(233158230206161314751,23);
(231347609424828503169,23);
(229450984928561332182,23);
(227469864439260342423,23);
(225405781575686164908,23);
(223260294964972971082,23);
(221034987349466626252,23);
(218731464689328946802,23);
(216351355261355186160,23);
(213896308754443764677,23);
(211367995362164717843,23);
(208768104872860673846,23);
(206098345757712827012,23);
(203360444257223585765,23);
(200556143466523338278,23);
(197687202419953838434,23);
(194755395175337346625,23);
(191762509898370150235,23);
(188710347947544372464,23);
(185600722960030926380,23);
(182435459938927956557,23);
(179216394342290039413,23);
(175945371174334418141,23);
(172624244079242210488,23);
(169254874437936271916,23);
(165839130468247841071,23);
(162378886328829906069,23);
(158876021227249563002,23);
(155332418532590395277,23);
(151749964892962602506,23);
(148130549358308134279,23);
(144476062508820820261,23);
(140788395589385340219,23);
(137069439650360901800,23);
(133321084695073701146,23);
(129545218834344489506,23);
(125743727448406820806,23);
(121918492356532437090,23);
(118071390994699786103,23)].
Definition fast_26 : list (Z * Z) := [
(114204295601606406994,23);
(110319072413361980722,23);
(106417580867146756643,23);
(102501672814153568618,23);
(985731917420752321024,24);
(946339720074761028661,24);
(906858380782653099826,24);
(867306037865940180828,24);
(827700715924154601863,24);
(788060318579825755218,24);
(748402621335140681366,24);
(708745264542995573667,24);
(669105746494616255432,24);
(629501416626196083105,24);
(589949468846577432593,24);
(550466934988384673337,24);
(511070678384569518186,24);
(471777387572266644969,24);
(432603570126133903009,24);
(393565546622840108093,24);
(354679444738640930936,24);
(315961193481461178213,24);
(277426517559644606348,24);
(239090931888283949464,24);
(200969736235134577339,24);
(163078010007227617185,24);
(125430607179671989044,24);
(880421513676910678318,25);
(509270310433270975443,25);
(140993948977051206995,25);
(-224268526499689963992,25);
(-586380557959355767418,25);
(-945208115468090933828,25);
(-130061973765318488264,24);
(-165248657065980185041,24);
(-200068240560348736649,24);
(-234508371450769772170,24);
(-268556968472767403858,24);
(-302202225185153135114,24);
(-335432613107714699702,24);
(-368236884706315019053,24);
(-400604076224976460123,24);
(-432523510365022737217,24);
(-463984798811095579957,24);
(-494977844604242624843,24);
(-525492844361963827582,24);
(-555520290345540247376,24);
(-585050972374773735341,24);
(-614075979590610184985,24);
(-642586702065795259929,24);
(-670574832264203037069,24);
(-698032366349193725621,24);
(-724951605341828033552,24);
(-751325156129156322866,24);
(-777145932323820387393,24);
(-802407154975299293648,24);
(-827102353133903219450,24);
(-851225364268258727699,24);
(-874770334537431802288,24);
(-897731718918501797773,24);
(-920104281190827605862,24);
(-941883093778050233848,24);
(-963063537449165905750,24);
(-983641300879760935652,24)].
Definition fast_27 : list (Z * Z) := [
(-100361238007481306557,23);
(-102297307765449128208,23);
(-104172000200423238610,23);
(-105985006629069969386,23);
(-107736048734502422482,23);
(-109424878441514257174,23);
(-111051277778848088776,23);
(-112615058728708443934,23);
(-114116063063659394818,23);
(-115554162171100749217,23);
(-116929256865495575027,23);
(-118241277188544584124,23);
(-119490182197486941203,23);
(-120675959741726535404,23);
(-121798626227982297217,23);
(-122858226374166065384,23);
(-123854832952187280184,23);
(-124788546519901061629,23);
(-125659495142406364872,23);
(-126467834102919943727,23);
(-127213745603428412742,23);
(-127897438455362244883,23);
(-128519147760499177768,23);
(-129079134582336268501,23);
(-129577685608154116216,23);
(-130015112802015094483,23);
(-130391753048923449490,23);
(-130707967790388737521,23);
(-130964142651636395419,23);
(-131160687060702277167,23);
(-131298033859659005196,23);
(-131376638908218385492,23);
(-131396980679961724973,23);
(-131359559851441281067,23);
(-131264898884408520024,23);
(-131113541601419526274,23);
(-130906052755070225271,23);
(-130643017591116055581,23);
(-130325041405731484843,23);
(-129952749097163636725,23);
(-129526784712039586857,23);
(-129047810986578645812,23);
(-128516508882973415524,23);
(-127933577121191956356,23);
(-127299731706460124078,23);
(-126615705452684046764,23);
(-125882247502064623448,23);
(-125100122841167137044,23);
(-124270111813698665680,23);
(-123393009630251375940,23);
(-122469625875265661526,23);
(-121500784011470538623,23);
(-120487320882053006339,23);
(-119430086210808427544,23);
(-118329942100529298017,23);
(-117187762529875026674,23);
(-116004432848981092231,23);
(-114780849274044756403,23);
(-113517918381147498753,23);
(-112216556599544479457,23);
(-110877689704675665670,23);
(-109502252311132830878,23);
(-108091187365826806380,23);
(-106645445641585442931,23)].
Definition fast_28 : list (Z * Z) := [
(-105165985231426076241,23);
(-103653771043727446592,23);
(-102109774298538512859,23);
(-100534972025243104707,23);
(-989303465618205854493,24);
(-972968850559070386023,24);
(-956355789678956110487,24);
(-939474235762757228438,24);
(-922334174854466432199,24);
(-904945621361946477522,24);
(-887318613190598128385,24);
(-869463206907894578697,24);
(-851389472940857513876,24);
(-833107490808391681729,24);
(-814627344390523211622,24);
(-795959117236444131487,24);
(-777112887913182157074,24);
(-758098725396869001399,24);
(-738926684508335205812,24);
(-719606801394884719458,24);
(-700149089059903611230,24);
(-680563532942129469604,24);
(-660860086546161931871,24);
(-641048667125920334890,24);
(-621139151422514545521,24);
(-601141371458319205383,24);
(-581065110388481308873,24);
(-560920098411564179222,24);
(-540716008740645473485,24);
(-520462453636329636791,24);
(-500168980502928035153,24);
(-479845068049252442000,24);
(-459500122515179752151,24);
(-439143473965308969373,24);
(-418784372650737749064,24);
(-398431985440370181519,24);
(-378095392322528038760,24);
(-357783582978218623466,24);
(-337505453426840712917,24);
(-317269802745462131330,24);
(-297085329862539673351,24);
(-276960630426857884294,24);
(-256904193752789059696,24);
(-236924399842341755311,24);
(-217029516485020210204,24);
(-197227696436049984184,24);
(-177526974673721080374,24);
(-157935265736364822877,24);
(-138460361139671443579,24);
(-119109926874780676581,24);
(-998915009877096604120,25);
(-808124912404658787314,25);
(-618801728543761411219,25);
(-431016863358901726119,25);
(-244840353852607290751,25);
(-603408488822807525549,26);
(122414410087942923482,25);
(303359607401630166279,25);
(482430370786643698930,25);
(659563788094303331657,25);
(834698423199615796228,25);
(100777433106333784039,24);
(117873307195481496850,24);
(134751772483674884346,24)].
Definition fast_29 : list (Z * Z) := [
(151407289991337552218,24);
(167834475034225882872,24);
(184028098311239825778,24);
(199983086909011169297,24);
(215694525223608961004,24);
(231157655799539194473,24);
(246367880086458945071,24);
(261320759113890506518,24);
(276012014084471178285,24);
(290437526885940853344,24);
(304593340522622661477,24);
(318475659466672001308,24);
(332080849929764377465,24);
(345405440055728798956,24);
(358446120034815369788,24);
(371199742140139986053,24);
(383663320687053425832,24);
(395834031916090828447,24);
(407709213800306149479,24);
(419286365777668133727,24);
(430563148409382728376,24);
(441537382964913725693,24);
(452207050934656925797,24);
(462570293470961546242,24);
(472625410758635230730,24);
(482370861315684551149,24);
(491805261225328150740,24);
(500927383300294468485,24);
(509736156180340470138,24);
(518230663364083014855,24);
(526410142176160977465,24);
(534273982670858136115,24);
(541821726473215733132,24);
(549053065558819199977,24);
(555967840973343140065,24);
(562566041493084596781,24);
(568847802227587348751,24);
(574813403165606124842,24);
(580463267665585255090,24);
(585797960891953992807,24);
(590818188198352634011,24);
(595524793459205619046,24);
(599918757350793364382,24);
(604001195583171897330,24);
(607773357084216074402,24);
(611236622137123529822,24);
(614392500472671181100,24);
(617242629317575641247,24);
(619788771400296852575,24);
(622032812915646266330,24);
(623976761449542352556,24);
(625622743865282679096,24);
(626973004152734866845,24);
(628029901241785953013,24);
(628795906781460817864,24);
(629273602886090081127,24);
(629465679849935955126,24);
(629374933831637162034,24);
(629004264509917614644,24);
(628356672711923979618,24);
(627435258015602670238,24);
(626243216327530610385,24);
(624783837437580067548,24);
(623060502551831571320,24)].
Definition fast_30 : list (Z * Z) := [
(621076681805128117189,24);
(618835931754663313292,24);
(616341892855999597296,24);
(613598286922899423257,24);
(610608914572360016171,24);
(607377652656219848941,24);
(603908451680720608987,24);
(600205333215381750360,24);
(596272387292547546150,24);
(592113769798962869678,24);
(587733699860716260477,24);
(583136457222883410056,24);
(578326379625196070923,24);
(573307860175058681823,24);
(568085344719199331932,24);
(562663329215264671791,24);
(557046357104629347515,24);
(551239016687691835844,24);
(545245938502918582949,24);
(539071792710859535452,24);
(532721286484389919269,24);
(526199161406370888652,24);
(519510190875949965511,24);
(512659177524647379116,24);
(505650950643461694588,24);
(498490363622070692395,24);
(491182291401325650700,24);
(483731627940122419548,24);
(476143283697776802978,24);
(468422183132952726740,24);
(460573262220249240485,24);
(452601465985464203410,24);
(444511746060588389465,24);
(436309058259498746754,24);
(427998360175392566791,24);
(419584608800889610671,24);
(411072758171783069880,24);
(402467757035333936928,24);
(393774546544049656484,24);
(384998057975832470683,24);
(376143210481313700240,24);
(367214908859312392543,24);
(358218041361136620669,24);
(349157477524604336044,24);
(340038066038525694287,24);
(330864632638427479810,24);
(321641978034209344382,24);
(312374875870502510550,24);
(303068070720368721877,24);
(293726276113044930307,24);
(284354172596324122988,24);
(274956405834251703824,24);
(265537584740686090270,24);
(256102279649332684359,24);
(246655020520732712157,24);
(237200295186851598233,24);
(227742547633623577692,24);
(218286176322046336163,24);
(208835532548216017655,24);
(199394918842769620351,24);
(189968587410093434423,24);
(180560738607737464008,24);
(171175519466368710516,24);
(161817022250571095152,24)].
Definition fast_31 : list (Z * Z) := [
(152489283060860649410,24);
(143196280477158617963,24);
(133941934244020521144,24);
(124730103997818122337,24);
(115564588036148766046,24);
(106449122129624024050,24);
(973873783762444747338,25);
(883829640984437603628,25);
(794394207830501368397,25);
(705602230641164422306,25);
(617487777488439845697,25);
(530084228865277819307,25);
(443424268807018922721,25);
(357539876443504868529,25);
(272462317982963840894,25);
(188222139126731892130,25);
(104849157914673770899,25);
(223724580001398245952,26);
(-591796176458841909860,26);
(-139779472603022615363,25);
(-219400262443108254274,25);
(-298015899747312779436,25);
(-375601058699388188874,25);
(-452131179258346812058,25);
(-527582470911579511194,25);
(-601931916011169823111,25);
(-675157272696155086192,25);
(-747237077402686759994,25);
(-818150646965978259242,25);
(-887878080315813176041,25);
(-956400259770174112402,25);
(-102369885192932295447,24);
(-108975630817447491838,24);
(-115455586477445233109,24);
(-121808154260462635915,24);
(-128031814648165977134,24);
(-134125126411867404445,24);
(-140086726470483718130,24);
(-145915329711446663599,24);
(-151609728774925367391,24);
(-157168793801964925671,24);
(-162591472146915872604,24);
(-167876788054762332352,24);
(-173023842303760092562,24);
(-178031811814023872061,24);
(-182899949222519527144,24);
(-187627582425063416539,24);
(-192214114085866635134,24);
(-196659021115234305434,24);
(-200961854115964548605,24);
(-205122236799067813760,24);
(-209139865369424642018,24);
(-213014507881963919287,24);
(-216746003569016719827,24);
(-220334262139455170628,24);
(-223779263050288623272,24);
(-227081054751326671731,24);
(-230239753903598189230,24);
(-233255544572162539776,24);
(-236128677394024743099,24);
(-238859468721759089912,24);
(-241448299743606627134,24);
(-243895615580664562507,24);
(-246201924361897988517,24)].
Definition fast_32 : list (Z * Z) := [
(-248367796277648787261,24);
(-250393862612362249915,24);
(-252280814757210175570,24);
(-254029403203337271477,24);
(-255640436516424906718,24);
(-257114780293308988878,24);
(-258453356101321892260,24);
(-259657140401130335366,24);
(-260727163453730896234,24);
(-261664508212373382850,24);
(-262470309200077975623,24);
(-263145751373508769710,24);
(-263692068973905575490,24);
(-264110544365773612825,24);
(-264402506864084673854,24);
(-264569331550674807438,24);
(-264612438080565591254,24);
(-264533289478916812908,24);
(-264333390929326621406,24);
(-264014288554176887285,24);
(-263577568187730454374,24);
(-263024854142685936189,24);
(-262357807970878796362,24);
(-261578127218826830911,24);
(-260687544178804346540,24);
(-259687824636131118095,24);
(-258580766613355161020,24);
(-257368199111998000473,24);
(-256051980852535184582,24);
(-254633999013272917245,24);
(-253116167968770410229,24);
(-251500428028467203686,24);
(-249788744176148520739,24);
(-247983104810888498049,24);
(-246085520490098991209,24);
(-244098022675305284133,24);
(-242022662481256641692,24);
(-239861509428983846149,24);
(-237616650203396260988,24);
(-235290187416002671578,24);
(-232884238373345356290,24);
(-230400933851706944807,24);
(-227842416878660760553,24);
(-225210841522004905167,24);
(-222508371686640725982,24);
(-219737179919906623887,24);
(-216899446225907947382,24);
(-213997356889345798732,24);
(-211033103309352538255,24);
(-208008880843819519632,24);
(-204926887664708660573,24);
(-201789323624807442155,24);
(-198598389136399967663,24);
(-195356284062287273917,24);
(-192065206619610498147,24);
(-188727352296894345393,24);
(-185344912784731391314,24);
(-181920074920499755819,24);
(-178455019647530454055,24);
(-174951920989073971512,24);
(-171412945037461607323,24);
(-167840248958807175192,24);
(-164235980013589989322,24);
(-160602274593463965847,24)].
Definition fast_33 : list (Z * Z) := [
(-156941257274607583660,24);
(-153255039887926981963,24);
(-149545720606400077326,24);
(-145815383049865629223,24);
(-142066095407511174204,24);
(-138299909578337953649,24);
(-134518860329830815736,24);
(-130724964475093245915,24);
(-126920220068654472992,24);
(-123106605621173758290,24);
(-119286079333219134950,24);
(-115460578348350841244,24);
(-111632018025632952099,24);
(-107802291231779830637,24);
(-103973267653065606659,24);
(-100146793127148565233,24);
(-963246889949230804435,25);
(-925087514725346873358,25);
(-887007510436452450671,25);
(-849024318720545515026,25);
(-811155112347393549661,25);
(-773416789754019609908,25);
(-735825969785674924512,25);
(-698398986642887023612,25);
(-661151885034750767074,25);
(-624100415538899748772,25);
(-587260030168200428450,25);
(-550645878143974986741,25);
(-514272801876128782695,25);
(-478155333149380714058,25);
(-442307689515766361233,25);
(-406743770892715146635,25);
(-371477156366324749162,25);
(-336521101199027279356,25);
(-301888534041130525139,25);
(-267592054345224943665,25);
(-233643929982665948157,25);
(-200056095060906951114,25);
(-166840147940797201324,25);
(-134007349452439661363,25);
(-101568621308437851693,25);
(-695345447128813701427,26);
(-379153591650250810366,26);
(-672096145553293655593,27);
(240390951459279597616,26);
(543556015137456058426,26);
(842196931017640123499,26);
(113622850193110927676,25);
(142556897966238257746,25);
(171014006379341248229,25);
(198986689875390831126,25);
(226467806909793172563,25);
(253450559303131682314,25);
(279928491421220740245,25);
(305895489185053302676,25);
(331345778912925430443,25);
(356273925997451632237,25);
(380674833419947510364,25);
(404543740105068599521,25);
(427876219118044463113,25);
(450668175707753267513,25);
(472915845198089502860,25);
(494615790730713200283,25);
(515764900862005805371,25)].
Definition fast_34 : list (Z * Z) := [
(536360387017334339240,25);
(556399780805481871900,25);
(575880931196438774090,25);
(594802001565561985590,25);
(613161466607366493955,25);
(630958109121965409621,25);
(648191016677504891876,25);
(664859578151715343739,25);
(680963480156043240521,25);
(696502703345347587470,25);
(711477518616810702089,25);
(725888483201263885920,25);
(739736436650163245096,25);
(753022496721903708853,25);
(765748055170595645635,25);
(777914773440878826866,25);
(789524578272120806021,25);
(800579657215541123884,25);
(811082454067584148567,25);
(821035664223097817662,25);
(830442229951717527346,25);
(839305335600990616227,25);
(847628402729624154692,25);
(855415085174379832356,25);
(862669264054029689666,25);
(869395042713942022743,25);
(875596741614536786501,25);
(881278893167311284636,25);
(886446236521661512422,25);
(891103712306026604075,25);
(895256457326717546962,25);
(898909799227875892661,25);
(902069251115862640782,25);
(904740506151490363976,25);
(906929432113401867103,25);
(908642065935940279782,25);
(909884608224771455898,25);
(910663417753510066833,25);
(910985005944656069544,25);
(910856031337957275460,25);
(910283294049456589850,25);
(909273730224310103125,25);
(907834406486567112131,25);
(905972514388884682737,25);
(903695364865346147717,25);
(901010382690298824038,25);
(897925100946232214449,25);
(894447155503604388049,25);
(890584279515538464710,25);
(886344297930203114553,25);
(881735122023717546660,25);
(876764743956322256668,25);
(871441231354561004216,25);
(865772721922116491981,25);
(859767418081955635050,25);
(853433581652348287718,25);
(846779528559294970011,25);
(839813623587842351167,25);
(832544275174723505482,25);
(824979930244696123580,25);
(817129069092911340059,25);
(809000200315580515319,25);
(800601855791177764851,25);
(791942585714318722121,25)].
Definition fast_35 : list (Z * Z) := [
(783030953684469709260,25);
(773875531851490379041,25);
(764484896120066966278,25);
(754867621414943666810,25);
(745032277008856680736,25);
(734987421914997258445,25);
(724741600345781298914,25);
(714303337239639759421,25);
(703681133857495075701,25);
(692883463450485250238,25);
(681918767000556897513,25);
(670795449035298084342,25);
(659521873518545653477,25);
(648106359818019012913,25);
(636557178751403541801,25);
(624882548712000070136,25);
(613090631875229413088,25);
(601189530487050480105,25);
(589187283235398522627,25);
(577091861705600261078,25);
(564911166920768371556,25);
(552653025968012133018,25);
(540325188711331935503,25);
(527935324591918643858,25);
(515491019516612150597,25);
(502999772835162253098,25);
(490468994406823114189,25);
(477906001756943685883,25);
(465318017323872241855,25);
(452712165796745444508,25);
(440095471544385224527,25);
(427474856135762158195,25);
(414857135952114382585,25);
(402249019891050019768,25);
(389657107162695045101,25);
(377087885178019617646,25);
(364547727529321324196,25);
(352042892062907349744,25);
(339579519043854685862,25);
(327163629412759540162,25);
(314801123134230239524,25);
(302497777637023744978,25);
(290259246345387218443,25);
(278091057301432964695,25);
(265998611878025348972,25);
(253987183581919854364,25);
(242061916946511448772,25);
(230227826513813061706,25);
(218489795905047869758,25);
(206852576979222047276,25);
(195320789079097866306,25);
(183898918363816234168,25);
(172591317227478167385,25);
(161402203802856600485,25);
(150335661549492530784,25);
(139395638925266073790,25);
(128585949140593193966,25);
(117910269994264146578,25);
(107372143790027249535,25);
(969749773328629209753,26);
(867220420039572420566,26);
(766164739132314657512,26);
(666612741284622437347,26);
(568593089796976951548,26)].
Definition fast_36 : list (Z * Z) := [
(472133104379410701050,26);
(377258765668374723169,26);
(283994720461857994069,26);
(192364287659795633360,26);
(102389464897677183691,26);
(140909358598783243636,27);
(-725119217400925882488,27);
(-157401027526573751796,26);
(-240559589188401177682,26);
(-321972092580435969379,26);
(-401624291213239929447,26);
(-479503195145223449727,26);
(-555597059291959898474,26);
(-629895371166915398527,26);
(-702388838068995278969,26);
(-773069373730662337714,26);
(-841930084443043260571,26);
(-908965254672049638874,26);
(-974170332181420186798,26);
(-103754191267770145960,25);
(-109907772399306088372,25);
(-115877660982095854786,25);
(-121663851302071818753,25);
(-127266445850638015879,25);
(-132685653573596831328,25);
(-137921788081646564831,25);
(-142975265824070264185,25);
(-147846604227169150120,25);
(-152536419799077777845,25);
(-157045426202454864190,25);
(-161374432296745794440,25);
(-165524340151509907705,25);
(-169496143032443776877,25);
(-173290923361651281922,25);
(-176909850653765942752,25);
(-180354179429455134585,25);
(-183625247107888849940,25);
(-186724471879742999741,25);
(-189653350562250020523,25);
(-192413456437866339777,25);
(-195006437078064384194,25);
(-197434012153796016272,25);
(-199697971234102591856,25);
(-201800171574394671614,25);
(-203742535895865872536,25);
(-205527050157544749519,25);
(-207155761322383869926,25);
(-208630775118898238230,25);
(-209954253799722451970,25);
(-211128413898529763743,25);
(-212155523986690494219,25);
(-213037902431062623279,25);
(-213777915154254429865,25);
(-214377973398712400380,25);
(-214840531495946086989,25);
(-215168084642204138245,25);
(-215363166681862903517,25);
(-215428347899803886579,25);
(-215366232824005027408,25);
(-215179458039577262574,25);
(-214870690015422825217,25);
(-214442622944694083432,25);
(-213897976600211963056,25);
(-213239494205938423077,25)].
Definition fast_37 : list (Z * Z) := [
(-212469940325636042692,25);
(-211592098769767039874,25);
(-210608770521689021838,25);
(-209522771684173563140,25);
(-208336931447246940868,25);
(-207054090078323760555,25);
(-205677096935581607638,25);
(-204208808505498906150,25);
(-202652086465450858026,25);
(-201009795772225878085,25);
(-199284802777307897448,25);
(-197479973369733553508,25);
(-195598171147313057406,25);
(-193642255616965921713,25);
(-191615080424908975211,25);
(-189519491617392180451,25);
(-187358325932659067312,25);
(-185134409124775290410,25);
(-182850554319945745078,25);
(-180509560405904254164,25);
(-178114210454942761765,25);
(-175667270181107023892,25);
(-173171486432067083623,25);
(-170629585716134836285,25);
(-168044272764881711800,25);
(-165418229131769521309,25);
(-162754111827191523261,25);
(-160054551990284544996,25);
(-157322153597849753270,25);
(-154559492210684566130,25);
(-151769113757617390406,25);
(-148953533357483810943,25);
(-146115234179280960335,25);
(-143256666340692667526,25);
(-140380245845161517285,25);
(-137488353557644599467,25);
(-134583334219182035850,25);
(-131667495500361276861,25);
(-128743107093750131593,25);
(-125812399845332226092,25);
(-122877564924967183814,25);
(-119940753035859587103,25);
(-117004073663007361519,25);
(-114069594360560160192,25);
(-111139340078022052344,25);
(-108215292525168970740,25);
(-105299389575568482923,25);
(-102393524708539662493,25);
(-994995464893742348120,26);
(-966192580876271611343,26);
(-937544168332491989210,26);
(-909067338103246418157,26);
(-880778734881422739372,26);
(-852694533893248795902,26);
(-824830437947059051977,26);
(-797201674846333152320,26);
(-769822995163491404110,26);
(-742708670370925303302,26);
(-715872491325360909230,26);
(-689327767101633304933,26);
(-663087324171573705124,26);
(-637163505923899323223,26);
(-611568172520321447157,26);
(-586312701083429459631,26)].
Definition fast_38 : list (Z * Z) := [
(-561407986211404469277,26);
(-536864440814655013182,26);
(-512691997269171846217,26);
(-488900108881444233564,26);
(-465497751659457443244,26);
(-442493426384305196255,26);
(-419895160976678087265,26);
(-397710513152554464493,26);
(-375946573362158312445,26);
(-354609968006129461300,26);
(-333706862922910230812,26);
(-313242967141053148128,26);
(-293223536890220278037,26);
(-273653379864365903313,26);
(-254536859730841838172,26);
(-235877900878616331091,26);
(-217679993399191934131,26);
(-199946198293410626841,26);
(-182679152897453787459,26);
(-165881076521146377169,26);
(-149553776291791911430,26);
(-133698653196547020166,26);
(-118316708316432299485,26);
(-103408549244911473199,26);
(-889743966841013678409,27);
(-750140912114827378233,27);
(-615271002100918799020,27);
(-485125249549975873449,27);
(-359691078491283933177,27);
(-238952398011216803052,27);
(-122889677382464548894,27);
(0,0)].
Definition fast_decimals : list (Z * Z) := concat [
fast_0; fast_1; fast_2; fast_3; fast_4; fast_5; fast_6; fast_7;
fast_8; fast_9; fast_10; fast_11; fast_12; fast_13; fast_14; fast_15;
fast_16; fast_17; fast_18; fast_19; fast_20; fast_21; fast_22; fast_23;
fast_24; fast_25; fast_26; fast_27; fast_28; fast_29; fast_30; fast_31;
fast_32; fast_33; fast_34; fast_35; fast_36; fast_37; fast_38].
