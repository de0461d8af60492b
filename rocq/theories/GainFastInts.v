(** The coefficients of fastest_coeffs.h as integers (GainUnits.v). Generated by a script; [fast_same] checks every entry against the table. *)
From Coq Require Import ZArith List Bool.
From Verif Require Import Base SincTables GainUnits.
Import ListNotations.
Local Open Scope Z_scope.

Definition fast_ints_0 : list Z := [
892786688; 892723968; 892536000; 892222720; 891784256; 891220672; 890532160; 889718912; 888781056; 887718912; 886532736; 885222848; 883789504; 882233152; 880554112; 878752896;
876829952; 874785728; 872620800; 870335680; 867930944; 865407232; 862765248; 860005504; 857128896; 854136000; 851027648; 847804672; 844467840; 841017984; 837456064; 833782912;
829999488; 826106752; 822105664; 817997248; 813782656; 809462784; 805038848; 800511872; 795883136; 791153664; 786324800; 781397632; 776373440; 771253504; 766039168; 760731648;
755332288; 749842496; 744263616; 738597056; 732844288; 727006656; 721085696; 715082816; 708999552; 702837376; 696597952; 690282688; 683893184; 677431040; 670897856; 664295296;
657624896; 650888384; 644087360; 637223488; 630298560; 623314112; 616272000; 609173888; 602021440; 594816512; 587560768; 580256064; 572904064; 565506624; 558065536; 550582528;
543059456; 535498080; 527900256; 520267776; 512602496; 504906208; 497180768; 489427968; 481649696; 473847744; 466024000; 458180256; 450318368; 442440160; 434547520; 426642240;
418726176; 410801152; 402868992; 394931520; 386990592; 379048000; 371105568; 363165056; 355228352; 347297184; 339373344; 331458656; 323554848; 315663680; 307786944; 299926368;
292083680; 284260608; 276458848; 268680096; 260926096; 253198480; 245498912; 237829056; 230190528; 222584976; 215013984; 207479152; 199982064; 192524272; 185107312; 177732720;
170402000; 163116656; 155878144; 148687920; 141547424; 134458080; 127421280; 120438400; 113510792; 106639792; 99826720; 93072872; 86379504; 79747888; 73179232; 66674752;
60235624; 53863008; 47558044; 41321836; 35155476; 29060024; 23036522; 17085982; 11209392; 5407718; -318102; -5967157; -11538558; -17031444; -22444980; -27778358;
-33030794; -38201536; -43289852; -48295036; -53216424; -58053356; -62805216; -67471416; -72051376; -76544568; -80950480; -85268632; -89498552; -93639824; -97692048; -101654848;
-105527872; -109310816; -113003376; -116605296; -120116344; -123536304; -126865008; -130102296; -133248048; -136302160; -139264576; -142135232; -144914128; -147601280; -150196720; -152700496;
-155112736; -157433520; -159663024; -161801408; -163848848; -165805600; -167671904; -169448032; -171134272; -172730960; -174238448; -175657104; -176987328; -178229536; -179384192; -180451760;
-181432736; -182327632; -183136992; -183861392; -184501392; -185057616; -185530688; -185921264; -186230016; -186457648; -186604848; -186672384; -186660976; -186571424; -186404528; -186161072;
-185841904; -185447856; -184979840; -184438688; -183825328; -183140688; -182385680; -181561280; -180668432; -179708128; -178681376; -177589168; -176432544; -175212544; -173930208; -172586608;
-171182832; -169719952; -168199088; -166621344; -164987840; -163299712; -161558096; -159764176; -157919088; -156024000; -154080112; -152088592; -150050656; -147967472; -145840288; -143670288;
-141458704; -139206768; -136915696; -134586720; -132221096; -129820048; -127384832; -124916688; -122416872; -119886624; -117327200; -114739864; -112125856; -109486432; -106822848; -104136360;
-101428216; -98699656; -95951944; -93186312; -90404008; -87606264; -84794328; -81969416; -79132760; -76285584; -73429104; -70564528; -67693056; -64815892; -61934228; -59049244;
-56162116; -53274016; -50386100; -47499524; -44615428; -41734944; -38859196; -35989296; -33126350; -30271450; -27425676; -24590100; -21765778; -18953758; -16155075; -13370749;
-10601790; -7849194; -5113944; -2397009; 300656; 2978112; 5634430; 8268698; 10880021; 13467516; 16030315; 18567568; 21078442; 23562114; 26017782; 28444662;
30841980; 33208984; 35544936; 37849120; 40120832; 42359384; 44564116; 46734368; 48869520; 50968948; 53032060; 55058276; 57047040; 58997808; 60910060; 62783288;
64617008; 66410752; 68164072; 69876544; 71547752; 73177296; 74764816; 76309952; 77812368; 79271752; 80687800; 82060240; 83388816; 84673272; 85913392; 87108984;
88259856; 89365832; 90426784; 91442576; 92413104; 93338264; 94217992; 95052232; 95840952; 96584136; 97281776; 97933888; 98540528; 99101728; 99617568; 100088144;
100513552; 100893920; 101229392; 101520120; 101766280; 101968064; 102125680; 102239352; 102309312; 102335824; 102319160; 102259592; 102157440; 102013016; 101826640; 101598672;
101329464; 101019400; 100668856; 100278248; 99847984; 99378496; 98870216; 98323616; 97739160; 97117312; 96458584; 95763464; 95032472; 94266144; 93465000; 92629600;
91760496; 90858264; 89923472; 88956712; 87958576; 86929680; 85870632; 84782056; 83664584; 82518856; 81345512; 80145208; 78918608; 77666368; 76389176; 75087712;
73762648; 72414680; 71044504; 69652816; 68240336; 66807752; 65355792; 63885168; 62396600; 60890812; 59368524; 57830468; 56277376; 54709980; 53129008; 51535196;
49929280; 48312000; 46684084; 45046276; 43399308; 41743916; 40080832; 38410792; 36734528; 35052768; 33366240; 31675672; 29981786; 28285304; 26586940; 24887410;
23187422; 21487686; 19788902; 18091766; 16396973; 14705212; 13017163; 11333506; 9654912; 7982046; 6315569; 4656134; 3004388; 1360970; -273486; -1898355;
-3513019; -5116867; -6709296; -8289712; -9857529; -11412169; -12953062; -14479648; -15991376; -17487704; -18968098; -20432036; -21879004; -23308498; -24720024; -26113098;
-27487246; -28842008; -30176928; -31491566; -32785492; -34058280; -35309528; -36538836; -37745816; -38930088; -40091296; -41229080; -42343104; -43433040; -44498564; -45539372;
-46555172; -47545680; -48510628; -49449752; -50362812; -51249568; -52109804; -52943308; -53749880; -54529336; -55281500; -56006212; -56703324; -57372700; -58014208; -58627744;
-59213204; -59770500; -60299556; -60800308; -61272700; -61716692; -62132260; -62519384; -62878064; -63208300; -63510116; -63783540; -64028612; -64245388; -64433936; -64594324;
-64726648; -64831000; -64907488; -64956240; -64977380; -64971056; -64937412; -64876620; -64788848; -64674280; -64533108; -64365540; -64171784; -63952068; -63706620; -63435688;
-63139516; -62818368; -62472512; -62102228; -61707800; -61289528; -60847708; -60382656; -59894692; -59384140; -58851340; -58296632; -57720364; -57122892; -56504584; -55865808;
-55206936; -54528360; -53830464; -53113644; -52378304; -51624844; -50853680; -50065232; -49259916; -48438164; -47600404; -46747076; -45878616; -44995468; -44098080; -43186904;
-42262396; -41325016; -40375216; -39413468; -38440232; -37455980; -36461184; -35456308; -34441836; -33418240; -32385996; -31345582; -30297478; -29242162; -28180116; -27111818;
-26037750; -24958394; -23874226; -22785730; -21693382; -20597660; -19499042; -18398002; -17295018; -16190557; -15085094; -13979096; -12873029; -11767357; -10662543; -9559044;
-8457316; -7357812; -6260981; -5167270; -4077120; -2990970; -1909254; -832404; 239154; 1305000; 2364716; 3417889; 4464111; 5502980; 6534098; 7557074;
8571520; 9577055; 10573303; 11559896; 12536468; 13502663; 14458128; 15402520; 16335498; 17256730; 18165892; 19062662; 19946732; 20817792; 21675548; 22519706;
23349984; 24166104; 24967798; 25754802; 26526864; 27283734; 28025176; 28750958; 29460854; 30154650; 30832138; 31493116; 32137394; 32764784; 33375114; 33968212;
34543920; 35102088; 35642568; 36165224; 36669932; 37156568; 37625024; 38075200; 38506992; 38920320; 39315104; 39691276; 40048768; 40387532; 40707520; 41008692;
41291016; 41554480; 41799060; 42024760; 42231572; 42419516; 42588604; 42738860; 42870324; 42983032; 43077040; 43152396; 43209172; 43247432; 43267260; 43268740;
43251972; 43217048; 43164080; 43093184; 43004480; 42898100; 42774172; 42632848; 42474272; 42298596; 42105988; 41896616; 41670648; 41428268; 41169664; 40895024;
40604552; 40298444; 39976916; 39640176; 39288448; 38921960; 38540936; 38145612; 37736232; 37313036; 36876276; 36426208; 35963080; 35487164; 34998724; 34498028;
33985348; 33460966; 32925160; 32378216; 31820420; 31252066; 30673444; 30084852; 29486588; 28878956; 28262260; 27636804; 27002900; 26360854; 25710984; 25053600;
24389018; 23717558; 23039536; 22355272; 21665086; 20969300; 20268238; 19562222; 18851572; 18136616; 17417674; 16695072; 15969133; 15240181; 14508538; 13774527;
13038470; 12300688; 11561502; 10821229; 10080190; 9338699; 8597073; 7855625; 7114667; 6374510; 5635462; 4897829; 4161916; 3428025; 2696454; 1967501;
1241461; 518625; -200717; -916281; -1627784; -2334945; -3037488; -3735140; -4427632; -5114697; -5796072; -6471500; -7140725; -7803497; -8459568; -9108695;
-9750641; -10385169; -11012051; -11631061; -12241977; -12844583; -13438666; -14024020; -14600441; -15167732; -15725700; -16274157; -16812920; -17341810; -17860656; -18369288;
-18867546; -19355270; -19832310; -20298516; -20753750; -21197874; -21630760; -22052278; -22462310; -22860744; -23247468; -23622380; -23985382; -24336382; -24675294; -25002034;
-25316530; -25618708; -25908506; -26185866; -26450732; -26703058; -26942800; -27169924; -27384398; -27586194; -27775296; -27951686; -28115356; -28266302; -28404526; -28530034;
-28642842; -28742962; -28830422; -28905248; -28967476; -29017140; -29054288; -29078966; -29091228; -29091136; -29078752; -29054144; -29017386; -28968556; -28907738; -28835020;
-28750492; -28654254; -28546406; -28427052; -28296304; -28154274; -28001084; -27836856; -27661714; -27475792; -27279222; -27072142; -26854698; -26627032; -26389294; -26141640;
-25884222; -25617204; -25340746; -25055014; -24760178; -24456412; -24143888; -23822786; -23493286; -23155572; -22809828; -22456244; -22095010; -21726318; -21350364; -20967346;
-20577462; -20180914; -19777904; -19368636; -18953318; -18532156; -18105358; -17673138; -17235704; -16793270; -16346050; -15894259; -15438111; -14977824; -14513613; -14045697;
-13574293; -13099619; -12621894; -12141337; -11658165; -11172599; -10684855; -10195154; -9703711; -9210747; -8716476; -8221116; -7724884; -7227993; -6730659; -6233095;
-5735513; -5238124; -4741139; -4244766; -3749213; -3254686; -2761389; -2269526; -1779297; -1290902; -804540; -320404; 161308; 640409; 1116706; 1590013;
2060145; 2526918; 2990151; 3449668; 3905292; 4356851; 4804173; 5247092; 5685443; 6119063; 6547793; 6971478; 7389963; 7803099; 8210737; 8612736;
9008952; 9399249; 9783492; 10161550; 10533295; 10898602; 11257351; 11609423; 11954706; 12293087; 12624460; 12948721; 13265770; 13575511; 13877851; 14172701;
14459975; 14739592; 15011473; 15275544; 15531735; 15779978; 16020211; 16252373; 16476410; 16692269; 16899902; 17099266; 17290320; 17473024; 17647350; 17813264;
17970744; 18119766; 18260314; 18392370; 18515928; 18630978; 18737516; 18835544; 18925066; 19006090; 19078626; 19142688; 19198296; 19245472; 19284238; 19314628;
19336670; 19350400; 19355860; 19353088; 19342132; 19323040; 19295866; 19260662].
Definition fast_ints_1 : list Z := [
19217488; 19166406; 19107480; 19040776; 18966366; 18884324; 18794724; 18697648; 18593174; 18481390; 18362382; 18236238; 18103054; 17962922; 17815940; 17662210;
17501830; 17334908; 17161550; 16981862; 16795960; 16603952; 16405956; 16202088; 15992466; 15777213; 15556450; 15330300; 15098891; 14862349; 14620803; 14374383;
14123221; 13867450; 13607204; 13342619; 13073830; 12800977; 12524196; 12243628; 11959413; 11671692; 11380607; 11086300; 10788916; 10488597; 10185487; 9879732;
9571475; 9260863; 8948041; 8633153; 8316347; 7997767; 7677559; 7355870; 7032843; 6708624; 6383359; 6057191; 5730265; 5402725; 5074713; 4746371;
4417843; 4089269; 3760790; 3432544; 3104672; 2777310; 2450596; 2124665; 1799652; 1475691; 1152914; 831453; 511436; 192993; -123748; -438664;
-751629; -1062521; -1371218; -1677601; -1981553; -2282956; -2581697; -2877662; -3170742; -3460827; -3747809; -4031585; -4312051; -4589104; -4862647; -5132583;
-5398815; -5661252; -5919802; -6174378; -6424892; -6671261; -6913402; -7151236; -7384686; -7613677; -7838136; -8057993; -8273179; -8483630; -8689282; -8890074;
-9085949; -9276850; -9462723; -9643519; -9819188; -9989685; -10154966; -10314989; -10469718; -10619114; -10763146; -10901781; -11034992; -11162751; -11285037; -11401827;
-11513103; -11618850; -11719052; -11813700; -11902784; -11986298; -12064238; -12136603; -12203394; -12264614; -12320269; -12370367; -12414919; -12453936; -12487436; -12515434;
-12537950; -12555006; -12566628; -12572839; -12573670; -12569151; -12559315; -12544196; -12523832; -12498261; -12467525; -12431666; -12390731; -12344764; -12293816; -12237937;
-12177179; -12111597; -12041246; -11966186; -11886474; -11802173; -11713344; -11620053; -11522366; -11420349; -11314072; -11203604; -11089019; -10970388; -10847787; -10721290;
-10590975; -10456921; -10319206; -10177910; -10033116; -9884906; -9733363; -9578572; -9420618; -9259587; -9095567; -8928645; -8758910; -8586452; -8411359; -8233723;
-8053636; -7871187; -7686471; -7499578; -7310603; -7119638; -6926777; -6732115; -6535744; -6337760; -6138257; -5937329; -5735072; -5531579; -5326945; -5121265;
-4914633; -4707144; -4498892; -4289970; -4080471; -3870491; -3660121; -3449453; -3238581; -3027596; -2816588; -2605649; -2394869; -2184337; -1974143; -1764373;
-1555116; -1346459; -1138487; -931286; -724939; -519531; -315144; -111859; 90241; 291080; 490578; 688657; 885240; 1080253; 1273620; 1465270;
1655129; 1843128; 2029196; 2213267; 2395272; 2575145; 2752824; 2928244; 3101344; 3272064; 3440345; 3606129; 3769361; 3929986; 4087950; 4243202;
4395693; 4545372; 4692194; 4836112; 4977082; 5115062; 5250011; 5381890; 5510660; 5636285; 5758730; 5877963; 5993952; 6106667; 6216080; 6322163;
6424893; 6524244; 6620196; 6712728; 6801822; 6887460; 6969627; 7048309; 7123493; 7195170; 7263329; 7327964; 7389069; 7446638; 7500670; 7551163;
7598117; 7641534; 7681417; 7717772; 7750604; 7779922; 7805735; 7828053; 7846889; 7862256; 7874170; 7882646; 7887704; 7889361; 7887640; 7882561;
7874147; 7862425; 7847418; 7829155; 7807664; 7782974; 7755116; 7724122; 7690026; 7652861; 7612663; 7569468; 7523314; 7474240; 7422285; 7367490;
7309896; 7249546; 7186483; 7120753; 7052400; 6981470; 6908010; 6832068; 6753693; 6672934; 6589841; 6504464; 6416856; 6327067; 6235152; 6141162;
6045152; 5947176; 5847289; 5745547; 5642004; 5536718; 5429745; 5321142; 5210966; 5099275; 4986127; 4871581; 4755693; 4638525; 4520133; 4400577;
4279916; 4158210; 4035518; 3911899; 3787412; 3662117; 3536073; 3409340; 3281976; 3154041; 3025594; 2896694; 2767398; 2637767; 2507857; 2377726;
2247433; 2117035; 1986588; 1856150; 1725777; 1595524; 1465447; 1335602; 1206042; 1076822; 947995; 819616; 691735; 564405; 437678; 311605;
186234; 61617; -62197; -185161; -307228; -428351; -548482; -667578; -785592; -902482; -1018204; -1132716; -1245976; -1357944; -1468580; -1577845;
-1685701; -1792110; -1897036; -2000444; -2102299; -2202567; -2301216; -2398213; -2493528; -2587131; -2678992; -2769084; -2857379; -2943852; -3028477; -3111229;
-3192087; -3271027; -3348028; -3423070; -3496133; -3567200; -3636253; -3703276; -3768254; -3831171; -3892015; -3950774; -4007436; -4061992; -4114430; -4164744;
-4212927; -4258970; -4302870; -4344622; -4384222; -4421668; -4456958; -4490092; -4521070; -4549894; -4576565; -4601088; -4623465; -4643703; -4661806; -4677783;
-4691640; -4703386; -4713030; -4720584; -4726057; -4729463; -4730813; -4730122; -4727403; -4722673; -4715946; -4707241; -4696574; -4683963; -4669428; -4652988;
-4634663; -4614476; -4592446; -4568598; -4542953; -4515536; -4486371; -4455483; -4422897; -4388639; -4352735; -4315214; -4276103; -4235429; -4193221; -4149510;
-4104323; -4057692; -4009646; -3960216; -3909435; -3857332; -3803941; -3749294; -3693423; -3636361; -3578142; -3518799; -3458365; -3396876; -3334364; -3270865;
-3206414; -3141044; -3074791; -3007691; -2939778; -2871088; -2801656; -2731518; -2660709; -2589265; -2517222; -2444615; -2371480; -2297853; -2223769; -2149263;
-2074372; -1999131; -1923574; -1847738; -1771656; -1695365; -1618899; -1542292; -1465579; -1388795; -1311972; -1235145; -1158347; -1081612; -1004973; -928462;
-852112; -775955; -700022; -624346; -548957; -473886; -399163; -324820; -250884; -177386; -104355; -31818; 40195; 111658; 182544; 252826;
322477; 391471; 459784; 527391; 594267; 660388; 725732; 790275; 853995; 916870; 978880; 1040003; 1100220; 1159510; 1217855; 1275237;
1331637; 1387038; 1441423; 1494777; 1547083; 1598327; 1648493; 1697569; 1745540; 1792395; 1838121; 1882706; 1926140; 1968412; 2009512; 2049432;
2088163; 2125696; 2162025; 2197142; 2231042; 2263718; 2295166; 2325381; 2354360; 2382098; 2408594; 2433845; 2457850; 2480607; 2502116; 2522377;
2541391; 2559159; 2575683; 2590965; 2605007; 2617814; 2629388; 2639735; 2648859; 2656766; 2663461; 2668951; 2673243; 2676343; 2678261; 2679004;
2678581; 2677001; 2674274; 2670409; 2665418; 2659312; 2652101; 2643797; 2634413; 2623960; 2612453; 2599904; 2586326; 2571735; 2556143; 2539566;
2522019; 2503517; 2484076; 2463711; 2442439; 2420276; 2397239; 2373345; 2348611; 2323055; 2296694; 2269546; 2241630; 2212964; 2183566; 2153455;
2122650; 2091170; 2059034; 2026261; 1992872; 1958885; 1924321; 1889199; 1853538; 1817360; 1780684; 1743530; 1705918; 1667869; 1629402; 1590539;
1551299; 1511703; 1471771; 1431524; 1390981; 1350163; 1309089; 1267781; 1226259; 1184542; 1142650; 1100603; 1058421; 1016124; 973731; 931262;
888736; 846173; 803591; 761009; 718446; 675922; 633453; 591059; 548757; 506567; 464504; 422587; 380834; 339260; 297884; 256721;
215789; 175103; 134680; 94534; 54682; 15139; -24080; -62962; -101490; -139652; -177434; -214821; -251801; -288360; -324487; -360168;
-395391; -430145; -464418; -498199; -531478; -564243; -596485; -628193; -659359; -689972; -720024; -749506; -778410; -806729; -834454; -861578;
-888094; -913996; -939277; -963932; -987954; -1011339; -1034081; -1056176; -1077620; -1098409; -1118538; -1138005; -1156807; -1174940; -1192404; -1209195;
-1225311; -1240753; -1255518; -1269606; -1283016; -1295748; -1307802; -1319180; -1329881; -1339906; -1349258; -1357938; -1365947; -1373288; -1379963; -1385976;
-1391329; -1396026; -1400070; -1403466; -1406216; -1408327; -1409801; -1410645; -1410864; -1410462; -1409446; -1407820; -1405593; -1402768; -1399354; -1395357;
-1390783; -1385640; -1379935; -1373676; -1366870; -1359525; -1351650; -1343252; -1334340; -1324922; -1315007; -1304604; -1293722; -1282370; -1270558; -1258294;
-1245588; -1232450; -1218889; -1204916; -1190540; -1175771; -1160620; -1145096; -1129211; -1112973; -1096395; -1079486; -1062256; -1044717; -1026879; -1008752;
-990348; -971677; -952751; -933579; -914172; -894542; -874699; -854654; -834418; -814002; -793416; -772671; -751779; -730749; -709593; -688320;
-666943; -645470; -623913; -602283; -580589; -558842; -537052; -515229; -493384; -471526; -449666; -427813; -405976; -384167; -362393; -340665;
-318992; -297384; -275848; -254395; -233033; -211771; -190618; -169581; -148670; -127893; -107257; -86771; -66443; -46280; -26289; -6479;
13144; 32572; 51800; 70820; 89625; 108208; 126565; 144688; 162572; 180210; 197598; 214730; 231600; 248203; 264535; 280591;
296365; 311854; 327054; 341960; 356569; 370876; 384878; 398572; 411955; 425023; 437774; 450205; 462313; 474097; 485553; 496681;
507477; 517941; 528071; 537866; 547325; 556445; 565228; 573672; 581776; 589541; 596965; 604050; 610795; 617201; 623267; 628995;
634386; 639439; 644157; 648541; 652591; 656310; 659698; 662759; 665493; 667902; 669989; 671757; 673207; 674342; 675164; 675677;
675883; 675786; 675388; 674692; 673703; 672423; 670856; 669006; 666876; 664470; 661792; 658846; 655636; 652166; 648441; 644465;
640242; 635777; 631074; 626138; 620973; 615584; 609977; 604155; 598124; 591888; 585453; 578823; 572005; 565002; 557819; 550463;
542938; 535249; 527403; 519402; 511254; 502964; 494536; 485977; 477290; 468483; 459559; 450525; 441386; 432146; 422812; 413388;
403880; 394294; 384633; 374905; 365113; 355263; 345360; 335409; 325416; 315386; 305322; 295232; 285118; 274987; 264843; 254691;
244536; 234383; 224235; 214098; 203977; 193875; 183798; 173749; 163734; 153755; 143819; 133927; 124086; 114298; 104568; 94900;
85297; 75763; 66302; 56917; 47612; 38390; 29255; 20210].
Definition fast_ints_2 : list Z := [
11258; 2402; -6354; -15008; -23557; -31999; -40329; -48547; -56648; -64631; -72494; -80233; -87848; -95335; -102692; -109918;
-117011; -123969; -130790; -137473; -144015; -150416; -156675; -162789; -168758; -174581; -180256; -185782; -191160; -196387; -201463; -206388;
-211161; -215781; -220248; -224562; -228722; -232729; -236582; -240281; -243826; -247218; -250456; -253541; -256473; -259253; -261880; -264357;
-266682; -268858; -270884; -272762; -274491; -276074; -277512; -278804; -279953; -280960; -281825; -282550; -283137; -283586; -283900; -284079;
-284125; -284040; -283825; -283483; -283014; -282420; -281704; -280867; -279911; -278837; -277648; -276347; -274933; -273411; -271781; -270046;
-268208; -266269; -264232; -262098; -259869; -257549; -255138; -252640; -250057; -247391; -244643; -241818; -238916; -235941; -232894; -229777;
-226595; -223347; -220038; -216669; -213243; -209762; -206228; -202644; -199012; -195335; -191614; -187853; -184053; -180217; -176347; -172445;
-168514; -164556; -160573; -156568; -152542; -148498; -144438; -140364; -136279; -132184; -128082; -123974; -119863; -115751; -111640; -107531;
-103427; -99330; -95241; -91163; -87097; -83044; -79008; -74990; -70990; -67012; -63056; -59125; -55219; -51341; -47492; -43673;
-39887; -36133; -32415; -28732; -25087; -21480; -17914; -14388; -10905; -7466; -4071; -721; 2581; 5836; 9043; 12200;
15306; 18362; 21366; 24316; 27214; 30057; 32845; 35577; 38254; 40874; 43437; 45942; 48390; 50778; 53108; 55379;
57591; 59742; 61834; 63866; 65837; 67748; 69598; 71388; 73117; 74786; 76394; 77941; 79428; 80855; 82221; 83527;
84774; 85961; 87089; 88158; 89168; 90119; 91013; 91849; 92628; 93350; 94016; 94626; 95181; 95681; 96127; 96519;
96858; 97145; 97380; 97564; 97698; 97781; 97816; 97802; 97740; 97632; 97477; 97278; 97033; 96745; 96413; 96040;
95625; 95170; 94675; 94141; 93570; 92961; 92316; 91636; 90922; 90174; 89393; 88581; 87738; 86865; 85963; 85034;
84077; 83094; 82085; 81053; 79997; 78918; 77818; 76697; 75557; 74397; 73220; 72026; 70815; 69589; 68349; 67096;
65830; 64552; 63263; 61964; 60656; 59340; 58016; 56686; 55350; 54009; 52663; 51314; 49963; 48609; 47254; 45899;
44544; 43191; 41839; 40489; 39143; 37800; 36462; 35128; 33801; 32480; 31166; 29859; 28561; 27271; 25991; 24720;
23460; 22210; 20972; 19745; 18531; 17330; 16142; 14967; 13806; 12660; 11528; 10412; 9311; 8226; 7157; 6105;
5069; 4050; 3049; 2065; 1099; 151; -778; -1690; -2582; -3457; -4312; -5148; -5965; -6763; -7541; -8300;
-9040; -9759; -10460; -11140; -11801; -12442; -13063; -13665; -14247; -14809; -15351; -15874; -16378; -16862; -17327; -17773;
-18199; -18606; -18995; -19365; -19716; -20049; -20363; -20660; -20938; -21199; -21442; -21668; -21876; -22068; -22243; -22401;
-22543; -22669; -22780; -22874; -22954; -23018; -23068; -23103; -23124; -23131; -23124; -23104; -23071; -23025; -22967; -22896;
-22813; -22719; -22613; -22497; -22370; -22232; -22084; -21926; -21759; -21583; -21398; -21204; -21002; -20792; -20574; -20349;
-20117; -19878; -19633; -19382; -19124; -18862; -18594; -18321; -18043; -17761; -17475; -17185; -16892; -16595; -16296; -15993;
-15689; -15382; -15073; -14762; -14450; -14137; -13823; -13509; -13193; -12878; -12563; -12248; -11933; -11619; -11306; -10994;
-10683; -10374; -10066; -9761; -9457; -9155; -8856; -8559; -8265; -7974; -7686; -7401; -7119; -6841; -6566; -6295;
-6028; -5764; -5504; -5249; -4998; -4751; -4508; -4270; -4036; -3807; -3583; -3363; -3148; -2938; -2733; -2532;
-2337; -2146; -1961; -1781; -1605; -1435; -1270; -1110; -955; -805; -660; -520; -386; -256; -131; 0].
Definition fast_ints : list Z := fast_ints_0 ++ fast_ints_1 ++ fast_ints_2.

Lemma fast_same : same_units (snd fastest_table) fast_ints = true.
Proof. vm_cast_no_check (eq_refl true). Qed.
