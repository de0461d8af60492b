(** The coefficients of mid_qual_coeffs.h as integers (GainUnits.v). Generated by a script; [mid_same] checks every entry against the table. *)
From Coq Require Import ZArith List Bool.
From Verif Require Import Base SincTables GainUnits.
Import ListNotations.
Local Open Scope Z_scope.

Definition mid_ints_0 : list Z := [
986836608; 986830912; 986813824; 986785344; 986745472; 986694144; 986631488; 986557376; 986471936; 986375104; 986266816; 986147200; 986016192; 985873792; 985720000; 985554880;
985378368; 985190464; 984991168; 984780608; 984558592; 984325312; 984080640; 983824640; 983557312; 983278592; 982988608; 982687296; 982374720; 982050752; 981715520; 981369024;
981011200; 980642176; 980261824; 979870208; 979467328; 979053248; 978627904; 978191296; 977743552; 977284544; 976814336; 976332992; 975840384; 975336704; 974821760; 974295744;
973758592; 973210304; 972650880; 972080384; 971498752; 970906048; 970302336; 969687488; 969061632; 968424768; 967776896; 967118016; 966448128; 965767296; 965075456; 964372736;
963659072; 962934464; 962198912; 961452544; 960695296; 959927168; 959148224; 958358464; 957557888; 956746560; 955924416; 955091520; 954247872; 953393536; 952528512; 951652736;
950766336; 949869312; 948961664; 948043328; 947114496; 946175040; 945225024; 944264512; 943293440; 942311936; 941319872; 940317440; 939304512; 938281216; 937247552; 936203456;
935149056; 934084352; 933009280; 931923968; 930828416; 929722624; 928606592; 927480384; 926344000; 925197504; 924040896; 922874176; 921697408; 920510528; 919313664; 918106816;
916889984; 915663232; 914426560; 913179968; 911923520; 910657216; 909381056; 908095168; 906799488; 905494080; 904178944; 902854144; 901519680; 900175616; 898821888; 897458624;
896085824; 894703488; 893311680; 891910400; 890499712; 889079616; 887650112; 886211328; 884763200; 883305792; 881839104; 880363200; 878878144; 877383872; 875880512; 874368000;
872846464; 871315840; 869776256; 868227712; 866670144; 865103744; 863528448; 861944256; 860351296; 858749568; 857139072; 855519808; 853891904; 852255360; 850610240; 848956480;
847294144; 845623360; 843944064; 842256320; 840560192; 838855680; 837142784; 835421632; 833692160; 831954496; 830208576; 828454528; 826692352; 824922112; 823143808; 821357440;
819563072; 817760832; 815950656; 814132544; 812306688; 810472960; 808631488; 806782272; 804925440; 803060864; 801188736; 799309056; 797421824; 795527040; 793624832; 791715200;
789798208; 787873856; 785942208; 784003328; 782057152; 780103808; 778143360; 776175808; 774201152; 772219456; 770230784; 768235200; 766232704; 764223360; 762207168; 760184192;
758154432; 756118016; 754074944; 752025216; 749968960; 747906112; 745836800; 743761024; 741678848; 739590336; 737495488; 735394304; 733286912; 731173312; 729053568; 726927680;
724795712; 722657728; 720513792; 718363840; 716208064; 714046400; 711878912; 709705664; 707526656; 705342016; 703151744; 700955840; 698754368; 696547392; 694334976; 692117184;
689893952; 687665408; 685431552; 683192512; 680948224; 678698816; 676444288; 674184640; 671920064; 669650496; 667375936; 665096576; 662812352; 660523328; 658229504; 655931072;
653627904; 651320192; 649007872; 646691072; 644369792; 642044096; 639713984; 637379520; 635040832; 632697856; 630350720; 627999424; 625643968; 623284544; 620921024; 618553600;
616182272; 613807040; 611427968; 609045184; 606658624; 604268352; 601874496; 599477056; 597076032; 594671552; 592263616; 589852224; 587437568; 585019520; 582598272; 580173760;
577746176; 575315392; 572881536; 570444736; 568004864; 565562112; 563116480; 560668032; 558216768; 555762816; 553306112; 550846848; 548384896; 545920448; 543453504; 540984128;
538512320; 536038144; 533561664; 531082944; 528602016; 526118912; 523633696; 521146400; 518657120; 516165824; 513672640; 511177568; 508680672; 506181984; 503681568; 501179456;
498675712; 496170400; 493663520; 491155168; 488645376; 486134176; 483621632; 481107776; 478592672; 476076352; 473558880; 471040320; 468520672; 466000032; 463478400; 460955872;
458432480; 455908256; 453383264; 450857536; 448331104; 445804064; 443276448; 440748288; 438219648; 435690560; 433161088; 430631232; 428101120; 425570752; 423040160; 420509408;
417978560; 415447680; 412916736; 410385856; 407855040; 405324352; 402793856; 400263584; 397733568; 395203872; 392674528; 390145600; 387617120; 385089152; 382561728; 380034912;
377508736; 374983232; 372458496; 369934528; 367411392; 364889120; 362367776; 359847392; 357328032; 354809760; 352292544; 349776512; 347261696; 344748096; 342235776; 339724800;
337215232; 334707072; 332200384; 329695200; 327191616; 324689600; 322189280; 319690624; 317193728; 314698624; 312205344; 309713952; 307224480; 304736992; 302251520; 299768064;
297286752; 294807584; 292330592; 289855840; 287383360; 284913184; 282445408; 279980032; 277517120; 275056672; 272598816; 270143520; 267690832; 265240832; 262793552; 260349024;
257907296; 255468416; 253032416; 250599360; 248169248; 245742176; 243318144; 240897200; 238479408; 236064800; 233653424; 231245296; 228840480; 226439008; 224040928; 221646288;
219255120; 216867456; 214483344; 212102832; 209725952; 207352752; 204983264; 202617536; 200255600; 197897504; 195543296; 193192992; 190846640; 188504304; 186165984; 183831744;
181501616; 179175648; 176853856; 174536304; 172223024; 169914048; 167609424; 165309168; 163013360; 160721984; 158435120; 156152800; 153875040; 151601888; 149333392; 147069568;
144810480; 142556144; 140306608; 138061888; 135822048; 133587120; 131357120; 129132104; 126912096; 124697128; 122487256; 120282496; 118082888; 115888464; 113699272; 111515336;
109336688; 107163368; 104995416; 102832848; 100675720; 98524048; 96377872; 94237224; 92102144; 89972656; 87848800; 85730608; 83618104; 81511336; 79410320; 77315096;
75225696; 73142152; 71064488; 68992744; 66926956; 64867144; 62813344; 60765584; 58723900; 56688316; 54658864; 52635580; 50618484; 48607616; 46602996; 44604660;
42612636; 40626948; 38647632; 36674712; 34708220; 32748178; 30794622; 28847574; 26907066; 24973122; 23045772; 21125040; 19210958; 17303548; 15402839; 13508857;
11621629; 9741180; 7867536; 6000724; 4140768; 2287694; 441527; -1397706; -3229984; -5055281; -6873571; -8684831; -10489038; -12286166; -14076193; -15859094;
-17634848; -19403430; -21164818; -22918988; -24665920; -26405590; -28137976; -29863056; -31580810; -33291214; -34994248; -36689892; -38378120; -40058920; -41732264; -43398132;
-45056512; -46707372; -48350704; -49986480; -51614684; -53235296; -54848296; -56453672; -58051396; -59641456; -61223828; -62798504; -64365456; -65924672; -67476136; -69019824;
-70555720; -72083816; -73604088; -75116528; -76621104; -78117816; -79606640; -81087568; -82560576; -84025648; -85482776; -86931944; -88373136; -89806336; -91231536; -92648712;
-94057864; -95458968; -96852008; -98236984; -99613872; -100982664; -102343352; -103695912; -105040344; -106376624; -107704752; -109024712; -110336496; -111640088; -112935472; -114222656;
-115501608; -116772336; -118034816; -119289048; -120535016; -121772720; -123002136; -124223272; -125436104; -126640632; -127836848; -129024744; -130204312; -131375536; -132538416; -133692952;
-134839120; -135976928; -137106368; -138227424; -139340096; -140444368; -141540256; -142627728; -143706800; -144777472; -145839712; -146893536; -147938928; -148975888; -150004416; -151024512;
-152036144; -153039344; -154034096; -155020400; -155998240; -156967616; -157928544; -158881008; -159824992; -160760528; -161687584; -162606176; -163516288; -164417936; -165311104; -166195808;
-167072032; -167939776; -168799056; -169649856; -170492192; -171326048; -172151424; -172968336; -173776784; -174576752; -175368256; -176151296; -176925872; -177691984; -178449648; -179198848;
-179939600; -180671904; -181395744; -182111152; -182818128; -183516656; -184206752; -184888432; -185561680; -186226512; -186882928; -187530944; -188170544; -188801744; -189424560; -190038992;
-190645024; -191242704; -191832000; -192412944; -192985520; -193549760; -194105664; -194653216; -195192448; -195723376; -196245984; -196760288; -197266288; -197764016; -198253472; -198734640;
-199207568; -199672240; -200128656; -200576864; -201016848; -201448608; -201872176; -202287552; -202694752; -203093776; -203484640; -203867360; -204241952; -204608416; -204966752; -205317008;
-205659168; -205993248; -206319264; -206637232; -206947152; -207249056; -207542944; -207828832; -208106736; -208376656; -208638624; -208892656; -209138752; -209376928; -209607200; -209829584;
-210044096; -210250752; -210449568; -210640560; -210823728; -210999120; -211166720; -211326544; -211478640; -211622992; -211759632; -211888576; -212009840; -212123440; -212229392; -212327712;
-212418416; -212501536; -212577072; -212645056; -212705488; -212758400; -212803824; -212841744; -212872208; -212895216; -212910800; -212918976; -212919776; -212913184; -212899248; -212877984;
-212849408; -212813552; -212770416; -212720032; -212662416; -212597584; -212525584; -212446400; -212360080; -212266640; -212166096; -212058480; -211943792; -211822064; -211693328; -211557616;
-211414912; -211265264; -211108704; -210945232; -210774880; -210597664; -210413632; -210222784; -210025152; -209820752; -209609616; -209391760; -209167232; -208936016; -208698160; -208453696;
-208202640; -207945008; -207680832; -207410128; -207132944; -206849296; -206559184; -206262672; -205959760; -205650464; -205334848; -205012912; -204684688; -204350192; -204009456; -203662528;
-203309392; -202950112; -202584704; -202213184; -201835584; -201451936; -201062256; -200666592; -200264960; -199857376; -199443888; -199024496; -198599264; -198168192; -197731328; -197288672;
-196840288; -196386176; -195926368; -195460912; -194989808; -194513104; -194030832; -193543008; -193049680; -192550848; -192046560; -191536832; -191021712; -190501232; -189975392; -189444240;
-188907824; -188366128; -187819232; -187267136; -186709872; -186147472; -185579984; -185007408; -184429792; -183847168; -183259568; -182667008; -182069520; -181467152; -180859936; -180247872;
-179631024; -179009408; -178383056; -177752000; -177116272; -176475904; -175830928; -175181376; -174527264; -173868656; -173205552; -172537984; -171866016; -171189648; -170508928; -169823888;
-169134544; -168440944; -167743120; -167041104; -166334912; -165624592; -164910176; -164191680; -163469168; -162742640; -162012144; -161277712; -160539376; -159797168; -159051120; -158301264;
-157547632; -156790272; -156029184; -155264432; -154496032; -153724032; -152948448; -152169328; -151386688; -150600576; -149811024; -149018048; -148221712; -147422016; -146619008; -145812736;
-145003216; -144190480; -143374560; -142555504; -141733344; -140908096; -140079808; -139248512; -138414224; -137577008; -136736880; -135893872; -135048032; -134199368; -133347936; -132493760;
-131636880; -130777320; -129915120; -129050320; -128182936; -127313016; -126440592; -125565696; -124688360; -123808624; -122926512; -122042056; -121155304; -120266280; -119375024; -118481560;
-117585928; -116688160; -115788296; -114886360; -113982392; -113076424; -112168488; -111258616; -110346848; -109433216; -108517752; -107600488; -106681456; -105760696; -104838240; -103914120;
-102988368; -102061016; -101132104; -100201664; -99269728; -98336328; -97401496; -96465272; -95527680; -94588760; -93648552; -92707072; -91764368; -90820472; -89875408; -88929208;
-87981920; -87033568; -86084184; -85133808; -84182464; -83230192; -82277016; -81322976; -80368104; -79412440; -78456000; -77498832; -76540960; -75582424; -74623248; -73663472;
-72703120; -71742240; -70780848; -69818976; -68856672; -67893960; -66930868; -65967436].
Definition mid_ints_1 : list Z := [
-65003688; -64039664; -63075392; -62110904; -61146228; -60181404; -59216460; -58251428; -57286340; -56321228; -55356120; -54391052; -53426056; -52461160; -51496396; -50531796;
-49567388; -48603212; -47639292; -46675660; -45712344; -44749384; -43786800; -42824632; -41862904; -40901652; -39940904; -38980688; -38021036; -37061984; -36103552; -35145776;
-34188688; -33232314; -32276686; -31321834; -30367786; -29414574; -28462226; -27510772; -26560240; -25610662; -24662066; -23714482; -22767938; -21822464; -20878086; -19934838;
-18992744; -18051836; -17112142; -16173688; -15236505; -14300621; -13366063; -12432860; -11501040; -10570631; -9641661; -8714157; -7788147; -6863658; -5940719; -5019357;
-4099598; -3181470; -2265000; -1350215; -437142; 474191; 1383761; 2291538; 3197497; 4101612; 5003856; 5904203; 6802626; 7699101; 8593602; 9486101;
10376575; 11264997; 12151342; 13035586; 13917701; 14797665; 15675451; 16551034; 17424392; 18295498; 19164326; 20030856; 20895062; 21756918; 22616400; 23473488;
24328154; 25180376; 26030132; 26877396; 27722144; 28564356; 29404008; 30241076; 31075538; 31907370; 32736552; 33563056; 34386868; 35207960; 36026312; 36841900;
37654704; 38464700; 39271868; 40076192; 40877640; 41676196; 42471844; 43264552; 44054312; 44841092; 45624876; 46405644; 47183376; 47958052; 48729652; 49498152;
50263540; 51025788; 51784880; 52540800; 53293524; 54043032; 54789312; 55532336; 56272096; 57008564; 57741724; 58471560; 59198052; 59921184; 60640936; 61357292;
62070232; 62779740; 63485796; 64188388; 64887496; 65583104; 66275192; 66963748; 67648752; 68330192; 69008048; 69682304; 70352944; 71019952; 71683312; 72343016;
72999040; 73651368; 74299992; 74944888; 75586048; 76223456; 76857104; 77486960; 78113032; 78735288; 79353720; 79968312; 80579056; 81185936; 81788944; 82388056;
82983264; 83574552; 84161912; 84745328; 85324792; 85900288; 86471808; 87039336; 87602856; 88162360; 88717848; 89269288; 89816680; 90360016; 90899272; 91434448;
91965536; 92492520; 93015384; 93534128; 94048736; 94559200; 95065512; 95567656; 96065624; 96559416; 97049008; 97534400; 98015592; 98492552; 98965288; 99433792;
99898048; 100358056; 100813800; 101265272; 101712472; 102155384; 102594008; 103028328; 103458344; 103884056; 104305440; 104722496; 105135224; 105543608; 105947648; 106347336;
106742664; 107133632; 107520232; 107902456; 108280296; 108653752; 109022824; 109387496; 109747768; 110103632; 110455088; 110802136; 111144760; 111482968; 111816744; 112146096;
112471008; 112791488; 113107528; 113419128; 113726280; 114028984; 114327232; 114621032; 114910368; 115195256; 115475680; 115751632; 116023128; 116290160; 116552720; 116810808;
117064432; 117313584; 117558256; 117798464; 118034192; 118265448; 118492232; 118714536; 118932368; 119145728; 119354608; 119559016; 119758944; 119954408; 120145392; 120331912;
120513952; 120691528; 120864640; 121033280; 121197456; 121357168; 121512424; 121663216; 121809552; 121951432; 122088856; 122221840; 122350368; 122474464; 122594112; 122709320;
122820096; 122926440; 123028360; 123125848; 123218928; 123307584; 123391832; 123471672; 123547104; 123618144; 123684784; 123747040; 123804912; 123858408; 123907520; 123952272;
123992656; 124028688; 124060360; 124087696; 124110688; 124129344; 124143672; 124153688; 124159376; 124160768; 124157856; 124150640; 124139152; 124123376; 124103328; 124079008;
124050440; 124017616; 123980552; 123939256; 123893736; 123843992; 123790040; 123731880; 123669536; 123603008; 123532296; 123457424; 123378392; 123295216; 123207896; 123116448;
123020880; 122921200; 122817424; 122709552; 122597600; 122481576; 122361496; 122237360; 122109192; 121976984; 121840768; 121700536; 121556312; 121408096; 121255912; 121099760;
120939656; 120775616; 120607648; 120435752; 120259960; 120080272; 119896696; 119709256; 119517960; 119322816; 119123840; 118921048; 118714440; 118504048; 118289864; 118071920;
117850216; 117624768; 117395592; 117162704; 116926112; 116685824; 116441872; 116194248; 115942984; 115688088; 115429568; 115167440; 114901728; 114632432; 114359584; 114083176;
113803248; 113519792; 113232840; 112942392; 112648472; 112351096; 112050280; 111746032; 111438376; 111127320; 110812880; 110495080; 110173928; 109849440; 109521632; 109190528;
108856136; 108518472; 108177552; 107833400; 107486024; 107135448; 106781680; 106424736; 106064640; 105701408; 105335056; 104965600; 104593056; 104217448; 103838784; 103457080;
103072360; 102684640; 102293936; 101900272; 101503656; 101104112; 100701648; 100296296; 99888064; 99476976; 99063048; 98646296; 98226744; 97804400; 97379296; 96951432;
96520848; 96087544; 95651544; 95212880; 94771552; 94327584; 93881000; 93431816; 92980048; 92525720; 92068848; 91609456; 91147560; 90683168; 90216320; 89747024;
89275296; 88801160; 88324632; 87845744; 87364504; 86880928; 86395040; 85906872; 85416424; 84923728; 84428800; 83931664; 83432336; 82930832; 82427176; 81921392;
81413496; 80903512; 80391456; 79877352; 79361208; 78843064; 78322928; 77800816; 77276760; 76750776; 76222888; 75693112; 75161464; 74627976; 74092656; 73555536;
73016624; 72475960; 71933544; 71389416; 70843576; 70296064; 69746888; 69196080; 68643648; 68089624; 67534016; 66976860; 66418172; 65857968; 65296276; 64733108;
64168496; 63602452; 63035004; 62466168; 61895968; 61324424; 60751556; 60177392; 59601944; 59025236; 58447292; 57868132; 57287780; 56706252; 56123568; 55539756;
54954836; 54368824; 53781748; 53193624; 52604476; 52014324; 51423192; 50831100; 50238068; 49644116; 49049272; 48453548; 47856976; 47259568; 46661348; 46062340;
45462564; 44862040; 44260792; 43658840; 43056204; 42452904; 41848968; 41244408; 40639252; 40033524; 39427236; 38820416; 38213084; 37605260; 36996964; 36388220;
35779052; 35169472; 34559512; 33949184; 33338514; 32727522; 32116230; 31504658; 30892828; 30280758; 29668474; 29055994; 28443340; 27830532; 27217592; 26604540;
25991398; 25378184; 24764924; 24151634; 23538336; 22925054; 22311804; 21698610; 21085490; 20472468; 19859562; 19246794; 18634184; 18021754; 17409520; 16797508;
16185735; 15574223; 14962991; 14352061; 13741451; 13131184; 12521278; 11911754; 11302633; 10693934; 10085677; 9477882; 8870570; 8263759; 7657472; 7051726;
6446541; 5841939; 5237937; 4634557; 4031817; 3429737; 2828337; 2227636; 1627654; 1028410; 429923; -167787; -764702; -1360801; -1956067; -2550479;
-3144019; -3736668; -4328407; -4919217; -5509079; -6097974; -6685884; -7272790; -7858674; -8443517; -9027301; -9610006; -10191615; -10772110; -11351472; -11929683;
-12506725; -13082580; -13657230; -14230657; -14802843; -15373770; -15943422; -16511779; -17078824; -17644542; -18208912; -18771916; -19333542; -19893768; -20452578; -21009956;
-21565882; -22120344; -22673320; -23224796; -23774754; -24323178; -24870052; -25415358; -25959080; -26501202; -27041708; -27580582; -28117804; -28653364; -29187240; -29719420;
-30249888; -30778626; -31305620; -31830854; -32354312; -32875978; -33395838; -33913876; -34430076; -34944424; -35456904; -35967500; -36476200; -36982988; -37487848; -37990768;
-38491732; -38990724; -39487728; -39982736; -40475728; -40966692; -41455612; -41942480; -42427272; -42909984; -43390600; -43869100; -44345476; -44819716; -45291800; -45761724;
-46229464; -46695016; -47158360; -47619488; -48078388; -48535040; -48989440; -49441568; -49891416; -50338972; -50784220; -51227152; -51667752; -52106012; -52541916; -52975456;
-53406616; -53835384; -54261756; -54685712; -55107244; -55526344; -55942992; -56357188; -56768912; -57178156; -57584912; -57989164; -58390908; -58790128; -59186816; -59580960;
-59972548; -60361576; -60748032; -61131900; -61513180; -61891852; -62267912; -62641352; -63012160; -63380328; -63745844; -64108700; -64468892; -64826400; -65181228; -65533356;
-65882784; -66229496; -66573488; -66914752; -67253280; -67589064; -67922088; -68252360; -68579856; -68904576; -69226512; -69545656; -69862000; -70175536; -70486256; -70794160;
-71099232; -71401472; -71700864; -71997416; -72291104; -72581936; -72869896; -73154984; -73437184; -73716504; -73992936; -74266464; -74537080; -74804792; -75069592; -75331464;
-75590416; -75846432; -76099512; -76349648; -76596840; -76841080; -77082360; -77320680; -77556040; -77788424; -78017832; -78244264; -78467712; -78688168; -78905640; -79120120;
-79331592; -79540072; -79745536; -79948000; -80147448; -80343880; -80537296; -80727696; -80915064; -81099408; -81280720; -81459000; -81634248; -81806456; -81975632; -82141760;
-82304848; -82464888; -82621880; -82775824; -82926720; -83074568; -83219360; -83361096; -83499776; -83635400; -83767960; -83897472; -84023920; -84147304; -84267632; -84384896;
-84499104; -84610248; -84718328; -84823344; -84925304; -85024200; -85120032; -85212800; -85302512; -85389168; -85472760; -85553296; -85630768; -85705184; -85776552; -85844856;
-85910112; -85972320; -86031472; -86087576; -86140632; -86190640; -86237608; -86281528; -86322416; -86360264; -86395080; -86426856; -86455608; -86481328; -86504024; -86523704;
-86540360; -86553992; -86564616; -86572232; -86576840; -86578448; -86577048; -86572656; -86565272; -86554896; -86541536; -86525192; -86505872; -86483576; -86458320; -86430088;
-86398904; -86364760; -86327664; -86287616; -86244632; -86198712; -86149856; -86098080; -86043376; -85985760; -85925224; -85861792; -85795448; -85726224; -85654096; -85579096;
-85501216; -85420464; -85336840; -85250368; -85161032; -85068856; -84973840; -84875984; -84775312; -84671808; -84565496; -84456376; -84344456; -84229744; -84112248; -83991968;
-83868920; -83743104; -83614536; -83483224; -83349160; -83212368; -83072848; -82930616; -82785664; -82638016; -82487672; -82334648; -82178944; -82020568; -81859528; -81695840;
-81529512; -81360544; -81188952; -81014744; -80837928; -80658512; -80476504; -80291912; -80104752; -79915032; -79722752; -79527936; -79330584; -79130704; -78928304; -78723408;
-78516016; -78306136; -78093776; -77878960; -77661680; -77441960; -77219800; -76995224; -76768224; -76538824; -76307032; -76072856; -75836312; -75597400; -75356144; -75112544;
-74866616; -74618376; -74367824; -74114976; -73859848; -73602440; -73342776; -73080856; -72816704; -72550320; -72281728; -72010928; -71737928; -71462752; -71185416; -70905912;
-70624264; -70340488; -70054592; -69766584; -69476480; -69184288; -68890032; -68593712; -68295344; -67994944; -67692520; -67388088; -67081652; -66773240; -66462852; -66150504;
-65836212; -65519988; -65201844; -64881792; -64559844; -64236016; -63910320; -63582772; -63253380; -62922160; -62589124; -62254288; -61917660; -61579264; -61239100; -60897192;
-60553552; -60208188; -59861120; -59512356; -59161916; -58809808; -58456052; -58100656].
Definition mid_ints_2 : list Z := [
-57743636; -57385008; -57024784; -56662980; -56299604; -55934676; -55568212; -55200220; -54830720; -54459720; -54087240; -53713292; -53337892; -52961052; -52582784; -52203112;
-51822040; -51439588; -51055768; -50670600; -50284092; -49896264; -49507124; -49116696; -48724984; -48332012; -47937792; -47542336; -47145660; -46747784; -46348716; -45948472;
-45547072; -45144524; -44740848; -44336060; -43930168; -43523196; -43115152; -42706056; -42295920; -41884760; -41472592; -41059428; -40645288; -40230184; -39814132; -39397148;
-38979248; -38560444; -38140752; -37720192; -37298772; -36876516; -36453432; -36029536; -35604848; -35179380; -34753148; -34326164; -33898452; -33470018; -33040884; -32611062;
-32180570; -31749420; -31317632; -30885216; -30452192; -30018574; -29584376; -29149616; -28714308; -28278466; -27842108; -27405250; -26967904; -26530090; -26091820; -25653110;
-25213976; -24774434; -24334498; -23894186; -23453510; -23012488; -22571136; -22129468; -21687500; -21245246; -20802722; -20359946; -19916930; -19473692; -19030246; -18586606;
-18142792; -17698814; -17254690; -16810436; -16366067; -15921597; -15477043; -15032418; -14587740; -14143022; -13698281; -13253532; -12808789; -12364068; -11919384; -11474753;
-11030189; -10585708; -10141325; -9697054; -9252912; -8808913; -8365072; -7921404; -7477924; -7034648; -6591589; -6148764; -5706186; -5263872; -4821835; -4380091;
-3938655; -3497540; -3056763; -2616337; -2176278; -1736600; -1297317; -858446; -419999; 18007; 455560; 892645; 1329246; 1765350; 2200941; 2636006;
3070531; 3504500; 3937900; 4370716; 4802935; 5234541; 5665521; 6095861; 6525546; 6954563; 7382898; 7810536; 8237464; 8663668; 9089133; 9513847;
9937795; 10360963; 10783339; 11204908; 11625656; 12045570; 12464637; 12882843; 13300174; 13716618; 14132160; 14546788; 14960489; 15373248; 15785053; 16195891;
16605748; 17014612; 17422470; 17829308; 18235114; 18639874; 19043578; 19446210; 19847758; 20248212; 20647556; 21045778; 21442868; 21838812; 22233596; 22627210;
23019640; 23410876; 23800902; 24189710; 24577286; 24963618; 25348694; 25732502; 26115030; 26496266; 26876200; 27254820; 27632112; 28008066; 28382670; 28755912;
29127782; 29498270; 29867360; 30235044; 30601312; 30966150; 31329548; 31691496; 32051980; 32410992; 32768522; 33124556; 33479086; 33832100; 34183588; 34533540;
34881944; 35228788; 35574068; 35917768; 36259880; 36600392; 36939296; 37276584; 37612240; 37946260; 38278628; 38609340; 38938388; 39265752; 39591436; 39915420;
40237696; 40558260; 40877100; 41194208; 41509568; 41823180; 42135032; 42445112; 42753412; 43059928; 43364644; 43667560; 43968660; 44267936; 44565384; 44860992;
45154756; 45446664; 45736704; 46024876; 46311168; 46595572; 46878080; 47158688; 47437380; 47714156; 47989008; 48261924; 48532896; 48801924; 49068992; 49334100;
49597236; 49858396; 50117568; 50374752; 50629936; 50883120; 51134288; 51383436; 51630560; 51875656; 52118712; 52359724; 52598684; 52835592; 53070432; 53303208;
53533908; 53762524; 53989056; 54213496; 54435840; 54656080; 54874208; 55090228; 55304124; 55515896; 55725536; 55933044; 56138412; 56341632; 56542704; 56741624;
56938380; 57132972; 57325400; 57515652; 57703724; 57889616; 58073324; 58254840; 58434160; 58611284; 58786204; 58958920; 59129424; 59297712; 59463788; 59627640;
59789268; 59948668; 60105836; 60260772; 60413468; 60563928; 60712140; 60858108; 61001824; 61143292; 61282500; 61419456; 61554148; 61686580; 61816748; 61944648;
62070280; 62193640; 62314728; 62433540; 62550076; 62664332; 62776308; 62886000; 62993408; 63098532; 63201368; 63301920; 63400180; 63496148; 63589824; 63681212;
63770304; 63857100; 63941604; 64023808; 64103720; 64181332; 64256648; 64329664; 64400384; 64468808; 64534928; 64598752; 64660280; 64719504; 64776436; 64831064;
64883396; 64933432; 64981172; 65026616; 65069760; 65110612; 65149168; 65185432; 65219404; 65251084; 65280476; 65307576; 65332388; 65354916; 65375156; 65393116;
65408792; 65422184; 65433300; 65442140; 65448704; 65452996; 65455016; 65454768; 65452248; 65447468; 65440424; 65431120; 65419560; 65405744; 65389676; 65371360;
65350792; 65327984; 65302932; 65275644; 65246120; 65214364; 65180380; 65144168; 65105736; 65065084; 65022216; 64977136; 64929852; 64880360; 64828668; 64774776;
64718696; 64660424; 64599968; 64537332; 64472520; 64405532; 64336380; 64265064; 64191588; 64115956; 64038176; 63958252; 63876184; 63791984; 63705652; 63617192;
63526612; 63433920; 63339112; 63242204; 63143192; 63042088; 62938896; 62833616; 62726260; 62616832; 62505340; 62391784; 62276172; 62158512; 62038808; 61917064;
61793292; 61667496; 61539680; 61409852; 61278016; 61144180; 61008352; 60870536; 60730740; 60588972; 60445232; 60299536; 60151888; 60002288; 59850752; 59697284;
59541892; 59384576; 59225352; 59064224; 58901200; 58736288; 58569492; 58400820; 58230284; 58057888; 57883640; 57707548; 57529620; 57349860; 57168284; 56984896;
56799700; 56612708; 56423928; 56233368; 56041036; 55846940; 55651088; 55453488; 55254152; 55053080; 54850292; 54645788; 54439576; 54231672; 54022080; 53810808;
53597868; 53383264; 53167012; 52949112; 52729580; 52508424; 52285652; 52061272; 51835292; 51607724; 51378580; 51147864; 50915588; 50681760; 50446392; 50209488;
49971064; 49731128; 49489688; 49246752; 49002336; 48756444; 48509084; 48260272; 48010016; 47758324; 47505208; 47250676; 46994740; 46737408; 46478692; 46218600;
45957148; 45694336; 45430184; 45164700; 44897888; 44629768; 44360340; 44089624; 43817624; 43544356; 43269824; 42994044; 42717028; 42438780; 42159312; 41878640;
41596772; 41313716; 41029484; 40744092; 40457544; 40169852; 39881032; 39591088; 39300040; 39007888; 38714652; 38420340; 38124960; 37828528; 37531052; 37232544;
36933016; 36632476; 36330940; 36028416; 35724920; 35420456; 35115040; 34808680; 34501392; 34193188; 33884072; 33574064; 33263168; 32951400; 32638770; 32325290;
32010974; 31695828; 31379868; 31063104; 30745548; 30427212; 30108106; 29788244; 29467636; 29146294; 28824230; 28501456; 28177982; 27853822; 27528988; 27203488;
26877338; 26550548; 26223130; 25895096; 25566458; 25237228; 24907416; 24577036; 24246098; 23914616; 23582600; 23250064; 22917018; 22583474; 22249444; 21914942;
21579978; 21244564; 20908712; 20572434; 20235742; 19898648; 19561164; 19223302; 18885074; 18546492; 18207568; 17868312; 17528740; 17188860; 16848686; 16508230;
16167503; 15826518; 15485287; 15143820; 14802131; 14460232; 14118134; 13775848; 13433389; 13090766; 12747992; 12405079; 12062039; 11718884; 11375625; 11032275;
10688845; 10345348; 10001795; 9658198; 9314569; 8970920; 8627263; 8283608; 7939970; 7596358; 7252785; 6909263; 6565803; 6222418; 5879118; 5535917;
5192824; 4849853; 4507015; 4164321; 3821783; 3479413; 3137223; 2795223; 2453426; 2111844; 1770487; 1429368; 1088497; 747887; 407549; 67494;
-272265; -611719; -950855; -1289662; -1628129; -1966244; -2303996; -2641373; -2978365; -3314960; -3651147; -3986914; -4322251; -4657146; -4991588; -5325566;
-5659069; -5992086; -6324606; -6656617; -6988110; -7319072; -7649493; -7979362; -8308669; -8637402; -8965550; -9293103; -9620050; -9946380; -10272083; -10597148;
-10921564; -11245320; -11568407; -11890813; -12212528; -12533542; -12853844; -13173424; -13492270; -13810374; -14127725; -14444312; -14760125; -15075155; -15389390; -15702821;
-16015437; -16327229; -16638186; -16948300; -17257558; -17565952; -17873472; -18180108; -18485850; -18790688; -19094614; -19397616; -19699686; -20000814; -20300990; -20600204;
-20898448; -21195712; -21491986; -21787262; -22081530; -22374780; -22667002; -22958190; -23248332; -23537420; -23825444; -24112398; -24398268; -24683050; -24966734; -25249308;
-25530768; -25811100; -26090300; -26368356; -26645262; -26921008; -27195586; -27468988; -27741204; -28012226; -28282048; -28550658; -28818052; -29084218; -29349150; -29612840;
-29875278; -30136458; -30396372; -30655012; -30912370; -31168436; -31423206; -31676670; -31928822; -32179654; -32429156; -32677324; -32924148; -33169624; -33413740; -33656492;
-33897872; -34137872; -34376488; -34613712; -34849532; -35083944; -35316944; -35548524; -35778676; -36007392; -36234672; -36460500; -36684872; -36907788; -37129232; -37349208;
-37567700; -37784708; -38000220; -38214240; -38426748; -38637752; -38847236; -39055196; -39261632; -39466532; -39669888; -39871704; -40071964; -40270672; -40467812; -40663388;
-40857392; -41049812; -41240652; -41429900; -41617556; -41803612; -41988064; -42170904; -42352132; -42531740; -42709720; -42886076; -43060796; -43233876; -43405316; -43575108;
-43743248; -43909732; -44074552; -44237712; -44399200; -44559012; -44717152; -44873608; -45028376; -45181456; -45332844; -45482536; -45630524; -45776812; -45921388; -46064252;
-46205404; -46344836; -46482544; -46618532; -46752788; -46885312; -47016100; -47145152; -47272464; -47398032; -47521852; -47643924; -47764244; -47882808; -47999612; -48114660;
-48227944; -48339464; -48449216; -48557196; -48663408; -48767844; -48870504; -48971384; -49070484; -49167804; -49263340; -49357088; -49449048; -49539220; -49627604; -49714192;
-49798988; -49881984; -49963188; -50042592; -50120196; -50196000; -50270004; -50342204; -50412600; -50481192; -50547980; -50612960; -50676132; -50737496; -50797052; -50854800;
-50910740; -50964868; -51017188; -51067696; -51116392; -51163276; -51208352; -51251616; -51293068; -51332712; -51370540; -51406560; -51440772; -51473172; -51503760; -51532540;
-51559512; -51584676; -51608032; -51629580; -51649320; -51667256; -51683388; -51697720; -51710244; -51720968; -51729892; -51737016; -51742344; -51745872; -51747608; -51747548;
-51745692; -51742052; -51736616; -51729396; -51720388; -51709600; -51697024; -51682672; -51666536; -51648628; -51628944; -51607488; -51584260; -51559268; -51532508; -51503984;
-51473700; -51441656; -51407856; -51372304; -51335004; -51295952; -51255156; -51212620; -51168344; -51122328; -51074584; -51025104; -50973900; -50920972; -50866324; -50809956;
-50751876; -50692084; -50630584; -50567380; -50502476; -50435876; -50367584; -50297604; -50225936; -50152584; -50077556; -50000856; -49922484; -49842448; -49760752; -49677396;
-49592384; -49505728; -49417424; -49327484; -49235904; -49142692; -49047856; -48951396; -48853320; -48753632; -48652332; -48549432; -48444932; -48338840; -48231156; -48121892;
-48011048; -47898628; -47784644; -47669092; -47551988; -47433328; -47313120; -47191368].
Definition mid_ints_3 : list Z := [
-47068084; -46943268; -46816924; -46689064; -46559688; -46428800; -46296412; -46162528; -46027152; -45890292; -45751952; -45612136; -45470856; -45328112; -45183912; -45038264;
-44891176; -44742648; -44592692; -44441308; -44288508; -44134296; -43978680; -43821668; -43663260; -43503468; -43342296; -43179756; -43015848; -42850580; -42683960; -42515996;
-42346696; -42176064; -42004108; -41830832; -41656248; -41480360; -41303176; -41124704; -40944948; -40763920; -40581624; -40398068; -40213260; -40027204; -39839912; -39651388;
-39461644; -39270684; -39078516; -38885148; -38690584; -38494840; -38297916; -38099824; -37900568; -37700160; -37498604; -37295912; -37092088; -36887140; -36681080; -36473912;
-36265648; -36056292; -35845852; -35634340; -35421760; -35208124; -34993440; -34777712; -34560952; -34343164; -34124364; -33904552; -33683740; -33461940; -33239154; -33015394;
-32790670; -32564986; -32338354; -32110782; -31882278; -31652850; -31422508; -31191260; -30959116; -30726082; -30492170; -30257384; -30021738; -29785238; -29547894; -29309714;
-29070706; -28830882; -28590248; -28348814; -28106588; -27863582; -27619802; -27375256; -27129956; -26883912; -26637128; -26389618; -26141388; -25892450; -25642810; -25392480;
-25141466; -24889780; -24637430; -24384426; -24130778; -23876492; -23621580; -23366050; -23109912; -22853174; -22595848; -22337942; -22079464; -21820426; -21560834; -21300700;
-21040034; -20778842; -20517138; -20254926; -19992220; -19729028; -19465360; -19201222; -18936628; -18671586; -18406106; -18140194; -17873864; -17607124; -17339982; -17072450;
-16804536; -16536249; -16267600; -15998598; -15729252; -15459573; -15189569; -14919250; -14648626; -14377706; -14106500; -13835018; -13563269; -13291262; -13019008; -12746515;
-12473794; -12200853; -11927704; -11654354; -11380814; -11107094; -10833202; -10559149; -10284943; -10010596; -9736116; -9461512; -9186795; -8911973; -8637057; -8362056;
-8086980; -7811838; -7536639; -7261394; -6986111; -6710801; -6435472; -6160135; -5884799; -5609472; -5334166; -5058889; -4783650; -4508460; -4233327; -3958261;
-3683272; -3408369; -3133561; -2858858; -2584270; -2309804; -2035472; -1761282; -1487244; -1213366; -939659; -666131; -392793; -119652; 153280; 425996;
698487; 970742; 1242753; 1514510; 1786005; 2057227; 2328169; 2598820; 2869172; 3139216; 3408942; 3678342; 3947406; 4216126; 4484491; 4752495;
5020126; 5287378; 5554239; 5820703; 6086759; 6352399; 6617615; 6882396; 7146735; 7410623; 7674050; 7937009; 8199490; 8461485; 8722985; 8983982;
9244466; 9504430; 9763864; 10022761; 10281111; 10538906; 10796138; 11052799; 11308879; 11564370; 11819265; 12073554; 12327229; 12580283; 12832707; 13084492;
13335631; 13586115; 13835936; 14085087; 14333558; 14581342; 14828431; 15074817; 15320492; 15565448; 15809677; 16053171; 16295922; 16537923; 16779166; 17019644;
17259346; 17498268; 17736402; 17973738; 18210270; 18445990; 18680892; 18914966; 19148208; 19380606; 19612156; 19842850; 20072680; 20301638; 20529720; 20756916;
20983220; 21208622; 21433120; 21656704; 21879366; 22101100; 22321900; 22541758; 22760670; 22978624; 23195616; 23411640; 23626688; 23840754; 24053832; 24265914;
24476994; 24687064; 24896120; 25104154; 25311162; 25517134; 25722066; 25925950; 26128782; 26330554; 26531262; 26730898; 26929456; 27126930; 27323314; 27518604;
27712790; 27905870; 28097838; 28288686; 28478408; 28667000; 28854458; 29040772; 29225940; 29409954; 29592812; 29774504; 29955028; 30134376; 30312546; 30489532;
30665326; 30839924; 31013324; 31185516; 31356498; 31526266; 31694812; 31862132; 32028222; 32193078; 32356694; 32519066; 32680188; 32840056; 32998666; 33156012;
33312092; 33466900; 33620432; 33772680; 33923648; 34073324; 34221708; 34368796; 34514580; 34659060; 34802228; 34944084; 35084624; 35223840; 35361732; 35498296;
35633528; 35767420; 35899976; 36031188; 36161052; 36289564; 36416724; 36542528; 36666968; 36790048; 36911760; 37032100; 37151068; 37268660; 37384872; 37499704;
37613148; 37725204; 37835868; 37945140; 38053012; 38159488; 38264564; 38368232; 38470496; 38571348; 38670788; 38768816; 38865424; 38960616; 39054388; 39146736;
39237656; 39327152; 39415216; 39501848; 39587048; 39670816; 39753144; 39834032; 39913480; 39991488; 40068048; 40143168; 40216836; 40289060; 40359832; 40429152;
40497024; 40563436; 40628400; 40691904; 40753948; 40814540; 40873668; 40931340; 40987548; 41042292; 41095576; 41147400; 41197756; 41246648; 41294072; 41340032;
41384528; 41427552; 41469112; 41509204; 41547828; 41584984; 41620672; 41654892; 41687644; 41718924; 41748740; 41777084; 41803960; 41829368; 41853308; 41875780;
41896784; 41916324; 41934392; 41951000; 41966136; 41979812; 41992020; 42002764; 42012048; 42019868; 42026228; 42031124; 42034560; 42036540; 42037060; 42036124;
42033736; 42029888; 42024588; 42017840; 42009636; 41999984; 41988888; 41976340; 41962348; 41946916; 41930040; 41911724; 41891968; 41870776; 41848152; 41824092;
41798600; 41771680; 41743332; 41713560; 41682364; 41649748; 41615712; 41580260; 41543392; 41505112; 41465424; 41424328; 41381828; 41337924; 41292620; 41245920;
41197824; 41148340; 41097464; 41045200; 40991552; 40936528; 40880124; 40822344; 40763192; 40702672; 40640788; 40577540; 40512932; 40446972; 40379656; 40310988;
40240976; 40169624; 40096928; 40022900; 39947540; 39870848; 39792832; 39713496; 39632844; 39550876; 39467596; 39383012; 39297124; 39209940; 39121460; 39031688;
38940632; 38848292; 38754676; 38659784; 38563624; 38466196; 38367508; 38267560; 38166364; 38063916; 37960228; 37855300; 37749136; 37641740; 37533120; 37423280;
37312224; 37199956; 37086480; 36971804; 36855932; 36738864; 36620612; 36501176; 36380560; 36258776; 36135824; 36011708; 35886436; 35760012; 35632444; 35503732;
35373884; 35242904; 35110800; 34977576; 34843236; 34707788; 34571236; 34433584; 34294844; 34155012; 34014100; 33872112; 33729056; 33584936; 33439754; 33293520;
33146240; 32997920; 32848562; 32698176; 32546766; 32394340; 32240900; 32086456; 31931014; 31774576; 31617152; 31458748; 31299368; 31139020; 30977710; 30815442;
30652226; 30488066; 30322970; 30156942; 29989990; 29822120; 29653338; 29483652; 29313068; 29141590; 28969228; 28795988; 28621876; 28446898; 28271060; 28094372;
27916838; 27738464; 27559260; 27379230; 27198382; 27016722; 26834258; 26650998; 26466944; 26282108; 26096496; 25910114; 25722968; 25535066; 25346416; 25157024;
24966896; 24776042; 24584468; 24392180; 24199184; 24005492; 23811106; 23616036; 23420290; 23223872; 23026792; 22829056; 22630672; 22431648; 22231988; 22031704;
21830800; 21629286; 21427166; 21224450; 21021146; 20817258; 20612798; 20407770; 20202182; 19996044; 19789360; 19582140; 19374390; 19166118; 18957334; 18748042;
18538250; 18327968; 18117202; 17905960; 17694250; 17482078; 17269454; 17056384; 16842876; 16628938; 16414578; 16199803; 15984621; 15769040; 15553067; 15336710;
15119978; 14902877; 14685416; 14467602; 14249443; 14030947; 13812121; 13592974; 13373513; 13153746; 12933681; 12713326; 12492688; 12271775; 12050596; 11829157;
11607467; 11385534; 11163366; 10940969; 10718353; 10495525; 10272493; 10049264; 9825847; 9602250; 9378480; 9154544; 8930452; 8706211; 8481828; 8257312;
8032670; 7807911; 7583042; 7358070; 7133005; 6907853; 6682622; 6457321; 6231957; 6006538; 5781072; 5555566; 5330029; 5104468; 4878891; 4653307;
4427721; 4202144; 3976581; 3751042; 3525533; 3300063; 3074639; 2849270; 2623962; 2398724; 2173563; 1948488; 1723505; 1498622; 1273848; 1049190;
824655; 600251; 375986; 151868; -72095; -295897; -519530; -742986; -966257; -1189336; -1412215; -1634887; -1857344; -2079579; -2301583; -2523350;
-2744873; -2966142; -3187152; -3407895; -3628363; -3848549; -4068445; -4288044; -4507338; -4726321; -4944985; -5163323; -5381326; -5598989; -5816303; -6033262;
-6249858; -6466084; -6681933; -6897397; -7112470; -7327144; -7541412; -7755267; -7968702; -8181709; -8394283; -8606415; -8818099; -9029328; -9240094; -9450391;
-9660212; -9869550; -10078397; -10286748; -10494596; -10701932; -10908752; -11115047; -11320811; -11526038; -11730721; -11934852; -12138426; -12341435; -12543874; -12745735;
-12947012; -13147698; -13347787; -13547273; -13746148; -13944407; -14142043; -14339049; -14535420; -14731149; -14926229; -15120655; -15314420; -15507517; -15699941; -15891686;
-16082745; -16273112; -16462782; -16651747; -16840002; -17027542; -17214360; -17400448; -17585804; -17770420; -17954290; -18137410; -18319772; -18501370; -18682200; -18862256;
-19041532; -19220022; -19397720; -19574620; -19750720; -19926010; -20100488; -20274146; -20446980; -20618984; -20790152; -20960482; -21129964; -21298596; -21466370; -21633284;
-21799332; -21964506; -22128804; -22292222; -22454750; -22616388; -22777128; -22936968; -23095900; -23253920; -23411024; -23567206; -23722464; -23876790; -24030180; -24182630;
-24334136; -24484694; -24634296; -24782940; -24930624; -25077338; -25223082; -25367848; -25511636; -25654438; -25796252; -25937074; -26076898; -26215720; -26353538; -26490346;
-26626140; -26760916; -26894672; -27027402; -27159104; -27289772; -27419404; -27547994; -27675540; -27802040; -27927486; -28051878; -28175210; -28297482; -28418686; -28538822;
-28657886; -28775872; -28892780; -29008606; -29123344; -29236996; -29349554; -29461016; -29571380; -29680644; -29788802; -29895852; -30001792; -30106620; -30210330; -30312922;
-30414392; -30514738; -30613958; -30712046; -30809002; -30904824; -30999508; -31093052; -31185454; -31276712; -31366822; -31455782; -31543590; -31630246; -31715744; -31800084;
-31883264; -31965280; -32046134; -32125820; -32204338; -32281684; -32357860; -32432862; -32506686; -32579334; -32650802; -32721090; -32790196; -32858116; -32924852; -32990400;
-33054760; -33117930; -33179908; -33240694; -33300286; -33358682; -33415884; -33471886; -33526692; -33580296; -33632700; -33683904; -33733904; -33782700; -33830292; -33876680;
-33921860; -33965836; -34008604; -34050164; -34090512; -34129656; -34167588; -34204308; -34239820; -34274120; -34307212; -34339088; -34369752; -34399208; -34427448; -34454480;
-34480296; -34504900; -34528292; -34550468; -34571436; -34591192; -34609732; -34627064; -34643180; -34658088; -34671784; -34684268; -34695544; -34705608; -34714464; -34722108;
-34728548; -34733776; -34737800; -34740616; -34742228; -34742632; -34741836; -34739836].
Definition mid_ints_4 : list Z := [
-34736632; -34732224; -34726620; -34719816; -34711812; -34702612; -34692216; -34680624; -34667840; -34653864; -34638696; -34622336; -34604788; -34586056; -34566136; -34545036;
-34522748; -34499284; -34474636; -34448816; -34421816; -34393644; -34364296; -34333784; -34302096; -34269248; -34235232; -34200052; -34163712; -34126212; -34087560; -34047748;
-34006788; -33964676; -33921416; -33877008; -33831460; -33784768; -33736940; -33687976; -33637876; -33586648; -33534290; -33480806; -33426198; -33370470; -33313624; -33255662;
-33196588; -33136404; -33075114; -33012718; -32949222; -32884628; -32818940; -32752158; -32684288; -32615330; -32545292; -32474172; -32401976; -32328708; -32254370; -32178964;
-32102494; -32024966; -31946380; -31866742; -31786054; -31704320; -31621542; -31537726; -31452874; -31366992; -31280080; -31192144; -31103188; -31013214; -30922228; -30830232;
-30737230; -30643228; -30548228; -30452234; -30355250; -30257282; -30158332; -30058404; -29957502; -29855632; -29752798; -29649002; -29544250; -29438544; -29331892; -29224296;
-29115760; -29006290; -28895890; -28784564; -28672316; -28559152; -28445074; -28330090; -28214202; -28097414; -27979734; -27861164; -27741710; -27621374; -27500164; -27378086;
-27255140; -27131334; -27006672; -26881160; -26754800; -26627600; -26499564; -26370698; -26241006; -26110492; -25979162; -25847022; -25714074; -25580328; -25445786; -25310454;
-25174336; -25037440; -24899768; -24761326; -24622122; -24482160; -24341442; -24199978; -24057772; -23914828; -23771154; -23626752; -23481630; -23335794; -23189248; -23041998;
-22894048; -22745408; -22596078; -22446068; -22295382; -22144024; -21992004; -21839324; -21685990; -21532010; -21377388; -21222130; -21066242; -20909728; -20752598; -20594854;
-20436504; -20277554; -20118008; -19957872; -19797156; -19635860; -19473994; -19311564; -19148572; -18985030; -18820940; -18656308; -18491142; -18325446; -18159228; -17992494;
-17825248; -17657498; -17489250; -17320510; -17151282; -16981576; -16811396; -16640749; -16469641; -16298078; -16126066; -15953611; -15780720; -15607399; -15433655; -15259493;
-15084920; -14909943; -14734567; -14558799; -14382645; -14206112; -14029206; -13851933; -13674300; -13496313; -13317979; -13139303; -12960293; -12780954; -12601294; -12421318;
-12241034; -12060447; -11879563; -11698390; -11516934; -11335202; -11153199; -10970932; -10788408; -10605633; -10422614; -10239358; -10055870; -9872157; -9688226; -9504083;
-9319735; -9135188; -8950449; -8765524; -8580420; -8395143; -8209700; -8024098; -7838342; -7652440; -7466398; -7280222; -7093920; -6907497; -6720960; -6534316;
-6347570; -6160731; -5973804; -5786795; -5599712; -5412560; -5225347; -5038078; -4850761; -4663402; -4476007; -4288582; -4101136; -3913673; -3726200; -3538724;
-3351252; -3163789; -2976342; -2788919; -2601524; -2414165; -2226849; -2039581; -1852368; -1665216; -1478132; -1291123; -1104194; -917353; -730605; -543957;
-357416; -170987; 15322; 201506; 387559; 573473; 759243; 944862; 1130323; 1315622; 1500750; 1685703; 1870473; 2055054; 2239441; 2423627;
2607605; 2791370; 2974914; 3158233; 3341320; 3524168; 3706772; 3889125; 4071221; 4253055; 4434619; 4615908; 4796916; 4977637; 5158064; 5338192;
5518014; 5697525; 5876718; 6055588; 6234129; 6412334; 6590198; 6767714; 6944877; 7121682; 7298121; 7474190; 7649882; 7825191; 8000113; 8174640;
8348767; 8522489; 8695800; 8868693; 9041164; 9213206; 9384814; 9555982; 9726705; 9896977; 10066793; 10236146; 10405032; 10573444; 10741378; 10908827;
11075787; 11242251; 11408215; 11573673; 11738620; 11903050; 12066958; 12230338; 12393186; 12555496; 12717262; 12878481; 13039145; 13199251; 13358792; 13517764;
13676162; 13833981; 13991215; 14147860; 14303910; 14459360; 14614206; 14768443; 14922065; 15075068; 15227446; 15379196; 15530312; 15680789; 15830622; 15979807;
16128340; 16276214; 16423426; 16569972; 16715845; 16861042; 17005560; 17149390; 17292532; 17434980; 17576728; 17717772; 17858110; 17997734; 18136644; 18274832;
18412294; 18549028; 18685028; 18820290; 18954812; 19088586; 19221610; 19353878; 19485390; 19616138; 19746120; 19875332; 20003768; 20131428; 20258304; 20384394;
20509694; 20634200; 20757910; 20880818; 21002920; 21124214; 21244694; 21364360; 21483204; 21601228; 21718422; 21834788; 21950320; 22065014; 22178868; 22291876;
22404040; 22515352; 22625808; 22735410; 22844150; 22952026; 23059036; 23165176; 23270442; 23374834; 23478346; 23580974; 23682720; 23783576; 23883542; 23982614;
24080788; 24178064; 24274438; 24369908; 24464468; 24558120; 24650858; 24742680; 24833584; 24923568; 25012628; 25100764; 25187970; 25274246; 25359590; 25443998;
25527470; 25610000; 25691590; 25772234; 25851934; 25930684; 26008484; 26085330; 26161222; 26236158; 26310134; 26383152; 26455206; 26526296; 26596418; 26665574;
26733760; 26800974; 26867216; 26932484; 26996774; 27060086; 27122420; 27183772; 27244142; 27303528; 27361928; 27419342; 27475768; 27531204; 27585650; 27639104;
27691564; 27743032; 27793504; 27842978; 27891456; 27938936; 27985416; 28030896; 28075374; 28118850; 28161324; 28202792; 28243258; 28282716; 28321170; 28358616;
28395056; 28430486; 28464910; 28498322; 28530728; 28562122; 28592506; 28621878; 28650240; 28677590; 28703928; 28729256; 28753570; 28776872; 28799162; 28820438;
28840702; 28859954; 28878192; 28895418; 28911632; 28926832; 28941022; 28954198; 28966362; 28977514; 28987656; 28996786; 29004904; 29012014; 29018112; 29023202;
29027282; 29030352; 29032416; 29033472; 29033522; 29032564; 29030602; 29027636; 29023664; 29018690; 29012714; 29005736; 28997758; 28988780; 28978804; 28967830;
28955858; 28942892; 28928932; 28913976; 28898030; 28881094; 28863166; 28844252; 28824348; 28803460; 28781588; 28758732; 28734894; 28710078; 28684282; 28657508;
28629760; 28601036; 28571342; 28540676; 28509042; 28476440; 28442874; 28408342; 28372850; 28336398; 28298988; 28260620; 28221300; 28181026; 28139804; 28097632;
28054514; 28010454; 27965450; 27919508; 27872626; 27824812; 27776064; 27726384; 27675776; 27624244; 27571786; 27518410; 27464112; 27408900; 27352774; 27295736;
27237790; 27178938; 27119182; 27058526; 26996972; 26934522; 26871180; 26806948; 26741828; 26675826; 26608942; 26541180; 26472542; 26403030; 26332650; 26261404;
26189294; 26116324; 26042496; 25967814; 25892280; 25815898; 25738672; 25660606; 25581700; 25501958; 25421386; 25339986; 25257760; 25174712; 25090848; 25006168;
24920676; 24834376; 24747272; 24659368; 24570666; 24481172; 24390886; 24299816; 24207960; 24115328; 24021920; 23927740; 23832792; 23737080; 23640608; 23543380;
23445400; 23346670; 23247196; 23146982; 23046030; 22944346; 22841932; 22738794; 22634934; 22530360; 22425070; 22319074; 22212372; 22104972; 21996874; 21888084;
21778608; 21668446; 21557608; 21446092; 21333908; 21221056; 21107542; 20993372; 20878548; 20763074; 20646958; 20530200; 20412808; 20294784; 20176134; 20056862;
19936972; 19816470; 19695358; 19573644; 19451330; 19328422; 19204922; 19080840; 18956176; 18830936; 18705124; 18578746; 18451808; 18324312; 18196264; 18067668;
17938530; 17808854; 17678644; 17547908; 17416648; 17284870; 17152578; 17019778; 16886474; 16752672; 16618376; 16483591; 16348323; 16212576; 16076355; 15939665;
15802512; 15664900; 15526835; 15388321; 15249364; 15109969; 14970140; 14829884; 14689204; 14548107; 14406597; 14264680; 14122360; 13979644; 13836535; 13693040;
13549163; 13404910; 13260286; 13115296; 12969946; 12824241; 12678185; 12531785; 12385046; 12237972; 12090570; 11942844; 11794800; 11646443; 11497779; 11348812;
11199549; 11049995; 10900154; 10750033; 10599636; 10448970; 10298039; 10146848; 9995405; 9843712; 9691777; 9539605; 9387200; 9234568; 9081716; 8928647;
8775369; 8621885; 8468202; 8314325; 8160259; 8006010; 7851584; 7696985; 7542220; 7387293; 7232211; 7076978; 6921601; 6766084; 6610433; 6454654;
6298752; 6142732; 5986600; 5830362; 5674023; 5517588; 5361063; 5204454; 5047765; 4891003; 4734172; 4577279; 4420328; 4263326; 4106278; 3949188;
3792063; 3634909; 3477729; 3320531; 3163320; 3006100; 2848877; 2691658; 2534446; 2377249; 2220070; 2062916; 1905792; 1748703; 1591655; 1434653;
1277703; 1120810; 963979; 807216; 650527; 493915; 337388; 180950; 24607; -131636; -287774; -443801; -599712; -755502; -911165; -1066697;
-1222091; -1377342; -1532446; -1687397; -1842189; -1996818; -2151277; -2305563; -2459669; -2613591; -2767323; -2920860; -3074197; -3227328; -3380249; -3532955;
-3685439; -3837698; -3989725; -4141516; -4293067; -4444370; -4595422; -4746218; -4896752; -5047020; -5197015; -5346734; -5496172; -5645322; -5794182; -5942744;
-6091005; -6238959; -6386602; -6533929; -6680934; -6827613; -6973962; -7119974; -7265646; -7410972; -7555948; -7700568; -7844829; -7988726; -8132252; -8275405;
-8418179; -8560569; -8702571; -8844181; -8985392; -9126202; -9266604; -9406595; -9546171; -9685325; -9824055; -9962355; -10100221; -10237648; -10374632; -10511169;
-10647253; -10782881; -10918049; -11052751; -11186983; -11320742; -11454022; -11586820; -11719131; -11850951; -11982276; -12113101; -12243422; -12373235; -12502536; -12631321;
-12759585; -12887325; -13014536; -13141214; -13267356; -13392957; -13518013; -13642521; -13766475; -13889874; -14012711; -14134984; -14256689; -14377822; -14498379; -14618356;
-14737749; -14856555; -14974770; -15092390; -15209412; -15325832; -15441645; -15556850; -15671441; -15785416; -15898771; -16011502; -16123606; -16235079; -16345918; -16456120;
-16565680; -16674597; -16782866; -16890482; -16997446; -17103752; -17209398; -17314378; -17418692; -17522334; -17625304; -17727596; -17829210; -17930138; -18030382; -18129938;
-18228800; -18326968; -18424436; -18521206; -18617270; -18712628; -18807276; -18901212; -18994434; -19086936; -19178720; -19269778; -19360110; -19449714; -19538588; -19626726;
-19714128; -19800792; -19886712; -19971890; -20056320; -20140002; -20222932; -20305108; -20386526; -20467188; -20547088; -20626226; -20704596; -20782200; -20859034; -20935096;
-21010384; -21084896; -21158630; -21231582; -21303752; -21375138; -21445738; -21515550; -21584570; -21652798; -21720234; -21786872; -21852714; -21917756; -21981996; -22045434;
-22108068; -22169894; -22230914; -22291124; -22350522; -22409110; -22466882; -22523838].
Definition mid_ints_5 : list Z := [
-22579978; -22635300; -22689802; -22743482; -22796340; -22848374; -22899584; -22949966; -22999522; -23048248; -23096144; -23143210; -23189444; -23234844; -23279410; -23323142;
-23366036; -23408094; -23449314; -23489694; -23529234; -23567936; -23605794; -23642810; -23678984; -23714314; -23748798; -23782438; -23815234; -23847182; -23878284; -23908538;
-23937944; -23966502; -23994210; -24021070; -24047080; -24072240; -24096550; -24120010; -24142618; -24164376; -24185282; -24205336; -24224540; -24242890; -24260390; -24277036;
-24292832; -24307776; -24321868; -24335106; -24347494; -24359030; -24369714; -24379548; -24388530; -24396660; -24403942; -24410370; -24415950; -24420680; -24424562; -24427594;
-24429776; -24431112; -24431600; -24431240; -24430034; -24427982; -24425086; -24421344; -24416758; -24411330; -24405058; -24397944; -24389990; -24381196; -24371562; -24361090;
-24349780; -24337632; -24324650; -24310834; -24296182; -24280698; -24264384; -24247238; -24229262; -24210458; -24190828; -24170372; -24149090; -24126986; -24104060; -24080312;
-24055744; -24030360; -24004158; -23977142; -23949310; -23920668; -23891214; -23860950; -23829880; -23798004; -23765322; -23731838; -23697552; -23662468; -23626584; -23589906;
-23552432; -23514168; -23475112; -23435266; -23394634; -23353218; -23311018; -23268038; -23224278; -23179742; -23134430; -23088344; -23041488; -22993864; -22945472; -22896316;
-22846398; -22795720; -22744284; -22692092; -22639148; -22585452; -22531008; -22475816; -22419882; -22363206; -22305790; -22247638; -22188752; -22129136; -22068788; -22007716;
-21945918; -21883400; -21820162; -21756208; -21691542; -21626164; -21560080; -21493288; -21425794; -21357602; -21288712; -21219128; -21148852; -21077888; -21006240; -20933908;
-20860896; -20787208; -20712846; -20637814; -20562114; -20485750; -20408722; -20331038; -20252698; -20173706; -20094064; -20013778; -19932848; -19851278; -19769072; -19686232;
-19602764; -19518670; -19433950; -19348612; -19262658; -19176090; -19088914; -19001130; -18912744; -18823758; -18734174; -18644000; -18553236; -18461888; -18369956; -18277448;
-18184364; -18090708; -17996484; -17901698; -17806350; -17710446; -17613988; -17516982; -17419428; -17321334; -17222702; -17123536; -17023838; -16923614; -16822866; -16721599;
-16619817; -16517523; -16414722; -16311416; -16207611; -16103310; -15998517; -15893236; -15787470; -15681224; -15574502; -15467308; -15359646; -15251519; -15142933; -15033890;
-14924395; -14814452; -14704065; -14593239; -14481977; -14370283; -14258162; -14145618; -14032655; -13919277; -13805488; -13691292; -13576695; -13461699; -13346310; -13230531;
-13114366; -12997821; -12880899; -12763604; -12645941; -12527915; -12409528; -12290787; -12171694; -12052256; -11932474; -11812356; -11691903; -11571122; -11450016; -11328589;
-11206847; -11084793; -10962432; -10839769; -10716807; -10593552; -10470008; -10346178; -10222069; -10097683; -9973027; -9848103; -9722917; -9597473; -9471776; -9345829;
-9219639; -9093208; -8966543; -8839646; -8712524; -8585180; -8457618; -8329844; -8201862; -8073677; -7945293; -7816714; -7687946; -7558993; -7429859; -7300549;
-7171068; -7041420; -6911610; -6781642; -6651522; -6521252; -6390840; -6260288; -6129601; -5998784; -5867843; -5736780; -5605601; -5474311; -5342914; -5211415;
-5079818; -4948128; -4816350; -4684488; -4552546; -4420531; -4288445; -4156294; -4024082; -3891815; -3759496; -3627130; -3494722; -3362276; -3229797; -3097290;
-2964759; -2832209; -2699645; -2567070; -2434491; -2301910; -2169333; -2036765; -1904210; -1771672; -1639156; -1506667; -1374210; -1241788; -1109407; -977071;
-844785; -712552; -580379; -448268; -316225; -184255; -52361; 79450; 211177; 342813; 474354; 605796; 737135; 868364; 999481; 1130481;
1261359; 1392111; 1522732; 1653218; 1783565; 1913768; 2043822; 2173724; 2303468; 2433051; 2562467; 2691714; 2820786; 2949678; 3078387; 3206909;
3335238; 3463371; 3591303; 3719031; 3846548; 3973853; 4100939; 4227803; 4354441; 4480848; 4607020; 4732953; 4858643; 4984085; 5109275; 5234210;
5358884; 5483294; 5607436; 5731306; 5854898; 5978210; 6101238; 6223976; 6346421; 6468569; 6590417; 6711959; 6833192; 6954112; 7074714; 7194996;
7314952; 7434580; 7553874; 7672832; 7791449; 7909721; 8027645; 8145216; 8262431; 8379286; 8495777; 8611900; 8727652; 8843028; 8958026; 9072640;
9186868; 9300706; 9414149; 9527195; 9639840; 9752080; 9863911; 9975330; 10086333; 10196917; 10307078; 10416812; 10526116; 10634987; 10743420; 10851414;
10958963; 11066064; 11172715; 11278912; 11384650; 11489928; 11594741; 11699087; 11802961; 11906361; 12009284; 12111725; 12213683; 12315153; 12416132; 12516617;
12616606; 12716094; 12815079; 12913558; 13011527; 13108984; 13205925; 13302348; 13398249; 13493625; 13588474; 13682792; 13776576; 13869825; 13962533; 14054700;
14146322; 14237395; 14327919; 14417888; 14507302; 14596156; 14684449; 14772177; 14859338; 14945930; 15031949; 15117393; 15202259; 15286545; 15370248; 15453367;
15535897; 15617837; 15699184; 15779936; 15860090; 15939645; 16018597; 16096944; 16174684; 16251814; 16328333; 16404238; 16479527; 16554197; 16628247; 16701673;
16774475; 16846650; 16918196; 16989110; 17059390; 17129036; 17198044; 17266412; 17334140; 17401224; 17467662; 17533454; 17598596; 17663088; 17726928; 17790112;
17852640; 17914512; 17975722; 18036270; 18096156; 18155378; 18213932; 18271820; 18329036; 18385582; 18441456; 18496656; 18551178; 18605024; 18658192; 18710680;
18762486; 18813608; 18864048; 18913802; 18962868; 19011246; 19058936; 19105936; 19152242; 19197856; 19242778; 19287002; 19330532; 19373364; 19415496; 19456930;
19497664; 19537696; 19577026; 19615654; 19653576; 19690794; 19727306; 19763112; 19798208; 19832598; 19866280; 19899250; 19931510; 19963060; 19993898; 20024024;
20053436; 20082134; 20110120; 20137390; 20163946; 20189786; 20214908; 20239316; 20263006; 20285980; 20308236; 20329774; 20350594; 20370696; 20390078; 20408742;
20426688; 20443912; 20460420; 20476206; 20491272; 20505620; 20519248; 20532156; 20544344; 20555812; 20566562; 20576590; 20585900; 20594490; 20602362; 20609514;
20615948; 20621662; 20626658; 20630936; 20634498; 20637340; 20639466; 20640876; 20641568; 20641546; 20640808; 20639354; 20637186; 20634304; 20630710; 20626402;
20621380; 20615648; 20609206; 20602052; 20594190; 20585618; 20576338; 20566352; 20555658; 20544258; 20532154; 20519346; 20505834; 20491620; 20476704; 20461088;
20444772; 20427758; 20410048; 20391640; 20372538; 20352740; 20332250; 20311068; 20289196; 20266634; 20243382; 20219446; 20194822; 20169514; 20143522; 20116848;
20089494; 20061462; 20032750; 20003364; 19973300; 19942566; 19911158; 19879080; 19846332; 19812918; 19778836; 19744092; 19708684; 19672616; 19635888; 19598504;
19560462; 19521766; 19482418; 19442420; 19401772; 19360478; 19318538; 19275956; 19232730; 19188866; 19144364; 19099226; 19053456; 19007052; 18960020; 18912358;
18864072; 18815162; 18765630; 18715478; 18664710; 18613326; 18561330; 18508722; 18455506; 18401682; 18347256; 18292228; 18236598; 18180372; 18123552; 18066138;
18008134; 17949544; 17890366; 17830606; 17770264; 17709346; 17647850; 17585782; 17523142; 17459936; 17396162; 17331826; 17266930; 17201476; 17135466; 17068904;
17001790; 16934130; 16865926; 16797180; 16727894; 16658072; 16587715; 16516828; 16445413; 16373472; 16301009; 16228026; 16154526; 16080512; 16005987; 15930954;
15855415; 15779374; 15702834; 15625797; 15548267; 15470246; 15391738; 15312745; 15233271; 15153318; 15072890; 14991990; 14910621; 14828786; 14746488; 14663730;
14580516; 14496848; 14412730; 14328165; 14243156; 14157707; 14071820; 13985500; 13898748; 13811569; 13723965; 13635941; 13547498; 13458642; 13369374; 13279699;
13189620; 13099139; 13008261; 12916989; 12825326; 12733276; 12640842; 12548028; 12454836; 12361271; 12267336; 12173035; 12078370; 11983346; 11887966; 11792233;
11696152; 11599725; 11502956; 11405849; 11308407; 11210634; 11112533; 11014109; 10915364; 10816302; 10716928; 10617244; 10517254; 10416962; 10316371; 10215486;
10114310; 10012846; 9911099; 9809071; 9706767; 9604191; 9501346; 9398235; 9294864; 9191234; 9087351; 8983217; 8878837; 8774215; 8669354; 8564257;
8458930; 8353374; 8247596; 8141597; 8035382; 7928955; 7822320; 7715480; 7608439; 7501202; 7393771; 7286151; 7178346; 7070359; 6962195; 6853856;
6745348; 6636674; 6527837; 6418842; 6309692; 6200392; 6090946; 5981356; 5871627; 5761764; 5651769; 5541647; 5431401; 5321037; 5210556; 5099964;
4989264; 4878460; 4767556; 4656556; 4545464; 4434284; 4323020; 4211675; 4100253; 3988759; 3877196; 3765568; 3653880; 3542134; 3430335; 3318488;
3206595; 3094660; 2982689; 2870683; 2758648; 2646588; 2534505; 2422404; 2310290; 2198165; 2086034; 1973901; 1861769; 1749643; 1637526; 1525422;
1413335; 1301269; 1189228; 1077215; 965235; 853292; 741388; 629529; 517718; 405958; 294254; 182610; 71029; -40484; -151927; -263295;
-374585; -485792; -596914; -707945; -818882; -929722; -1040460; -1151094; -1261618; -1372030; -1482325; -1592501; -1702552; -1812476; -1922268; -2031925;
-2141444; -2250820; -2360049; -2469129; -2578055; -2686824; -2795432; -2903875; -3012150; -3120253; -3228181; -3335929; -3443495; -3550874; -3658063; -3765059;
-3871857; -3978454; -4084847; -4191033; -4297006; -4402765; -4508305; -4613623; -4718716; -4823579; -4928210; -5032605; -5136760; -5240672; -5344338; -5447754;
-5550917; -5653823; -5756468; -5858851; -5960966; -6062811; -6164382; -6265677; -6366691; -6467421; -6567865; -6668018; -6767878; -6867441; -6966703; -7065663;
-7164315; -7262658; -7360688; -7458402; -7555796; -7652867; -7749613; -7846030; -7942115; -8037864; -8133275; -8228345; -8323071; -8417449; -8511476; -8605150;
-8698467; -8791424; -8884018; -8976247; -9068108; -9159596; -9250711; -9341447; -9431804; -9521777; -9611364; -9700562; -9789368; -9877779; -9965793; -10053407;
-10140618; -10227422; -10313818; -10399803; -10485374; -10570528; -10655262; -10739574; -10823462; -10906922; -10989952; -11072549; -11154711; -11236435; -11317718; -11398559;
-11478954; -11558901; -11638398; -11717442; -11796030; -11874160; -11951830; -12029038].
Definition mid_ints_6 : list Z := [
-12105780; -12182055; -12257860; -12333193; -12408051; -12482433; -12556336; -12629757; -12702695; -12775147; -12847111; -12918585; -12989566; -13060053; -13130044; -13199536;
-13268526; -13337014; -13404997; -13472473; -13539440; -13605895; -13671838; -13737266; -13802177; -13866568; -13930439; -13993788; -14056612; -14118909; -14180678; -14241917;
-14302625; -14362798; -14422436; -14481538; -14540100; -14598122; -14655602; -14712537; -14768928; -14824771; -14880066; -14934810; -14989003; -15042642; -15095726; -15148254;
-15200224; -15251635; -15302485; -15352773; -15402497; -15451657; -15500250; -15548276; -15595733; -15642620; -15688935; -15734677; -15779846; -15824439; -15868456; -15911896;
-15954757; -15997038; -16038738; -16079856; -16120392; -16160343; -16199709; -16238489; -16276682; -16314287; -16351303; -16387729; -16423565; -16458809; -16493460; -16527518;
-16560981; -16593850; -16626123; -16657800; -16688880; -16719361; -16749244; -16778528; -16807212; -16835296; -16862778; -16889658; -16915938; -16941612; -16966686; -16991154;
-17015018; -17038278; -17060932; -17082982; -17104424; -17125262; -17145492; -17165116; -17184132; -17202540; -17220340; -17237534; -17254118; -17270094; -17285460; -17300220;
-17314368; -17327910; -17340840; -17353164; -17364876; -17375980; -17386474; -17396360; -17405636; -17414302; -17422360; -17429810; -17436650; -17442882; -17448504; -17453518;
-17457924; -17461722; -17464914; -17467496; -17469472; -17470842; -17471604; -17471762; -17471312; -17470258; -17468598; -17466334; -17463466; -17459994; -17455920; -17451242;
-17445962; -17440082; -17433600; -17426518; -17418836; -17410554; -17401676; -17392198; -17382124; -17371454; -17360188; -17348328; -17335872; -17322824; -17309184; -17294952;
-17280130; -17264718; -17248716; -17232126; -17214950; -17197188; -17178840; -17159910; -17140394; -17120298; -17099620; -17078362; -17056526; -17034112; -17011122; -16987556;
-16963416; -16938702; -16913418; -16887562; -16861136; -16834144; -16806584; -16778458; -16749770; -16720517; -16690704; -16660330; -16629398; -16597908; -16565863; -16533264;
-16500111; -16466407; -16432154; -16397352; -16362003; -16326109; -16289672; -16252692; -16215172; -16177114; -16138518; -16099387; -16059722; -16019525; -15978797; -15937542;
-15895759; -15853451; -15810620; -15767268; -15723396; -15679006; -15634101; -15588681; -15542749; -15496307; -15449357; -15401900; -15353939; -15305476; -15256512; -15207050;
-15157091; -15106638; -15055693; -15004258; -14952334; -14899925; -14847031; -14793656; -14739801; -14685469; -14630662; -14575381; -14519630; -14463410; -14406723; -14349572;
-14291960; -14233888; -14175359; -14116374; -14056937; -13997050; -13936715; -13875934; -13814710; -13753046; -13690943; -13628404; -13565431; -13502027; -13438195; -13373937;
-13309255; -13244152; -13178630; -13112693; -13046342; -12979579; -12912409; -12844833; -12776853; -12708473; -12639695; -12570521; -12500955; -12430999; -12360655; -12289927;
-12218816; -12147327; -12075461; -12003221; -11930609; -11857630; -11784284; -11710576; -11636508; -11562083; -11487303; -11412171; -11336691; -11260865; -11184695; -11108185;
-11031338; -10954156; -10876642; -10798800; -10720632; -10642141; -10563329; -10484201; -10404758; -10325005; -10244943; -10164575; -10083905; -10002936; -9921671; -9840112;
-9758263; -9676127; -9593706; -9511004; -9428024; -9344769; -9261242; -9177445; -9093383; -9009057; -8924472; -8839630; -8754535; -8669189; -8583596; -8497758;
-8411680; -8325363; -8238811; -8152028; -8065016; -7977779; -7890319; -7802641; -7714747; -7626640; -7538323; -7449800; -7361074; -7272148; -7183025; -7093709;
-7004202; -6914509; -6824631; -6734573; -6644338; -6553929; -6463348; -6372600; -6281688; -6190614; -6099382; -6007996; -5916459; -5824773; -5732943; -5640971;
-5548861; -5456616; -5364239; -5271733; -5179103; -5086351; -4993480; -4900494; -4807396; -4714189; -4620877; -4527463; -4433950; -4340341; -4246641; -4152851;
-4058976; -3965019; -3870983; -3776871; -3682687; -3588434; -3494116; -3399735; -3305294; -3210799; -3116250; -3021653; -2927010; -2832324; -2737599; -2642838;
-2548044; -2453222; -2358373; -2263502; -2168611; -2073704; -1978785; -1883856; -1788920; -1693982; -1599045; -1504111; -1409184; -1314267; -1219364; -1124478;
-1029612; -934770; -839954; -745168; -650415; -555699; -461022; -366389; -271802; -177264; -82779; 11649; 106019; 200326; 294567; 388740;
482840; 576865; 670811; 764676; 858456; 952147; 1045747; 1139252; 1232660; 1325967; 1419169; 1512265; 1605249; 1698121; 1790875; 1883510;
1976021; 2068407; 2160663; 2252787; 2344775; 2436624; 2528332; 2619895; 2711310; 2802575; 2893685; 2984638; 3075431; 3166060; 3256524; 3346818;
3436940; 3526886; 3616654; 3706241; 3795643; 3884859; 3973883; 4062715; 4151350; 4239787; 4328021; 4416050; 4503871; 4591481; 4678877; 4766057;
4853017; 4939755; 5026267; 5112551; 5198604; 5284424; 5370006; 5455349; 5540450; 5625305; 5709913; 5794270; 5878373; 5962220; 6045808; 6129135;
6212197; 6294992; 6377517; 6459769; 6541747; 6623446; 6704865; 6786000; 6866850; 6947411; 7027681; 7107658; 7187338; 7266719; 7345799; 7424575;
7503044; 7581204; 7659053; 7736588; 7813806; 7890705; 7967282; 8043536; 8119463; 8195061; 8270328; 8345262; 8419859; 8494118; 8568036; 8641611;
8714840; 8787722; 8860254; 8932433; 9004257; 9075725; 9146833; 9217580; 9287963; 9357980; 9427629; 9496908; 9565814; 9634345; 9702500; 9770276;
9837671; 9904683; 9971310; 10037549; 10103400; 10168858; 10233924; 10298594; 10362866; 10426740; 10490212; 10553280; 10615944; 10678200; 10740047; 10801484;
10862507; 10923116; 10983308; 11043082; 11102436; 11161368; 11219876; 11277959; 11335614; 11392840; 11449636; 11505999; 11561929; 11617422; 11672478; 11727095;
11781272; 11835006; 11888296; 11941141; 11993539; 12045489; 12096988; 12148036; 12198631; 12248771; 12298456; 12347683; 12396451; 12444759; 12492605; 12539989;
12586908; 12633361; 12679347; 12724866; 12769914; 12814492; 12858597; 12902230; 12945387; 12988069; 13030274; 13072001; 13113249; 13154016; 13194302; 13234105;
13273425; 13312259; 13350608; 13388471; 13425845; 13462731; 13499126; 13535031; 13570445; 13605366; 13639793; 13673726; 13707163; 13740105; 13772550; 13804496;
13835945; 13866894; 13897343; 13927291; 13956737; 13985681; 14014123; 14042060; 14069494; 14096422; 14122845; 14148762; 14174172; 14199074; 14223469; 14247356;
14270733; 14293602; 14315960; 14337808; 14359145; 14379972; 14400286; 14420089; 14439379; 14458157; 14476422; 14494173; 14511411; 14528135; 14544345; 14560040;
14575221; 14589887; 14604038; 14617673; 14630794; 14643399; 14655488; 14667062; 14678120; 14688662; 14698688; 14708199; 14717194; 14725672; 14733635; 14741082;
14748013; 14754429; 14760329; 14765714; 14770583; 14774937; 14778777; 14782101; 14784911; 14787206; 14788988; 14790255; 14791009; 14791250; 14790978; 14790193;
14788895; 14787086; 14784765; 14781933; 14778591; 14774738; 14770375; 14765503; 14760121; 14754232; 14747835; 14740930; 14733518; 14725601; 14717178; 14708249;
14698817; 14688880; 14678441; 14667499; 14656055; 14644111; 14631666; 14618722; 14605279; 14591338; 14576899; 14561965; 14546535; 14530610; 14514191; 14497279;
14479876; 14461981; 14443596; 14424721; 14405358; 14385508; 14365172; 14344350; 14323044; 14301254; 14278983; 14256230; 14232997; 14209285; 14185096; 14160429;
14135287; 14109671; 14083582; 14057020; 14029988; 14002486; 13974516; 13946079; 13917176; 13887809; 13857979; 13827686; 13796933; 13765722; 13734052; 13701926;
13669345; 13636310; 13602824; 13568886; 13534500; 13499665; 13464384; 13428659; 13392490; 13355880; 13318829; 13281340; 13243414; 13205052; 13166256; 13127029;
13087370; 13047283; 13006768; 12965828; 12924464; 12882677; 12840470; 12797844; 12754802; 12711343; 12667472; 12623188; 12578495; 12533393; 12487885; 12441973;
12395658; 12348942; 12301827; 12254315; 12206408; 12158107; 12109416; 12060335; 12010866; 11961012; 11910775; 11860156; 11809157; 11757781; 11706029; 11653904;
11601408; 11548542; 11495308; 11441710; 11387748; 11333425; 11278744; 11223705; 11168312; 11112566; 11056470; 11000025; 10943235; 10886100; 10828624; 10770808;
10712655; 10654168; 10595347; 10536196; 10476716; 10416910; 10356781; 10296330; 10235561; 10174474; 10113072; 10051359; 9989336; 9927005; 9864369; 9801430;
9738191; 9674653; 9610820; 9546694; 9482277; 9417571; 9352580; 9287304; 9221748; 9155913; 9089802; 9023417; 8956761; 8889836; 8822644; 8755189;
8687472; 8619497; 8551265; 8482780; 8414043; 8345058; 8275826; 8206351; 8136635; 8066680; 7996490; 7926066; 7855412; 7784529; 7713421; 7642090;
7570539; 7498770; 7426786; 7354590; 7282184; 7209571; 7136753; 7063733; 6990515; 6917099; 6843490; 6769690; 6695701; 6621527; 6547169; 6472631;
6397915; 6323024; 6247961; 6172729; 6097329; 6021765; 5946040; 5870156; 5794116; 5717923; 5641580; 5565088; 5488452; 5411673; 5334755; 5257700;
5180511; 5103191; 5025742; 4948168; 4870471; 4792653; 4714718; 4636669; 4558508; 4480237; 4401861; 4323380; 4244800; 4166121; 4087347; 4008481;
3929525; 3850482; 3771356; 3692148; 3612862; 3533501; 3454066; 3374562; 3294991; 3215355; 3135658; 3055902; 2976090; 2896225; 2816309; 2736346;
2656339; 2576289; 2496200; 2416075; 2335917; 2255727; 2175510; 2095268; 2015003; 1934719; 1854418; 1774103; 1693777; 1613443; 1533103; 1452761;
1372418; 1292079; 1211744; 1131419; 1051104; 970803; 890520; 810255; 730013; 649796; 569607; 489448; 409323; 329233; 249183; 169174;
89209; 9292; -70575; -150390; -230149; -309851; -389492; -469069; -548580; -628023; -707393; -786690; -865909; -945048; -1024105; -1103077;
-1181961; -1260755; -1339455; -1418060; -1496566; -1574970; -1653271; -1731466; -1809551; -1887525; -1965384; -2043126; -2120749; -2198249; -2275624; -2352872;
-2429990; -2506975; -2583824; -2660536; -2737108; -2813536; -2889819; -2965954; -3041938; -3117769; -3193444; -3268961; -3344317; -3419510; -3494537; -3569396;
-3644084; -3718599; -3792938; -3867098; -3941078; -4014875; -4088487; -4161910].
Definition mid_ints_7 : list Z := [
-4235143; -4308183; -4381028; -4453675; -4526122; -4598366; -4670406; -4742238; -4813861; -4885272; -4956469; -5027449; -5098210; -5168750; -5239066; -5309157;
-5379019; -5448651; -5518050; -5587214; -5656141; -5724829; -5793275; -5861477; -5929433; -5997140; -6064597; -6131802; -6198751; -6265444; -6331877; -6398049;
-6463958; -6529600; -6594976; -6660081; -6724915; -6789474; -6853758; -6917764; -6981489; -7044932; -7108091; -7170964; -7233549; -7295843; -7357846; -7419554;
-7480966; -7542080; -7602894; -7663407; -7723615; -7783518; -7843113; -7902399; -7961373; -8020035; -8078381; -8136410; -8194121; -8251512; -8308580; -8365324;
-8421743; -8477833; -8533595; -8589026; -8644124; -8698887; -8753314; -8807404; -8861154; -8914563; -8967630; -9020352; -9072728; -9124756; -9176436; -9227764;
-9278741; -9329363; -9379630; -9429541; -9479093; -9528285; -9577115; -9625583; -9673687; -9721424; -9768795; -9815797; -9862429; -9908690; -9954578; -10000092;
-10045231; -10089993; -10134376; -10178381; -10222005; -10265247; -10308105; -10350579; -10392668; -10434370; -10475683; -10516608; -10557142; -10597284; -10637034; -10676389;
-10715350; -10753914; -10792082; -10829851; -10867221; -10904190; -10940758; -10976924; -11012686; -11048044; -11082996; -11117542; -11151681; -11185412; -11218733; -11251645;
-11284145; -11316234; -11347910; -11379173; -11410021; -11440455; -11470472; -11500073; -11529256; -11558021; -11586368; -11614294; -11641800; -11668886; -11695549; -11721790;
-11747609; -11773003; -11797973; -11822519; -11846639; -11870333; -11893600; -11916441; -11938853; -11960838; -11982394; -12003521; -12024218; -12044486; -12064323; -12083729;
-12102703; -12121247; -12139358; -12157037; -12174283; -12191096; -12207475; -12223421; -12238933; -12254011; -12268655; -12282864; -12296638; -12309976; -12322880; -12335348;
-12347381; -12358977; -12370138; -12380863; -12391152; -12401005; -12410421; -12419401; -12427945; -12436052; -12443723; -12450958; -12457756; -12464118; -12470044; -12475534;
-12480587; -12485205; -12489387; -12493133; -12496443; -12499319; -12501758; -12503763; -12505333; -12506468; -12507169; -12507436; -12507269; -12506668; -12505634; -12504167;
-12502267; -12499935; -12497171; -12493975; -12490348; -12486290; -12481802; -12476884; -12471536; -12465759; -12459553; -12452920; -12445859; -12438370; -12430455; -12422114;
-12413348; -12404156; -12394540; -12384501; -12374038; -12363153; -12351846; -12340118; -12327969; -12315401; -12302413; -12289007; -12275183; -12260943; -12246286; -12231214;
-12215727; -12199826; -12183512; -12166786; -12149649; -12132102; -12114144; -12095778; -12077004; -12057823; -12038237; -12018245; -11997849; -11977049; -11955848; -11934246;
-11912243; -11889841; -11867041; -11843843; -11820250; -11796262; -11771880; -11747105; -11721938; -11696381; -11670434; -11644099; -11617377; -11590269; -11562777; -11534900;
-11506641; -11478001; -11448982; -11419583; -11389807; -11359655; -11329128; -11298228; -11266955; -11235311; -11203298; -11170916; -11138168; -11105054; -11071576; -11037735;
-11003533; -10968971; -10934050; -10898772; -10863139; -10827151; -10790811; -10754120; -10717078; -10679689; -10641953; -10603872; -10565447; -10526680; -10487573; -10448126;
-10408343; -10368223; -10327770; -10286983; -10245866; -10204420; -10162646; -10120546; -10078122; -10035375; -9992307; -9948920; -9905215; -9861195; -9816860; -9772214;
-9727256; -9681990; -9636416; -9590537; -9544355; -9497871; -9451087; -9404005; -9356627; -9308954; -9260988; -9212732; -9164187; -9115355; -9066237; -9016837;
-8967155; -8917193; -8866954; -8816439; -8765651; -8714590; -8663260; -8611662; -8559798; -8507670; -8455280; -8402630; -8349722; -8296558; -8243139; -8189469;
-8135549; -8081381; -8026967; -7972309; -7917410; -7862270; -7806893; -7751280; -7695434; -7639356; -7583049; -7526515; -7469755; -7412772; -7355569; -7298146;
-7240507; -7182654; -7124587; -7066311; -7007827; -6949136; -6890242; -6831147; -6771852; -6712359; -6652672; -6592792; -6532721; -6472461; -6412016; -6351386;
-6290575; -6229584; -6168416; -6107072; -6045556; -5983869; -5922014; -5859992; -5797807; -5735460; -5672954; -5610291; -5547473; -5484502; -5421381; -5358112;
-5294698; -5231140; -5167441; -5103603; -5039629; -4975521; -4911281; -4846911; -4782414; -4717792; -4653048; -4588183; -4523201; -4458102; -4392891; -4327568;
-4262137; -4196600; -4130959; -4065216; -3999374; -3933435; -3867402; -3801276; -3735060; -3668757; -3602369; -3535899; -3469347; -3402718; -3336013; -3269235;
-3202386; -3135468; -3068484; -3001436; -2934326; -2867158; -2799933; -2732653; -2665321; -2597940; -2530511; -2463038; -2395522; -2327965; -2260371; -2192742;
-2125079; -2057386; -1989664; -1921917; -1854146; -1786353; -1718542; -1650715; -1582873; -1515019; -1447156; -1379286; -1311411; -1243534; -1175657; -1107783;
-1039913; -972050; -904197; -836355; -768528; -700717; -632925; -565154; -497406; -429685; -361991; -294328; -226698; -159103; -91546; -24028;
43447; 110878; 178262; 245597; 312881; 380112; 447286; 514402; 581458; 648450; 715378; 782238; 849029; 915747; 982392; 1048960;
1115449; 1181857; 1248182; 1314421; 1380573; 1446634; 1512604; 1578479; 1644257; 1709936; 1775515; 1840990; 1906359; 1971621; 2036772; 2101812;
2166737; 2231546; 2296236; 2360806; 2425252; 2489573; 2553767; 2617831; 2681764; 2745563; 2809227; 2872752; 2936137; 2999380; 3062479; 3125431;
3188235; 3250888; 3313388; 3375734; 3437923; 3499953; 3561822; 3623529; 3685070; 3746444; 3807649; 3868683; 3929545; 3990231; 4050739; 4111069;
4171218; 4231184; 4290965; 4350559; 4409964; 4469178; 4528200; 4587027; 4645657; 4704089; 4762320; 4820349; 4878174; 4935793; 4993204; 5050405;
5107395; 5164171; 5220732; 5277075; 5333200; 5389104; 5444785; 5500242; 5555473; 5610476; 5665249; 5719791; 5774100; 5828174; 5882011; 5935610;
5988968; 6042085; 6094959; 6147588; 6199969; 6252102; 6303986; 6355617; 6406995; 6458118; 6508984; 6559593; 6609941; 6660028; 6709852; 6759412;
6808705; 6857731; 6906488; 6954974; 7003188; 7051128; 7098793; 7146182; 7193292; 7240123; 7286673; 7332940; 7378923; 7424622; 7470033; 7515157;
7559991; 7604534; 7648785; 7692742; 7736405; 7779771; 7822840; 7865610; 7908080; 7950248; 7992114; 8033676; 8074933; 8115883; 8156526; 8196860;
8236883; 8276596; 8315996; 8355082; 8393854; 8432310; 8470449; 8508270; 8545771; 8582952; 8619812; 8656349; 8692562; 8728451; 8764014; 8799251;
8834160; 8868740; 8902990; 8936910; 8970498; 9003753; 9036675; 9069263; 9101515; 9133431; 9165009; 9196250; 9227152; 9257713; 9287935; 9317814;
9347352; 9376546; 9405397; 9433903; 9462063; 9489877; 9517345; 9544464; 9571236; 9597658; 9623730; 9649452; 9674823; 9699842; 9724509; 9748822;
9772782; 9796388; 9819639; 9842534; 9865073; 9887256; 9909082; 9930550; 9951659; 9972411; 9992802; 10012835; 10032507; 10051819; 10070769; 10089359;
10107586; 10125451; 10142954; 10160094; 10176870; 10193282; 10209331; 10225015; 10240334; 10255289; 10269878; 10284102; 10297960; 10311452; 10324577; 10337336;
10349729; 10361754; 10373412; 10384704; 10395627; 10406183; 10416372; 10426193; 10435645; 10444730; 10453447; 10461796; 10469776; 10477388; 10484632; 10491508;
10498015; 10504154; 10509925; 10515327; 10520362; 10525028; 10529326; 10533257; 10536819; 10540014; 10542841; 10545301; 10547393; 10549118; 10550476; 10551468;
10552093; 10552351; 10552243; 10551770; 10550930; 10549726; 10548156; 10546221; 10543922; 10541258; 10538231; 10534840; 10531086; 10526969; 10522490; 10517648;
10512445; 10506881; 10500955; 10494670; 10488024; 10481019; 10473655; 10465932; 10457851; 10449413; 10440618; 10431466; 10421959; 10412096; 10401878; 10391306;
10380380; 10369102; 10357470; 10345488; 10333154; 10320469; 10307435; 10294052; 10280320; 10266241; 10251814; 10237041; 10221923; 10206460; 10190652; 10174502;
10158009; 10141174; 10123998; 10106483; 10088627; 10070434; 10051903; 10033035; 10013831; 9994293; 9974420; 9954214; 9933676; 9912806; 9891606; 9870077;
9848219; 9826034; 9803522; 9780684; 9757522; 9734037; 9710229; 9686099; 9661649; 9636880; 9611792; 9586387; 9560666; 9534630; 9508280; 9481617;
9454643; 9427357; 9399763; 9371860; 9343650; 9315134; 9286313; 9257189; 9227763; 9198035; 9168008; 9137681; 9107058; 9076138; 9044923; 9013415;
8981614; 8949523; 8917141; 8884471; 8851514; 8818272; 8784744; 8750934; 8716842; 8682469; 8647818; 8612889; 8577683; 8542203; 8506450; 8470424;
8434128; 8397562; 8360729; 8323630; 8286265; 8248638; 8210749; 8172599; 8134190; 8095524; 8056602; 8017426; 7977997; 7938317; 7898386; 7858208;
7817783; 7777113; 7736199; 7695044; 7653648; 7612013; 7570141; 7528033; 7485692; 7443118; 7400313; 7357280; 7314018; 7270532; 7226821; 7182887;
7138733; 7094359; 7049768; 7004962; 6959941; 6914708; 6869264; 6823611; 6777751; 6731686; 6685417; 6638946; 6592274; 6545404; 6498337; 6451075;
6403620; 6355973; 6308137; 6260113; 6211902; 6163508; 6114930; 6066172; 6017235; 5968121; 5918832; 5869369; 5819734; 5769930; 5719957; 5669819;
5619516; 5569051; 5518425; 5467641; 5416699; 5365603; 5314353; 5262953; 5211403; 5159705; 5107862; 5055875; 5003747; 4951478; 4899072; 4846529;
4793853; 4741044; 4688104; 4635037; 4581843; 4528524; 4475083; 4421521; 4367840; 4314042; 4260130; 4206105; 4151968; 4097723; 4043370; 3988913;
3934352; 3879690; 3824929; 3770071; 3715117; 3660070; 3604932; 3549704; 3494389; 3438988; 3383504; 3327939; 3272294; 3216571; 3160773; 3104901;
3048958; 2992945; 2936865; 2880719; 2824510; 2768239; 2711908; 2655519; 2599075; 2542578; 2486029; 2429430; 2372783; 2316091; 2259355; 2202578;
2145761; 2088906; 2032015; 1975091; 1918135; 1861150; 1804137; 1747098; 1690036; 1632952; 1575848; 1518726; 1461589; 1404438; 1347276; 1290104;
1232924; 1175738; 1118548; 1061357; 1004166; 946977; 889793; 832614].
Definition mid_ints_8 : list Z := [
775444; 718284; 661136; 604002; 546884; 489785; 432705; 375647; 318613; 261605; 204625; 147675; 90756; 33872; -22976; -79788;
-136559; -193290; -249976; -306618; -363212; -419756; -476250; -532690; -589075; -645404; -701673; -757881; -814027; -870108; -926123; -982069;
-1037944; -1093748; -1149477; -1205131; -1260706; -1316202; -1371616; -1426946; -1482191; -1537349; -1592417; -1647395; -1702280; -1757070; -1811764; -1866359;
-1920854; -1975247; -2029537; -2083721; -2137797; -2191764; -2245620; -2299363; -2352991; -2406503; -2459897; -2513171; -2566323; -2619351; -2672254; -2725030;
-2777678; -2830194; -2882579; -2934829; -2986944; -3038921; -3090759; -3142457; -3194011; -3245421; -3296686; -3347802; -3398770; -3449586; -3500250; -3550759;
-3601112; -3651308; -3701344; -3751220; -3800933; -3850481; -3899864; -3949080; -3998127; -4047003; -4095707; -4144237; -4192592; -4240770; -4288769; -4336589;
-4384227; -4431682; -4478952; -4526036; -4572933; -4619641; -4666157; -4712482; -4758613; -4804550; -4850289; -4895831; -4941173; -4986314; -5031253; -5075988;
-5120518; -5164841; -5208956; -5252862; -5296557; -5340040; -5383310; -5426364; -5469202; -5511823; -5554225; -5596406; -5638366; -5680103; -5721616; -5762903;
-5803963; -5844796; -5885399; -5925771; -5965912; -6005819; -6045492; -6084930; -6124131; -6163094; -6201818; -6240301; -6278543; -6316542; -6354297; -6391807;
-6429071; -6466088; -6502856; -6539375; -6575643; -6611660; -6647423; -6682933; -6718188; -6753187; -6787928; -6822412; -6856636; -6890600; -6924303; -6957744;
-6990922; -7023836; -7056484; -7088866; -7120982; -7152829; -7184408; -7215717; -7246755; -7277521; -7308015; -7338235; -7368181; -7397852; -7427248; -7456366;
-7485206; -7513768; -7542051; -7570054; -7597776; -7625216; -7652374; -7679249; -7705839; -7732145; -7758166; -7783901; -7809348; -7834509; -7859381; -7883964;
-7908257; -7932261; -7955973; -7979395; -8002524; -8025360; -8047903; -8070152; -8092107; -8113766; -8135130; -8156198; -8176969; -8197443; -8217619; -8237497;
-8257076; -8276356; -8295337; -8314017; -8332396; -8350475; -8368252; -8385727; -8402900; -8419770; -8436337; -8452600; -8468560; -8484215; -8499566; -8514612;
-8529352; -8543788; -8557917; -8571740; -8585257; -8598467; -8611371; -8623967; -8636256; -8648237; -8659910; -8671275; -8682332; -8693081; -8703521; -8713652;
-8723474; -8732988; -8742192; -8751087; -8759672; -8767948; -8775915; -8783571; -8790918; -8797956; -8804683; -8811101; -8817208; -8823006; -8828494; -8833672;
-8838541; -8843099; -8847348; -8851287; -8854917; -8858237; -8861247; -8863948; -8866340; -8868423; -8870196; -8871661; -8872817; -8873665; -8874204; -8874435;
-8874358; -8873973; -8873280; -8872281; -8870974; -8869360; -8867439; -8865212; -8862680; -8859841; -8856697; -8853247; -8849493; -8845434; -8841071; -8836405;
-8831434; -8826161; -8820585; -8814707; -8808526; -8802044; -8795261; -8788178; -8780794; -8773110; -8765127; -8756846; -8748265; -8739387; -8730212; -8720740;
-8710972; -8700907; -8690548; -8679894; -8668945; -8657704; -8646169; -8634342; -8622223; -8609812; -8597112; -8584121; -8570841; -8557273; -8543417; -8529273;
-8514843; -8500127; -8485125; -8469839; -8454270; -8438417; -8422282; -8405865; -8389168; -8372190; -8354933; -8337398; -8319585; -8301495; -8283129; -8264487;
-8245571; -8226382; -8206920; -8187186; -8167180; -8146905; -8126360; -8105547; -8084467; -8063119; -8041507; -8019629; -7997487; -7975083; -7952417; -7929489;
-7906302; -7882856; -7859151; -7835190; -7810972; -7786500; -7761773; -7736794; -7711562; -7686079; -7660347; -7634366; -7608137; -7581661; -7554940; -7527974;
-7500765; -7473313; -7445621; -7417688; -7389516; -7361107; -7332460; -7303579; -7274463; -7245113; -7215532; -7185720; -7155678; -7125408; -7094910; -7064186;
-7033238; -7002066; -6970671; -6939056; -6907220; -6875166; -6842894; -6810406; -6777704; -6744787; -6711659; -6678319; -6644770; -6611012; -6577048; -6542877;
-6508502; -6473924; -6439144; -6404163; -6368983; -6333606; -6298032; -6262263; -6226301; -6190146; -6153800; -6117265; -6080541; -6043631; -6006536; -5969256;
-5931794; -5894151; -5856329; -5818328; -5780150; -5741797; -5703270; -5664571; -5625700; -5586660; -5547452; -5508078; -5468538; -5428835; -5388969; -5348943;
-5308758; -5268415; -5227915; -5187262; -5146455; -5105496; -5064388; -5023131; -4981726; -4940177; -4898483; -4856647; -4814670; -4772554; -4730299; -4687909;
-4645384; -4602726; -4559937; -4517017; -4473970; -4430795; -4387495; -4344072; -4300526; -4256860; -4213076; -4169174; -4125156; -4081024; -4036780; -3992425;
-3947961; -3903390; -3858712; -3813930; -3769045; -3724059; -3678974; -3633791; -3588512; -3543138; -3497671; -3452113; -3406465; -3360730; -3314907; -3269001;
-3223011; -3176939; -3130788; -3084559; -3038254; -2991873; -2945420; -2898895; -2852300; -2805637; -2758908; -2712114; -2665257; -2618338; -2571359; -2524323;
-2477230; -2430082; -2382881; -2335628; -2288326; -2240976; -2193579; -2146138; -2098653; -2051128; -2003562; -1955958; -1908319; -1860644; -1812936; -1765198;
-1717429; -1669633; -1621810; -1573963; -1526092; -1478201; -1430290; -1382361; -1334416; -1286456; -1238484; -1190500; -1142507; -1094506; -1046499; -998487;
-950472; -902457; -854442; -806429; -758419; -710416; -662419; -614432; -566455; -518490; -470538; -422603; -374684; -326784; -278905; -231048;
-183214; -135406; -87625; -39872; 7849; 55540; 103196; 150818; 198403; 245949; 293455; 340920; 388341; 435717; 483047; 530328;
577560; 624741; 671868; 718941; 765957; 812916; 859816; 906654; 953430; 1000142; 1046788; 1093367; 1139877; 1186316; 1232684; 1278977;
1325196; 1371338; 1417402; 1463386; 1509289; 1555109; 1600845; 1646494; 1692056; 1737530; 1782912; 1828203; 1873400; 1918502; 1963508; 2008415;
2053223; 2097930; 2142535; 2187035; 2231430; 2275719; 2319898; 2363968; 2407927; 2451772; 2495504; 2539120; 2582618; 2625999; 2669259; 2712398;
2755414; 2798306; 2841072; 2883711; 2926222; 2968603; 3010853; 3052970; 3094953; 3136801; 3178513; 3220086; 3261520; 3302813; 3343964; 3384971;
3425834; 3466551; 3507121; 3547541; 3587812; 3627932; 3667898; 3707711; 3747369; 3786871; 3826214; 3865399; 3904424; 3943287; 3981987; 4020524;
4058895; 4097100; 4135137; 4173006; 4210704; 4248232; 4285586; 4322768; 4359774; 4396605; 4433258; 4469733; 4506029; 4542145; 4578078; 4613829;
4649396; 4684778; 4719974; 4754982; 4789802; 4824433; 4858874; 4893122; 4927179; 4961041; 4994709; 5028181; 5061456; 5094534; 5127412; 5160091;
5192569; 5224845; 5256918; 5288788; 5320452; 5351911; 5383164; 5414208; 5445045; 5475671; 5506087; 5536292; 5566285; 5596064; 5625629; 5654980;
5684115; 5713032; 5741733; 5770215; 5798478; 5826521; 5854342; 5881943; 5909320; 5936475; 5963405; 5990110; 6016590; 6042843; 6068869; 6094667;
6120236; 6145576; 6170686; 6195565; 6220212; 6244627; 6268809; 6292757; 6316471; 6339950; 6363193; 6386200; 6408970; 6431502; 6453797; 6475852;
6497668; 6519244; 6540579; 6561673; 6582525; 6603135; 6623502; 6643626; 6663505; 6683140; 6702530; 6721675; 6740573; 6759225; 6777630; 6795788;
6813697; 6831358; 6848771; 6865934; 6882847; 6899510; 6915923; 6932084; 6947995; 6963653; 6979060; 6994214; 7009115; 7023763; 7038157; 7052298;
7066184; 7079816; 7093194; 7106316; 7119182; 7131794; 7144149; 7156248; 7168091; 7179677; 7191006; 7202078; 7212892; 7223450; 7233749; 7243791;
7253574; 7263100; 7272366; 7281375; 7290124; 7298615; 7306847; 7314820; 7322534; 7329988; 7337183; 7344119; 7350795; 7357212; 7363369; 7369267;
7374904; 7380283; 7385401; 7390260; 7394859; 7399198; 7403278; 7407098; 7410659; 7413960; 7417002; 7419784; 7422307; 7424571; 7426575; 7428321;
7429807; 7431035; 7432004; 7432715; 7433167; 7433361; 7433297; 7432975; 7432395; 7431558; 7430464; 7429112; 7427504; 7425639; 7423517; 7421140;
7418506; 7415617; 7412473; 7409073; 7405419; 7401510; 7397347; 7392930; 7388259; 7383336; 7378159; 7372730; 7367049; 7361115; 7354931; 7348495;
7341809; 7334873; 7327686; 7320251; 7312566; 7304633; 7296451; 7288022; 7279346; 7270423; 7261253; 7251838; 7242178; 7232272; 7222123; 7211730;
7201093; 7190214; 7179093; 7167730; 7156126; 7144281; 7132197; 7119873; 7107310; 7094509; 7081471; 7068196; 7054684; 7040937; 7026955; 7012738;
6998288; 6983604; 6968688; 6953540; 6938162; 6922552; 6906713; 6890646; 6874349; 6857826; 6841075; 6824099; 6806897; 6789470; 6771820; 6753946;
6735850; 6717533; 6698995; 6680237; 6661260; 6642064; 6622651; 6603021; 6583176; 6563115; 6542840; 6522352; 6501651; 6480739; 6459616; 6438283;
6416741; 6394990; 6373033; 6350869; 6328500; 6305926; 6283149; 6260169; 6236988; 6213605; 6190023; 6166242; 6142263; 6118087; 6093715; 6069148;
6044387; 6019433; 5994288; 5968951; 5943424; 5917708; 5891804; 5865713; 5839436; 5812974; 5786329; 5759500; 5732490; 5705300; 5677929; 5650381;
5622654; 5594752; 5566674; 5538422; 5509996; 5481399; 5452631; 5423693; 5394587; 5365313; 5335873; 5306267; 5276497; 5246565; 5216470; 5186215;
5155800; 5125227; 5094497; 5063611; 5032570; 5001375; 4970028; 4938530; 4906882; 4875084; 4843140; 4811048; 4778812; 4746431; 4713908; 4681243;
4648438; 4615493; 4582411; 4549192; 4515838; 4482350; 4448729; 4414976; 4381093; 4347081; 4312941; 4278674; 4244282; 4209767; 4175128; 4140368;
4105488; 4070489; 4035373; 4000140; 3964792; 3929331; 3893758; 3858073; 3822279; 3786376; 3750367; 3714251; 3678031; 3641708; 3605284; 3568759;
3532135; 3495413; 3458595; 3421681; 3384674; 3347575; 3310384; 3273104].
Definition mid_ints_9 : list Z := [
3235736; 3198281; 3160740; 3123115; 3085407; 3047618; 3009748; 2971800; 2933774; 2895673; 2857497; 2819247; 2780926; 2742534; 2704073; 2665544;
2626949; 2588289; 2549566; 2510780; 2471933; 2433027; 2394063; 2355043; 2315967; 2276837; 2237655; 2198422; 2159139; 2119808; 2080431; 2041007;
2001540; 1962030; 1922479; 1882888; 1843258; 1803592; 1763890; 1724153; 1684384; 1644584; 1604753; 1564894; 1525007; 1485095; 1445159; 1405199;
1365218; 1325216; 1285196; 1245158; 1205105; 1165037; 1124956; 1084862; 1044759; 1004647; 964527; 924400; 884269; 844135; 803999; 763862;
723726; 683592; 643462; 603336; 563217; 523106; 483004; 442913; 402833; 362767; 322715; 282680; 242662; 202662; 162683; 122726;
82792; 42881; 2997; -36859; -76688; -116487; -156255; -195991; -235692; -275359; -314988; -354580; -394133; -433645; -473115; -512541;
-551923; -591259; -630548; -669788; -708978; -748116; -787202; -826234; -865211; -904131; -942993; -981796; -1020538; -1059219; -1097836; -1136389;
-1174876; -1213297; -1251648; -1289931; -1328142; -1366281; -1404347; -1442338; -1480253; -1518091; -1555850; -1593530; -1631128; -1668644; -1706077; -1743425;
-1780687; -1817862; -1854948; -1891944; -1928850; -1965664; -2002384; -2039009; -2075539; -2111972; -2148306; -2184541; -2220676; -2256709; -2292639; -2328465;
-2364185; -2399799; -2435306; -2470703; -2505991; -2541168; -2576232; -2611183; -2646020; -2680740; -2715344; -2749831; -2784198; -2818445; -2852571; -2886574;
-2920454; -2954210; -2987840; -3021343; -3054718; -3087965; -3121082; -3154067; -3186921; -3219641; -3252228; -3284679; -3316994; -3349172; -3381212; -3413112;
-3444872; -3476491; -3507967; -3539301; -3570489; -3601533; -3632430; -3663181; -3693782; -3724235; -3754538; -3784690; -3814689; -3844536; -3874229; -3903767;
-3933149; -3962375; -3991443; -4020353; -4049103; -4077693; -4106122; -4134389; -4162494; -4190434; -4218210; -4245821; -4273265; -4300542; -4327651; -4354591;
-4381362; -4407962; -4434391; -4460648; -4486733; -4512643; -4538380; -4563941; -4589326; -4614534; -4639566; -4664418; -4689092; -4713587; -4737901; -4762033;
-4785984; -4809753; -4833338; -4856739; -4879956; -4902987; -4925832; -4948491; -4970962; -4993246; -5015341; -5037246; -5058962; -5080488; -5101822; -5122964;
-5143914; -5164672; -5185235; -5205605; -5225780; -5245760; -5265544; -5285132; -5304522; -5323716; -5342711; -5361508; -5380106; -5398504; -5416703; -5434701;
-5452498; -5470093; -5487487; -5504678; -5521666; -5538451; -5555032; -5571409; -5587582; -5603549; -5619311; -5634867; -5650217; -5665360; -5680296; -5695024;
-5709545; -5723858; -5737962; -5751857; -5765544; -5779020; -5792287; -5805344; -5818190; -5830825; -5843250; -5855463; -5867464; -5879254; -5890831; -5902196;
-5913348; -5924287; -5935013; -5945526; -5955825; -5965911; -5975782; -5985440; -5994882; -6004111; -6013124; -6021923; -6030506; -6038875; -6047028; -6054965;
-6062687; -6070193; -6077484; -6084558; -6091416; -6098059; -6104485; -6110694; -6116688; -6122464; -6128025; -6133369; -6138496; -6143407; -6148101; -6152579;
-6156839; -6160884; -6164711; -6168323; -6171717; -6174895; -6177857; -6180602; -6183130; -6185442; -6187538; -6189418; -6191082; -6192530; -6193761; -6194777;
-6195578; -6196162; -6196532; -6196685; -6196624; -6196348; -6195857; -6195151; -6194230; -6193096; -6191747; -6190184; -6188407; -6186417; -6184214; -6181797;
-6179168; -6176326; -6173271; -6170004; -6166526; -6162836; -6158934; -6154822; -6150498; -6145964; -6141220; -6136267; -6131103; -6125731; -6120149; -6114359;
-6108361; -6102155; -6095741; -6089120; -6082293; -6075259; -6068019; -6060574; -6052923; -6045068; -6037008; -6028744; -6020277; -6011606; -6002733; -5993658;
-5984381; -5974903; -5965224; -5955345; -5945266; -5934987; -5924510; -5913834; -5902960; -5891889; -5880621; -5869157; -5857497; -5845642; -5833592; -5821349;
-5808911; -5796281; -5783458; -5770443; -5757237; -5743840; -5730254; -5716478; -5702513; -5688359; -5674018; -5659491; -5644776; -5629876; -5614791; -5599522;
-5584069; -5568433; -5552614; -5536614; -5520432; -5504070; -5487529; -5470808; -5453909; -5436833; -5419580; -5402151; -5384546; -5366766; -5348813; -5330687;
-5312388; -5293917; -5275275; -5256464; -5237483; -5218333; -5199016; -5179531; -5159880; -5140064; -5120083; -5099939; -5079631; -5059161; -5038530; -5017738;
-4996786; -4975676; -4954408; -4932982; -4911400; -4889663; -4867771; -4845725; -4823527; -4801176; -4778674; -4756023; -4733221; -4710272; -4687175; -4663931;
-4640541; -4617007; -4593329; -4569508; -4545545; -4521441; -4497196; -4472813; -4448291; -4423632; -4398836; -4373905; -4348839; -4323640; -4298309; -4272846;
-4247252; -4221529; -4195677; -4169698; -4143592; -4117360; -4091003; -4064523; -4037921; -4011196; -3984352; -3957387; -3930304; -3903103; -3875786; -3848354;
-3820807; -3793146; -3765373; -3737489; -3709494; -3681391; -3653179; -3624860; -3596435; -3567904; -3539270; -3510533; -3481695; -3452755; -3423716; -3394578;
-3365343; -3336011; -3306584; -3277063; -3247448; -3217742; -3187944; -3158057; -3128081; -3098017; -3067867; -3037631; -3007311; -2976908; -2946423; -2915856;
-2885210; -2854485; -2823683; -2792803; -2761849; -2730820; -2699718; -2668545; -2637300; -2605985; -2574603; -2543152; -2511635; -2480053; -2448408; -2416699;
-2384928; -2353097; -2321207; -2289258; -2257252; -2225190; -2193073; -2160903; -2128680; -2096406; -2064081; -2031708; -1999286; -1966818; -1934304; -1901746;
-1869145; -1836501; -1803817; -1771093; -1738330; -1705530; -1672694; -1639823; -1606917; -1573979; -1541009; -1508009; -1474980; -1441923; -1408838; -1375728;
-1342594; -1309435; -1276255; -1243054; -1209833; -1176593; -1143335; -1110061; -1076772; -1043469; -1010153; -976825; -943486; -910138; -876782; -843419;
-810050; -776677; -743299; -709920; -676539; -643158; -609778; -576400; -543025; -509656; -476292; -442934; -409585; -376245; -342915; -309597;
-276291; -242999; -209722; -176462; -143218; -109993; -76787; -43601; -10438; 22702; 55818; 88909; 121974; 155012; 188021; 221000;
253949; 286865; 319749; 352598; 385412; 418190; 450930; 483631; 516293; 548913; 581492; 614028; 646519; 678966; 711366; 743718;
776022; 808276; 840480; 872632; 904731; 936775; 968765; 1000699; 1032576; 1064394; 1096153; 1127852; 1159489; 1191063; 1222575; 1254021;
1285402; 1316716; 1347963; 1379140; 1410248; 1441285; 1472251; 1503143; 1533961; 1564705; 1595372; 1625963; 1656475; 1686909; 1717263; 1747535;
1777726; 1807834; 1837857; 1867796; 1897649; 1927415; 1957093; 1986682; 2016182; 2045591; 2074908; 2104132; 2133263; 2162299; 2191240; 2220084;
2248831; 2277479; 2306028; 2334477; 2362825; 2391071; 2419214; 2447254; 2475188; 2503017; 2530739; 2558354; 2585861; 2613259; 2640546; 2667723;
2694788; 2721740; 2748579; 2775303; 2801912; 2828405; 2854782; 2881040; 2907180; 2933201; 2959101; 2984881; 3010539; 3036074; 3061485; 3086773;
3111935; 3136972; 3161882; 3186665; 3211319; 3235845; 3260241; 3284507; 3308641; 3332644; 3356514; 3380251; 3403853; 3427321; 3450653; 3473849;
3496907; 3519829; 3542611; 3565255; 3587759; 3610123; 3632345; 3654425; 3676364; 3698159; 3719810; 3741316; 3762678; 3783894; 3804964; 3825886;
3846661; 3867288; 3887766; 3908094; 3928273; 3948300; 3968177; 3987902; 4007474; 4026893; 4046159; 4065271; 4084228; 4103030; 4121676; 4140166;
4158499; 4176675; 4194693; 4212552; 4230253; 4247794; 4265176; 4282396; 4299457; 4316355; 4333092; 4349667; 4366079; 4382328; 4398413; 4414334;
4430090; 4445682; 4461108; 4476368; 4491463; 4506390; 4521151; 4535744; 4550169; 4564426; 4578515; 4592434; 4606185; 4619765; 4633176; 4646416;
4659486; 4672385; 4685112; 4697667; 4710051; 4722262; 4734301; 4746167; 4757860; 4769379; 4780724; 4791896; 4802893; 4813715; 4824363; 4834836;
4845133; 4855255; 4865201; 4874972; 4884566; 4893984; 4903225; 4912289; 4921176; 4929887; 4938420; 4946775; 4954953; 4962953; 4970775; 4978418;
4985884; 4993171; 5000280; 5007210; 5013961; 5020533; 5026927; 5033141; 5039176; 5045032; 5050709; 5056206; 5061524; 5066663; 5071621; 5076401;
5081000; 5085420; 5089660; 5093721; 5097602; 5101303; 5104824; 5108166; 5111328; 5114310; 5117113; 5119736; 5122179; 5124443; 5126527; 5128432;
5130157; 5131703; 5133070; 5134258; 5135266; 5136096; 5136747; 5137218; 5137512; 5137626; 5137562; 5137320; 5136900; 5136302; 5135525; 5134572;
5133440; 5132131; 5130645; 5128982; 5127142; 5125125; 5122932; 5120562; 5118016; 5115295; 5112398; 5109325; 5106077; 5102655; 5099057; 5095286;
5091339; 5087219; 5082926; 5078459; 5073819; 5069006; 5064020; 5058862; 5053532; 5048031; 5042358; 5036515; 5030500; 5024315; 5017961; 5011436;
5004742; 4997880; 4990848; 4983649; 4976281; 4968746; 4961044; 4953176; 4945140; 4936939; 4928573; 4920041; 4911345; 4902484; 4893459; 4884271;
4874920; 4865406; 4855731; 4845893; 4835895; 4825735; 4815416; 4804936; 4794298; 4783500; 4772544; 4761430; 4750159; 4738731; 4727147; 4715407;
4703511; 4691461; 4679257; 4666899; 4654387; 4641723; 4628907; 4615939; 4602821; 4589552; 4576133; 4562565; 4548848; 4534983; 4520971; 4506811;
4492506; 4478054; 4463458; 4448717; 4433832; 4418804; 4403633; 4388320; 4372866; 4357271; 4341536; 4325661; 4309648; 4293496; 4277207; 4260782;
4244220; 4227522; 4210690; 4193724; 4176624; 4159391; 4142027; 4124531; 4106904; 4089148; 4071262; 4053248; 4035106; 4016837; 3998441; 3979920;
3961274; 3942504; 3923611; 3904594; 3885456; 3866197; 3846817; 3827318].
Definition mid_ints_10 : list Z := [
3807700; 3787964; 3768110; 3748140; 3728054; 3707853; 3687538; 3667109; 3646568; 3625914; 3605150; 3584276; 3563292; 3542199; 3520999; 3499692;
3478278; 3456759; 3435135; 3413408; 3391578; 3369646; 3347613; 3325479; 3303245; 3280913; 3258484; 3235957; 3213334; 3190615; 3167803; 3144896;
3121897; 3098806; 3075624; 3052352; 3028991; 3005542; 2982005; 2958381; 2934672; 2910878; 2886999; 2863038; 2838995; 2814870; 2790665; 2766381;
2742018; 2717578; 2693060; 2668467; 2643799; 2619057; 2594241; 2569354; 2544395; 2519366; 2494267; 2469100; 2443866; 2418564; 2393197; 2367765;
2342270; 2316711; 2291090; 2265409; 2239667; 2213865; 2188006; 2162089; 2136116; 2110088; 2084005; 2057868; 2031679; 2005438; 1979147; 1952805;
1926415; 1899977; 1873493; 1846962; 1820386; 1793766; 1767104; 1740399; 1713653; 1686866; 1660041; 1633177; 1606276; 1579339; 1552366; 1525359;
1498318; 1471245; 1444140; 1417005; 1389840; 1362646; 1335425; 1308177; 1280904; 1253606; 1226283; 1198938; 1171572; 1144184; 1116776; 1089349;
1061905; 1034443; 1006965; 979473; 951966; 924445; 896913; 869370; 841816; 814253; 786681; 759102; 731517; 703926; 676331; 648733;
621131; 593529; 565925; 538322; 510720; 483121; 455524; 427932; 400345; 372764; 345190; 317624; 290067; 262520; 234983; 207459;
179947; 152449; 124965; 97497; 70046; 42612; 15196; -12199; -39575; -66930; -94262; -121572; -148857; -176118; -203352; -230560;
-257740; -284892; -312014; -339105; -366165; -393193; -420187; -447147; -474073; -500962; -527814; -554628; -581404; -608140; -634836; -661490;
-688102; -714670; -741195; -767674; -794108; -820495; -846834; -873125; -899366; -925557; -951697; -977785; -1003820; -1029801; -1055727; -1081599;
-1107413; -1133171; -1158870; -1184511; -1210091; -1235612; -1261070; -1286467; -1311800; -1337069; -1362274; -1387413; -1412485; -1437490; -1462427; -1487295;
-1512094; -1536822; -1561478; -1586063; -1610574; -1635012; -1659375; -1683663; -1707874; -1732009; -1756066; -1780044; -1803944; -1827763; -1851501; -1875158;
-1898733; -1922224; -1945632; -1968955; -1992192; -2015344; -2038409; -2061386; -2084275; -2107074; -2129784; -2152404; -2174932; -2197369; -2219712; -2241963;
-2264119; -2286180; -2308146; -2330016; -2351789; -2373465; -2395042; -2416521; -2437899; -2459178; -2480356; -2501432; -2522406; -2543277; -2564044; -2584707;
-2605266; -2625719; -2646066; -2666306; -2686439; -2706464; -2726380; -2746187; -2765884; -2785471; -2804947; -2824311; -2843563; -2862702; -2881728; -2900640;
-2919437; -2938120; -2956686; -2975136; -2993470; -3011686; -3029784; -3047764; -3065625; -3083367; -3100988; -3118489; -3135869; -3153127; -3170263; -3187276;
-3204167; -3220934; -3237576; -3254094; -3270487; -3286755; -3302896; -3318911; -3334799; -3350560; -3366192; -3381696; -3397072; -3412318; -3427435; -3442422;
-3457278; -3472003; -3486597; -3501059; -3515389; -3529586; -3543651; -3557582; -3571379; -3585043; -3598571; -3611965; -3625224; -3638347; -3651334; -3664185;
-3676899; -3689476; -3701916; -3714218; -3726382; -3738408; -3750295; -3762044; -3773653; -3785122; -3796452; -3807642; -3818691; -3829599; -3840366; -3850993;
-3861477; -3871820; -3882021; -3892080; -3901996; -3911769; -3921399; -3930886; -3940230; -3949429; -3958485; -3967397; -3976165; -3984788; -3993266; -4001600;
-4009788; -4017831; -4025729; -4033481; -4041087; -4048548; -4055862; -4063030; -4070052; -4076928; -4083656; -4090238; -4096673; -4102961; -4109102; -4115096;
-4120943; -4126642; -4132193; -4137597; -4142854; -4147962; -4152923; -4157736; -4162401; -4166918; -4171287; -4175508; -4179581; -4183506; -4187282; -4190911;
-4194391; -4197723; -4200907; -4203942; -4206830; -4209569; -4212160; -4214603; -4216897; -4219044; -4221042; -4222892; -4224595; -4226149; -4227555; -4228814;
-4229925; -4230888; -4231703; -4232371; -4232892; -4233265; -4233491; -4233569; -4233501; -4233285; -4232923; -4232414; -4231758; -4230956; -4230008; -4228913;
-4227673; -4226286; -4224754; -4223076; -4221252; -4219284; -4217170; -4214912; -4212508; -4209961; -4207269; -4204432; -4201452; -4198328; -4195061; -4191650;
-4188097; -4184400; -4180561; -4176580; -4172456; -4168191; -4163784; -4159236; -4154546; -4149716; -4144746; -4139635; -4134384; -4128993; -4123463; -4117794;
-4111986; -4106039; -4099954; -4093732; -4087371; -4080874; -4074240; -4067469; -4060562; -4053518; -4046340; -4039026; -4031577; -4023994; -4016276; -4008425;
-4000441; -3992323; -3984073; -3975690; -3967176; -3958530; -3949753; -3940846; -3931808; -3922640; -3913343; -3903917; -3894362; -3884679; -3874868; -3864930;
-3854865; -3844674; -3834357; -3823914; -3813346; -3802654; -3791837; -3780897; -3769833; -3758647; -3747338; -3735908; -3724356; -3712684; -3700892; -3688979;
-3676947; -3664797; -3652528; -3640142; -3627638; -3615017; -3602281; -3589428; -3576461; -3563379; -3550183; -3536873; -3523451; -3509916; -3496269; -3482511;
-3468642; -3454663; -3440574; -3426376; -3412070; -3397656; -3383135; -3368507; -3353772; -3338933; -3323988; -3308939; -3293786; -3278530; -3263172; -3247711;
-3232149; -3216487; -3200724; -3184862; -3168902; -3152843; -3136686; -3120433; -3104083; -3087637; -3071097; -3054462; -3037733; -3020912; -3003998; -2986992;
-2969895; -2952707; -2935430; -2918064; -2900609; -2883067; -2865437; -2847721; -2829920; -2812033; -2794062; -2776007; -2757870; -2739650; -2721348; -2702965;
-2684503; -2665960; -2647339; -2628640; -2609864; -2591011; -2572082; -2553077; -2533998; -2514846; -2495620; -2476322; -2456952; -2437511; -2418001; -2398420;
-2378771; -2359054; -2339270; -2319419; -2299503; -2279521; -2259475; -2239366; -2219194; -2198960; -2178664; -2158308; -2137892; -2117417; -2096884; -2076293;
-2055646; -2034943; -2014184; -1993371; -1972504; -1951584; -1930612; -1909589; -1888515; -1867391; -1846218; -1824996; -1803728; -1782412; -1761050; -1739643;
-1718192; -1696697; -1675159; -1653579; -1631958; -1610296; -1588594; -1566854; -1545075; -1523259; -1501406; -1479517; -1457594; -1435636; -1413644; -1391620;
-1369565; -1347478; -1325360; -1303213; -1281038; -1258834; -1236604; -1214347; -1192065; -1169757; -1147426; -1125072; -1102695; -1080297; -1057878; -1035439;
-1012981; -990504; -968010; -945499; -922972; -900430; -877873; -855303; -832720; -810125; -787519; -764902; -742276; -719641; -696998; -674347;
-651690; -629027; -606360; -583688; -561014; -538336; -515657; -492977; -470297; -447617; -424939; -402263; -379591; -356922; -334257; -311598;
-288945; -266299; -243661; -221031; -198411; -175800; -153201; -130613; -108037; -85475; -62927; -40393; -17875; 4626; 27111; 49578;
72026; 94456; 116865; 139253; 161619; 183963; 206284; 228581; 250854; 273101; 295321; 317515; 339681; 361819; 383927; 406006;
428054; 450070; 472055; 494006; 515924; 537807; 559655; 581468; 603243; 624982; 646682; 668344; 689966; 711548; 733089; 754588;
776045; 797459; 818829; 840155; 861435; 882669; 903857; 924998; 946090; 967134; 988128; 1009072; 1029966; 1050808; 1071597; 1092334;
1113017; 1133646; 1154220; 1174739; 1195201; 1215607; 1235955; 1256244; 1276475; 1296646; 1316757; 1336807; 1356795; 1376721; 1396585; 1416385;
1436120; 1455792; 1475397; 1494937; 1514410; 1533816; 1553154; 1572423; 1591623; 1610753; 1629813; 1648803; 1667720; 1686565; 1705338; 1724037;
1742662; 1761213; 1779688; 1798087; 1816411; 1834657; 1852826; 1870917; 1888929; 1906862; 1924715; 1942488; 1960180; 1977790; 1995319; 2012765;
2030128; 2047407; 2064602; 2081713; 2098738; 2115677; 2132531; 2149297; 2165976; 2182567; 2199070; 2215484; 2231809; 2248043; 2264188; 2280241;
2296204; 2312074; 2327852; 2343537; 2359129; 2374628; 2390032; 2405341; 2420556; 2435674; 2450697; 2465623; 2480452; 2495184; 2509818; 2524354;
2538791; 2553129; 2567368; 2581506; 2595545; 2609482; 2623318; 2637053; 2650685; 2664216; 2677643; 2690967; 2704188; 2717305; 2730317; 2743225;
2756027; 2768725; 2781316; 2793801; 2806180; 2818452; 2830617; 2842674; 2854623; 2866464; 2878197; 2889820; 2901335; 2912740; 2924035; 2935220;
2946294; 2957258; 2968111; 2978852; 2989482; 3000000; 3010406; 3020699; 3030879; 3040947; 3050901; 3060742; 3070469; 3080082; 3089580; 3098964;
3108234; 3117388; 3126427; 3135351; 3144158; 3152850; 3161426; 3169886; 3178229; 3186455; 3194564; 3202556; 3210431; 3218189; 3225828; 3233350;
3240754; 3248040; 3255207; 3262255; 3269185; 3275997; 3282689; 3289262; 3295716; 3302050; 3308265; 3314360; 3320336; 3326192; 3331927; 3337543;
3343038; 3348413; 3353668; 3358802; 3363815; 3368708; 3373480; 3378131; 3382662; 3387071; 3391360; 3395527; 3399573; 3403498; 3407302; 3410985;
3414546; 3417986; 3421304; 3424502; 3427577; 3430532; 3433365; 3436076; 3438667; 3441135; 3443483; 3445708; 3447813; 3449796; 3451658; 3453398;
3455017; 3456515; 3457892; 3459147; 3460282; 3461295; 3462187; 3462959; 3463609; 3464139; 3464548; 3464836; 3465004; 3465051; 3464977; 3464784;
3464470; 3464036; 3463482; 3462809; 3462015; 3461102; 3460069; 3458917; 3457645; 3456255; 3454745; 3453117; 3451369; 3449504; 3447520; 3445417;
3443197; 3440858; 3438402; 3435828; 3433137; 3430329; 3427404; 3424362; 3421203; 3417928; 3414536; 3411029; 3407405; 3403666; 3399812; 3395843;
3391758; 3387559; 3383246; 3378818; 3374276; 3369621; 3364852; 3359969; 3354974; 3349866; 3344646; 3339313; 3333869; 3328312; 3322645; 3316866;
3310977; 3304977; 3298867; 3292646; 3286317; 3279878; 3273330; 3266673].
Definition mid_ints_11 : list Z := [
3259908; 3253034; 3246054; 3238965; 3231770; 3224467; 3217059; 3209544; 3201924; 3194198; 3186367; 3178431; 3170391; 3162247; 3154000; 3145649;
3137196; 3128639; 3119981; 3111221; 3102360; 3093397; 3084334; 3075171; 3065908; 3056546; 3047085; 3037525; 3027867; 3018111; 3008258; 2998307;
2988261; 2978118; 2967879; 2957546; 2947117; 2936594; 2925977; 2915267; 2904463; 2893567; 2882579; 2871499; 2860328; 2849066; 2837714; 2826272;
2814741; 2803120; 2791411; 2779615; 2767730; 2755759; 2743701; 2731557; 2719328; 2707013; 2694614; 2682131; 2669564; 2656914; 2644182; 2631367;
2618471; 2605494; 2592437; 2579299; 2566082; 2552786; 2539411; 2525959; 2512429; 2498822; 2485139; 2471380; 2457546; 2443637; 2429654; 2415598;
2401468; 2387265; 2372991; 2358645; 2344229; 2329742; 2315185; 2300559; 2285864; 2271102; 2256271; 2241374; 2226411; 2211381; 2196287; 2181127;
2165904; 2150617; 2135267; 2119855; 2104381; 2088846; 2073250; 2057595; 2041880; 2026106; 2010274; 1994384; 1978437; 1962434; 1946375; 1930261;
1914092; 1897869; 1881593; 1865264; 1848883; 1832450; 1815966; 1799432; 1782848; 1766215; 1749533; 1732804; 1716027; 1699204; 1682334; 1665420;
1648460; 1631456; 1614409; 1597319; 1580186; 1563012; 1545797; 1528541; 1511246; 1493911; 1476538; 1459128; 1441680; 1424195; 1406674; 1389118;
1371528; 1353903; 1336245; 1318554; 1300831; 1283077; 1265292; 1247476; 1229631; 1211758; 1193855; 1175926; 1157969; 1139986; 1121977; 1103944;
1085885; 1067804; 1049699; 1031571; 1013422; 995252; 977061; 958850; 940620; 922372; 904106; 885822; 867522; 849206; 830874; 812528;
794168; 775795; 757408; 739010; 720601; 702180; 683750; 665310; 646861; 628404; 609940; 591469; 572991; 554508; 536020; 517528;
499032; 480533; 462032; 443529; 425025; 406521; 388017; 369514; 351012; 332513; 314016; 295523; 277034; 258550; 240071; 221598;
203132; 184673; 166222; 147779; 129346; 110923; 92510; 74108; 55718; 37340; 18975; 624; -17712; -36034; -54340; -72630;
-90904; -109160; -127398; -145618; -163818; -181999; -200159; -218298; -236415; -254510; -272582; -290630; -308654; -326654; -344628; -362576;
-380498; -398392; -416259; -434097; -451906; -469686; -487435; -505154; -522841; -540497; -558119; -575709; -593265; -610787; -628274; -645725;
-663140; -680519; -697860; -715164; -732429; -749656; -766843; -783990; -801096; -818161; -835184; -852165; -869103; -885998; -902849; -919655;
-936416; -953132; -969801; -986424; -1002999; -1019527; -1036006; -1052437; -1068817; -1085149; -1101429; -1117659; -1133837; -1149963; -1166036; -1182057;
-1198023; -1213936; -1229794; -1245597; -1261345; -1277036; -1292670; -1308248; -1323767; -1339229; -1354632; -1369976; -1385260; -1400484; -1415648; -1430750;
-1445791; -1460770; -1475687; -1490540; -1505330; -1520057; -1534719; -1549316; -1563848; -1578314; -1592714; -1607047; -1621313; -1635512; -1649643; -1663705;
-1677699; -1691623; -1705478; -1719262; -1732976; -1746619; -1760191; -1773691; -1787118; -1800473; -1813755; -1826964; -1840098; -1853159; -1866145; -1879055;
-1891891; -1904650; -1917334; -1929940; -1942470; -1954923; -1967297; -1979594; -1991812; -2003952; -2016012; -2027993; -2039894; -2051715; -2063455; -2075114;
-2086692; -2098188; -2109603; -2120935; -2132185; -2143351; -2154435; -2165434; -2176350; -2187182; -2197929; -2208592; -2219169; -2229661; -2240067; -2250387;
-2260621; -2270768; -2280828; -2290801; -2300687; -2310485; -2320195; -2329816; -2339350; -2348794; -2358149; -2367415; -2376592; -2385679; -2394675; -2403582;
-2412397; -2421122; -2429756; -2438299; -2446751; -2455110; -2463378; -2471554; -2479637; -2487628; -2495526; -2503331; -2511043; -2518662; -2526187; -2533618;
-2540956; -2548199; -2555348; -2562403; -2569363; -2576229; -2582999; -2589675; -2596255; -2602739; -2609129; -2615422; -2621620; -2627721; -2633727; -2639636;
-2645449; -2651165; -2656785; -2662308; -2667734; -2673063; -2678295; -2683429; -2688467; -2693407; -2698249; -2702994; -2707642; -2712191; -2716643; -2720997;
-2725253; -2729410; -2733470; -2737431; -2741294; -2745059; -2748726; -2752294; -2755763; -2759134; -2762407; -2765581; -2768656; -2771633; -2774511; -2777290;
-2779971; -2782553; -2785036; -2787420; -2789706; -2791893; -2793981; -2795970; -2797861; -2799653; -2801346; -2802940; -2804436; -2805834; -2807132; -2808332;
-2809434; -2810437; -2811341; -2812147; -2812855; -2813464; -2813976; -2814389; -2814704; -2814920; -2815039; -2815060; -2814983; -2814808; -2814536; -2814166;
-2813698; -2813133; -2812471; -2811712; -2810855; -2809902; -2808851; -2807704; -2806460; -2805119; -2803683; -2802149; -2800520; -2798795; -2796973; -2795056;
-2793044; -2790936; -2788732; -2786434; -2784040; -2781552; -2778969; -2776291; -2773519; -2770653; -2767692; -2764638; -2761491; -2758250; -2754915; -2751488;
-2747967; -2744354; -2740648; -2736850; -2732960; -2728978; -2724905; -2720740; -2716483; -2712136; -2707698; -2703169; -2698550; -2693841; -2689042; -2684153;
-2679175; -2674108; -2668952; -2663707; -2658374; -2652952; -2647443; -2641846; -2636162; -2630391; -2624533; -2618588; -2612557; -2606440; -2600238; -2593949;
-2587576; -2581118; -2574576; -2567949; -2561238; -2554443; -2547565; -2540604; -2533561; -2526434; -2519226; -2511936; -2504564; -2497112; -2489578; -2481964;
-2474270; -2466495; -2458642; -2450709; -2442697; -2434607; -2426439; -2418192; -2409869; -2401468; -2392990; -2384436; -2375806; -2367101; -2358320; -2349464;
-2340533; -2331528; -2322450; -2313298; -2304072; -2294774; -2285404; -2275962; -2266448; -2256863; -2247208; -2237482; -2227685; -2217820; -2207885; -2197881;
-2187809; -2177669; -2167461; -2157187; -2146845; -2136437; -2125963; -2115424; -2104819; -2094150; -2083417; -2072619; -2061759; -2050835; -2039849; -2028801;
-2017691; -2006519; -1995287; -1983995; -1972643; -1961231; -1949760; -1938231; -1926643; -1914998; -1903296; -1891536; -1879721; -1867849; -1855923; -1843941;
-1831904; -1819814; -1807670; -1795473; -1783224; -1770922; -1758568; -1746164; -1733708; -1721202; -1708647; -1696042; -1683388; -1670686; -1657936; -1645139;
-1632294; -1619404; -1606467; -1593485; -1580458; -1567386; -1554271; -1541111; -1527909; -1514665; -1501378; -1488050; -1474681; -1461271; -1447821; -1434332;
-1420804; -1407237; -1393632; -1379990; -1366310; -1352594; -1338842; -1325055; -1311233; -1297376; -1283485; -1269561; -1255603; -1241614; -1227592; -1213539;
-1199455; -1185341; -1171197; -1157024; -1142821; -1128591; -1114333; -1100047; -1085735; -1071396; -1057032; -1042642; -1028228; -1013790; -999328; -984843;
-970335; -955806; -941254; -926682; -912089; -897477; -882845; -868194; -853524; -838837; -824133; -809411; -794674; -779920; -765151; -750368;
-735571; -720759; -705935; -691098; -676249; -661389; -646517; -631635; -616743; -601842; -586932; -572013; -557086; -542152; -527212; -512265;
-497312; -482354; -467391; -452425; -437454; -422480; -407504; -392526; -377546; -362565; -347584; -332602; -317621; -302641; -287663; -272687;
-257713; -242743; -227776; -212814; -197856; -182903; -167956; -153015; -138081; -123154; -108235; -93325; -78423; -63530; -48647; -33775;
-18913; -4063; 10774; 25600; 40414; 55213; 69999; 84771; 99527; 114268; 128994; 143703; 158395; 173069; 187726; 202364;
216984; 231584; 246164; 260724; 275263; 289781; 304277; 318750; 333201; 347629; 362032; 376412; 390767; 405096; 419400; 433678;
447929; 462153; 476349; 490517; 504657; 518768; 532849; 546900; 560921; 574912; 588870; 602797; 616692; 630554; 644383; 658178;
671939; 685666; 699358; 713014; 726635; 740219; 753766; 767276; 780749; 794183; 807579; 820936; 834254; 847532; 860769; 873966;
887122; 900236; 913309; 926339; 939326; 952270; 965170; 978027; 990839; 1003606; 1016327; 1029004; 1041634; 1054217; 1066754; 1079244;
1091685; 1104079; 1116424; 1128721; 1140968; 1153166; 1165313; 1177410; 1189457; 1201452; 1213396; 1225287; 1237127; 1248914; 1260648; 1272328;
1283955; 1295528; 1307046; 1318510; 1329918; 1341271; 1352568; 1363808; 1374993; 1386120; 1397190; 1408202; 1419157; 1430053; 1440890; 1451669;
1462389; 1473048; 1483648; 1494188; 1504667; 1515086; 1525443; 1535739; 1545973; 1556145; 1566254; 1576301; 1586285; 1596205; 1606062; 1615855;
1625584; 1635249; 1644849; 1654383; 1663853; 1673257; 1682595; 1691867; 1701072; 1710211; 1719283; 1728288; 1737225; 1746095; 1754897; 1763630;
1772295; 1780892; 1789419; 1797877; 1806266; 1814586; 1822835; 1831014; 1839123; 1847162; 1855129; 1863026; 1870851; 1878605; 1886287; 1893898;
1901436; 1908902; 1916296; 1923617; 1930865; 1938040; 1945142; 1952170; 1959125; 1966006; 1972813; 1979546; 1986204; 1992788; 1999297; 2005732;
2012091; 2018376; 2024585; 2030718; 2036776; 2042758; 2048665; 2054495; 2060249; 2065927; 2071528; 2077052; 2082500; 2087871; 2093165; 2098382;
2103522; 2108584; 2113569; 2118477; 2123306; 2128058; 2132732; 2137328; 2141846; 2146286; 2150647; 2154931; 2159135; 2163262; 2167309; 2171278;
2175168; 2178980; 2182712; 2186366; 2189941; 2193436; 2196853; 2200190; 2203448; 2206626; 2209726; 2212746; 2215686; 2218548; 2221329; 2224032;
2226654; 2229197; 2231661; 2234045; 2236349; 2238573; 2240718; 2242784; 2244769; 2246675; 2248502; 2250248; 2251915; 2253502; 2255010; 2256438;
2257786; 2259055; 2260244; 2261354; 2262384; 2263335; 2264206; 2264997].
Definition mid_ints_12 : list Z := [
2265710; 2266343; 2266896; 2267371; 2267766; 2268082; 2268318; 2268476; 2268555; 2268555; 2268476; 2268318; 2268082; 2267766; 2267373; 2266900;
2266350; 2265721; 2265013; 2264228; 2263364; 2262423; 2261403; 2260306; 2259131; 2257879; 2256549; 2255142; 2253657; 2252096; 2250457; 2248741;
2246949; 2245080; 2243135; 2241113; 2239015; 2236841; 2234591; 2232265; 2229863; 2227386; 2224833; 2222205; 2219502; 2216724; 2213872; 2210944;
2207943; 2204867; 2201716; 2198492; 2195195; 2191823; 2188378; 2184860; 2181269; 2177605; 2173868; 2170059; 2166178; 2162224; 2158198; 2154101;
2149933; 2145693; 2141381; 2136999; 2132547; 2128024; 2123430; 2118767; 2114034; 2109231; 2104359; 2099417; 2094407; 2089328; 2084181; 2078965;
2073682; 2068331; 2062912; 2057426; 2051873; 2046254; 2040568; 2034815; 2028997; 2023113; 2017163; 2011149; 2005069; 1998925; 1992716; 1986443;
1980106; 1973706; 1967242; 1960715; 1954126; 1947474; 1940760; 1933984; 1927146; 1920247; 1913287; 1906266; 1899185; 1892044; 1884842; 1877582;
1870261; 1862882; 1855445; 1847949; 1840395; 1832783; 1825114; 1817388; 1809605; 1801765; 1793869; 1785918; 1777911; 1769849; 1761732; 1753561;
1745335; 1737056; 1728723; 1720337; 1711898; 1703406; 1694862; 1686267; 1677620; 1668922; 1660173; 1651373; 1642524; 1633625; 1624676; 1615679;
1606632; 1597538; 1588395; 1579205; 1569967; 1560683; 1551352; 1541975; 1532552; 1523083; 1513570; 1504012; 1494409; 1484763; 1475072; 1465339;
1455563; 1445744; 1435884; 1425981; 1416038; 1406053; 1396028; 1385962; 1375857; 1365712; 1355529; 1345306; 1335046; 1324747; 1314412; 1304039;
1293629; 1283183; 1272701; 1262184; 1251631; 1241044; 1230422; 1219767; 1209078; 1198356; 1187601; 1176814; 1165995; 1155144; 1144263; 1133350;
1122407; 1111435; 1100433; 1089402; 1078342; 1067254; 1056138; 1044995; 1033824; 1022627; 1011404; 1000155; 988881; 977582; 966258; 954910;
943538; 932143; 920725; 909285; 897823; 886339; 874834; 863308; 851761; 840195; 828609; 817004; 805380; 793738; 782078; 770401;
758707; 746996; 735269; 723526; 711768; 699995; 688207; 676406; 664591; 652762; 640921; 629068; 617202; 605325; 593437; 581538;
569629; 557710; 545782; 533845; 521899; 509945; 497983; 486014; 474039; 462056; 450068; 438074; 426075; 414071; 402063; 390051;
378036; 366017; 353996; 341973; 329948; 317921; 305893; 293865; 281837; 269809; 257782; 245756; 233732; 221709; 209689; 197672;
185657; 173647; 161641; 149639; 137642; 125650; 113664; 101684; 89711; 77744; 65785; 53834; 41891; 29956; 18031; 6114;
-5791; -17687; -29572; -41447; -53310; -65161; -77000; -88826; -100640; -112439; -124225; -135997; -147754; -159496; -171223; -182934;
-194628; -206306; -217967; -229611; -241236; -252844; -264433; -276003; -287553; -299084; -310595; -322085; -333555; -345003; -356430; -367834;
-379216; -390575; -401911; -413224; -424513; -435777; -447017; -458231; -469421; -480584; -491721; -502832; -513916; -524973; -536002; -547004;
-557977; -568921; -579836; -590722; -601578; -612404; -623200; -633964; -644698; -655400; -666070; -676709; -687314; -697887; -708427; -718932;
-729405; -739843; -750246; -760614; -770948; -781245; -791507; -801733; -811922; -822074; -832189; -842266; -852306; -862308; -872271; -882195;
-892080; -901926; -911733; -921499; -931225; -940910; -950554; -960157; -969719; -979238; -988716; -998151; -1007544; -1016893; -1026200; -1035462;
-1044681; -1053856; -1062986; -1072071; -1081112; -1090107; -1099057; -1107961; -1116819; -1125630; -1134395; -1143113; -1151784; -1160407; -1168983; -1177510;
-1185990; -1194421; -1202804; -1211137; -1219422; -1227656; -1235842; -1243977; -1252062; -1260097; -1268081; -1276014; -1283896; -1291727; -1299506; -1307233;
-1314908; -1322531; -1330102; -1337620; -1345085; -1352497; -1359855; -1367160; -1374411; -1381609; -1388752; -1395840; -1402874; -1409854; -1416778; -1423647;
-1430461; -1437219; -1443922; -1450569; -1457159; -1463693; -1470171; -1476592; -1482957; -1489264; -1495514; -1501707; -1507842; -1513920; -1519940; -1525902;
-1531805; -1537651; -1543438; -1549166; -1554836; -1560446; -1565998; -1571490; -1576923; -1582297; -1587611; -1592865; -1598059; -1603194; -1608268; -1613282;
-1618236; -1623129; -1627961; -1632733; -1637444; -1642093; -1646682; -1651210; -1655676; -1660081; -1664424; -1668706; -1672926; -1677085; -1681181; -1685216;
-1689188; -1693098; -1696946; -1700732; -1704455; -1708116; -1711715; -1715250; -1718723; -1722134; -1725481; -1728766; -1731988; -1735146; -1738242; -1741275;
-1744244; -1747150; -1749993; -1752773; -1755489; -1758142; -1760731; -1763257; -1765720; -1768119; -1770455; -1772726; -1774935; -1777079; -1779160; -1781178;
-1783132; -1785022; -1786848; -1788610; -1790309; -1791944; -1793516; -1795023; -1796467; -1797848; -1799164; -1800417; -1801606; -1802732; -1803793; -1804791;
-1805726; -1806597; -1807404; -1808148; -1808828; -1809445; -1809998; -1810488; -1810914; -1811277; -1811577; -1811813; -1811987; -1812097; -1812144; -1812128;
-1812048; -1811906; -1811701; -1811434; -1811103; -1810710; -1810254; -1809735; -1809154; -1808511; -1807805; -1807037; -1806206; -1805314; -1804360; -1803343;
-1802265; -1801125; -1799923; -1798660; -1797335; -1795949; -1794502; -1792993; -1791424; -1789793; -1788102; -1786349; -1784537; -1782663; -1780730; -1778736;
-1776681; -1774567; -1772393; -1770159; -1767866; -1765513; -1763100; -1760629; -1758098; -1755508; -1752859; -1750152; -1747386; -1744562; -1741680; -1738739;
-1735740; -1732684; -1729570; -1726399; -1723170; -1719884; -1716541; -1713141; -1709685; -1706172; -1702603; -1698977; -1695296; -1691559; -1687766; -1683918;
-1680014; -1676056; -1672042; -1667974; -1663852; -1659675; -1655444; -1651159; -1646820; -1642427; -1637982; -1633483; -1628931; -1624327; -1619670; -1614961;
-1610199; -1605386; -1600521; -1595604; -1590637; -1585618; -1580548; -1575428; -1570257; -1565037; -1559766; -1554446; -1549076; -1543657; -1538189; -1532672;
-1527106; -1521493; -1515831; -1510121; -1504364; -1498559; -1492708; -1486809; -1480864; -1474872; -1468835; -1462751; -1456622; -1450447; -1444228; -1437963;
-1431654; -1425301; -1418903; -1412462; -1405977; -1399449; -1392878; -1386264; -1379607; -1372908; -1366168; -1359385; -1352562; -1345697; -1338791; -1331845;
-1324858; -1317831; -1310765; -1303659; -1296514; -1289330; -1282107; -1274846; -1267547; -1260210; -1252836; -1245425; -1237976; -1230491; -1222970; -1215413;
-1207820; -1200191; -1192528; -1184829; -1177096; -1169329; -1161528; -1153693; -1145825; -1137924; -1129990; -1122024; -1114026; -1105996; -1097934; -1089841;
-1081717; -1073563; -1065378; -1057164; -1048920; -1040646; -1032344; -1024013; -1015653; -1007265; -998850; -990407; -981937; -973441; -964917; -956368;
-947793; -939192; -930566; -921916; -913240; -904541; -895817; -887070; -878300; -869507; -860691; -851853; -842993; -834112; -825209; -816285;
-807341; -798376; -789391; -780387; -771363; -762321; -753259; -744180; -735082; -725967; -716835; -707685; -698519; -689337; -680139; -670924;
-661695; -652451; -643192; -633919; -624632; -615331; -606017; -596690; -587350; -577998; -568634; -559259; -549872; -540474; -531066; -521647;
-512219; -502781; -493333; -483877; -474412; -464939; -455458; -445970; -436474; -426971; -417462; -407947; -398425; -388899; -379367; -369830;
-360288; -350743; -341193; -331640; -322084; -312525; -302964; -293400; -283834; -274267; -264699; -255130; -245561; -235991; -226421; -216852;
-207284; -197717; -188152; -178588; -169026; -159467; -149911; -140358; -130808; -121263; -111721; -102184; -92651; -83124; -73602; -64086;
-54577; -45073; -35576; -26087; -16605; -7130; 2335; 11793; 21242; 30683; 40113; 49535; 58946; 68347; 77737; 87116;
96485; 105841; 115186; 124518; 133838; 143145; 152439; 161719; 170986; 180238; 189477; 198700; 207908; 217102; 226279; 235441;
244586; 253715; 262826; 271921; 280998; 290058; 299099; 308123; 317127; 326112; 335079; 344025; 352952; 361859; 370745; 379611;
388455; 397279; 406080; 414860; 423618; 432353; 441065; 449755; 458421; 467064; 475682; 484277; 492847; 501392; 509913; 518408;
526878; 535322; 543740; 552131; 560496; 568834; 577145; 585428; 593684; 601912; 610112; 618283; 626425; 634539; 642623; 650678;
658703; 666698; 674663; 682597; 690500; 698373; 706214; 714024; 721802; 729548; 737262; 744943; 752592; 760208; 767790; 775339;
782855; 790336; 797784; 805197; 812576; 819919; 827228; 834502; 841740; 848942; 856109; 863239; 870333; 877390; 884411; 891395;
898341; 905250; 912122; 918955; 925751; 932508; 939227; 945908; 952549; 959152; 965715; 972239; 978723; 985168; 991572; 997937;
1004260; 1010544; 1016787; 1022988; 1029149; 1035268; 1041346; 1047383; 1053377; 1059330; 1065240; 1071108; 1076934; 1082717; 1088457; 1094155;
1099809; 1105420; 1110987; 1116511; 1121991; 1127427; 1132819; 1138167; 1143470; 1148729; 1153944; 1159113; 1164238; 1169318; 1174352; 1179341;
1184285; 1189183; 1194035; 1198842; 1203602; 1208317; 1212985; 1217606; 1222182; 1226710; 1231192; 1235628; 1240016; 1244357; 1248651; 1252898;
1257097; 1261249; 1265353; 1269410; 1273419; 1277380; 1281292; 1285157].
Definition mid_ints_13 : list Z := [
1288974; 1292743; 1296463; 1300135; 1303758; 1307332; 1310858; 1314336; 1317764; 1321143; 1324474; 1327755; 1330988; 1334171; 1337305; 1340389;
1343424; 1346410; 1349346; 1352233; 1355069; 1357857; 1360594; 1363282; 1365920; 1368508; 1371046; 1373534; 1375972; 1378360; 1380698; 1382986;
1385224; 1387411; 1389548; 1391635; 1393672; 1395658; 1397594; 1399480; 1401315; 1403100; 1404834; 1406518; 1408152; 1409735; 1411268; 1412750;
1414181; 1415562; 1416893; 1418173; 1419403; 1420582; 1421711; 1422789; 1423817; 1424794; 1425721; 1426597; 1427423; 1428198; 1428923; 1429598;
1430222; 1430796; 1431320; 1431794; 1432217; 1432590; 1432913; 1433185; 1433408; 1433580; 1433702; 1433775; 1433797; 1433770; 1433692; 1433565;
1433388; 1433161; 1432885; 1432559; 1432184; 1431758; 1431284; 1430760; 1430187; 1429564; 1428893; 1428172; 1427402; 1426583; 1425715; 1424799;
1423833; 1422819; 1421757; 1420645; 1419486; 1418278; 1417022; 1415717; 1414365; 1412964; 1411516; 1410019; 1408475; 1406883; 1405244; 1403558;
1401824; 1400042; 1398214; 1396339; 1394416; 1392447; 1390432; 1388369; 1386261; 1384105; 1381904; 1379656; 1377363; 1375024; 1372638; 1370208;
1367731; 1365210; 1362643; 1360031; 1357374; 1354672; 1351925; 1349134; 1346299; 1343419; 1340495; 1337527; 1334515; 1331459; 1328360; 1325217;
1322031; 1318802; 1315530; 1312215; 1308857; 1305457; 1302014; 1298529; 1295003; 1291434; 1287823; 1284171; 1280478; 1276743; 1272967; 1269151;
1265293; 1261395; 1257457; 1253478; 1249460; 1245401; 1241303; 1237165; 1232988; 1228772; 1224517; 1220223; 1215891; 1211520; 1207111; 1202664;
1198179; 1193656; 1189096; 1184499; 1179864; 1175193; 1170485; 1165740; 1160959; 1156142; 1151290; 1146401; 1141477; 1136518; 1131524; 1126495;
1121431; 1116332; 1111200; 1106033; 1100833; 1095599; 1090331; 1085031; 1079697; 1074331; 1068932; 1063501; 1058037; 1052542; 1047015; 1041457;
1035867; 1030247; 1024596; 1018914; 1013202; 1007459; 1001687; 995885; 990054; 984194; 978304; 972386; 966440; 960465; 954462; 948432;
942374; 936288; 930176; 924036; 917870; 911678; 905460; 899215; 892945; 886650; 880330; 873984; 867614; 861220; 854801; 848358;
841892; 835402; 828889; 822354; 815795; 809214; 802611; 795986; 789339; 782671; 775981; 769271; 762540; 755788; 749017; 742225;
735414; 728583; 721733; 714864; 707977; 701071; 694147; 687206; 680246; 673270; 666276; 659265; 652238; 645194; 638135; 631059;
623969; 616862; 609741; 602605; 595455; 588290; 581112; 573919; 566714; 559495; 552263; 545019; 537762; 530493; 523212; 515920;
508616; 501301; 493976; 486640; 479294; 471937; 464571; 457196; 449811; 442418; 435015; 427605; 420186; 412759; 405325; 397884;
390435; 382980; 375518; 368049; 360575; 353095; 345610; 338119; 330624; 323123; 315619; 308110; 300597; 293081; 285562; 278039;
270514; 262986; 255455; 247923; 240389; 232853; 225317; 217779; 210241; 202702; 195163; 187624; 180085; 172547; 165010; 157475;
149940; 142407; 134876; 127348; 119821; 112298; 104777; 97260; 89746; 82236; 74730; 67228; 59731; 52239; 44751; 37269;
29792; 22322; 14857; 7399; -52; -7497; -14935; -22366; -29789; -37204; -44611; -52010; -59400; -66781; -74153; -81516;
-88869; -96213; -103546; -110869; -118182; -125483; -132774; -140053; -147321; -154577; -161821; -169052; -176271; -183478; -190671; -197851;
-205018; -212170; -219309; -226434; -233544; -240640; -247721; -254786; -261837; -268871; -275890; -282893; -289879; -296849; -303802; -310739;
-317658; -324560; -331444; -338310; -345158; -351987; -358799; -365591; -372365; -379119; -385854; -392569; -399264; -405940; -412595; -419229;
-425843; -432436; -439008; -445558; -452087; -458595; -465080; -471543; -477984; -484402; -490797; -497170; -503519; -509845; -516147; -522425;
-528680; -534910; -541116; -547297; -553454; -559586; -565692; -571773; -577829; -583859; -589863; -595841; -601793; -607718; -613617; -619489;
-625334; -631152; -636942; -642705; -648440; -654148; -659827; -665478; -671101; -676695; -682260; -687797; -693304; -698782; -704231; -709650;
-715040; -720399; -725729; -731028; -736298; -741536; -746744; -751921; -757067; -762182; -767266; -772318; -777339; -782328; -787285; -792211;
-797104; -801965; -806793; -811589; -816352; -821082; -825779; -830444; -835075; -839672; -844236; -848767; -853264; -857726; -862155; -866550;
-870911; -875237; -879528; -883785; -888008; -892195; -896348; -900465; -904548; -908595; -912607; -916583; -920523; -924428; -928297; -932130;
-935927; -939689; -943413; -947102; -950754; -954370; -957949; -961491; -964997; -968465; -971897; -975292; -978649; -981970; -985253; -988499;
-991707; -994878; -998012; -1001107; -1004165; -1007185; -1010167; -1013112; -1016018; -1018886; -1021716; -1024508; -1027261; -1029977; -1032654; -1035292;
-1037892; -1040453; -1042976; -1045460; -1047905; -1050312; -1052680; -1055009; -1057299; -1059550; -1061762; -1063935; -1066069; -1068164; -1070219; -1072236;
-1074213; -1076151; -1078050; -1079909; -1081730; -1083510; -1085252; -1086954; -1088616; -1090239; -1091823; -1093367; -1094872; -1096337; -1097762; -1099148;
-1100495; -1101802; -1103069; -1104297; -1105485; -1106633; -1107742; -1108811; -1109841; -1110831; -1111781; -1112692; -1113563; -1114395; -1115187; -1115940;
-1116653; -1117326; -1117960; -1118554; -1119109; -1119624; -1120100; -1120537; -1120934; -1121291; -1121609; -1121888; -1122128; -1122328; -1122489; -1122611;
-1122693; -1122736; -1122741; -1122706; -1122632; -1122519; -1122367; -1122176; -1121946; -1121677; -1121370; -1121024; -1120639; -1120215; -1119753; -1119252;
-1118713; -1118135; -1117519; -1116865; -1116172; -1115441; -1114672; -1113865; -1113019; -1112136; -1111215; -1110256; -1109259; -1108225; -1107153; -1106043;
-1104896; -1103712; -1102490; -1101231; -1099935; -1098601; -1097231; -1095824; -1094380; -1092899; -1091382; -1089827; -1088237; -1086610; -1084947; -1083247;
-1081512; -1079740; -1077932; -1076089; -1074210; -1072295; -1070345; -1068359; -1066338; -1064281; -1062190; -1060063; -1057902; -1055705; -1053475; -1051209;
-1048909; -1046575; -1044206; -1041803; -1039366; -1036896; -1034391; -1031853; -1029281; -1026676; -1024038; -1021366; -1018661; -1015924; -1013154; -1010350;
-1007515; -1004647; -1001746; -998814; -995850; -992853; -989825; -986765; -983674; -980551; -977398; -974213; -970997; -967751; -964473; -961166;
-957828; -954459; -951061; -947633; -944175; -940687; -937170; -933624; -930048; -926443; -922810; -919148; -915457; -911738; -907991; -904215;
-900412; -896581; -892722; -888836; -884922; -880981; -877014; -873020; -868999; -864951; -860877; -856777; -852652; -848500; -844323; -840120;
-835892; -831639; -827361; -823058; -818730; -814379; -810002; -805602; -801178; -796730; -792259; -787764; -783247; -778706; -774142; -769556;
-764947; -760316; -755663; -750988; -746291; -741572; -736833; -732072; -727290; -722487; -717664; -712820; -707956; -703072; -698169; -693245;
-688302; -683340; -678358; -673358; -668339; -663302; -658246; -653172; -648080; -642970; -637843; -632699; -627537; -622358; -617163; -611951;
-606723; -601478; -596218; -590942; -585650; -580343; -575020; -569683; -564331; -558964; -553583; -548188; -542779; -537356; -531919; -526470;
-521007; -515531; -510042; -504541; -499027; -493501; -487964; -482414; -476853; -471281; -465698; -460104; -454499; -448883; -443257; -437622;
-431976; -426321; -420656; -414982; -409299; -403607; -397906; -392197; -386480; -380754; -375021; -369281; -363532; -357777; -352015; -346246;
-340470; -334688; -328900; -323106; -317307; -311501; -305691; -299875; -294055; -288229; -282400; -276566; -270728; -264886; -259040; -253191;
-247339; -241483; -235625; -229765; -223901; -218036; -212169; -206300; -200429; -194557; -188684; -182809; -176935; -171059; -165183; -159307;
-153431; -147556; -141681; -135806; -129932; -124060; -118189; -112319; -106451; -100585; -94721; -88859; -83000; -77144; -71290; -65440;
-59593; -53749; -47909; -42073; -36242; -30414; -24591; -18773; -12960; -7152; -1349; 4448; 10239; 16025; 21805; 27578;
33345; 39105; 44858; 50605; 56343; 62075; 67799; 73515; 79222; 84922; 90613; 96296; 101970; 107635; 113290; 118936;
124573; 130200; 135817; 141424; 147021; 152607; 158182; 163746; 169300; 174842; 180373; 185892; 191400; 196895; 202378; 207849;
213308; 218754; 224187; 229607; 235014; 240407; 245787; 251153; 256505; 261843; 267167; 272476; 277771; 283051; 288316; 293566;
298801; 304020; 309223; 314411; 319583; 324739; 329878; 335001; 340108; 345197; 350270; 355326; 360364; 365385; 370389; 375374;
380342; 385292; 390223; 395137; 400031; 404907; 409765; 414603; 419422; 424222; 429003; 433764; 438505; 443226; 447928; 452609;
457270; 461910; 466530; 471130; 475708; 480265; 484802; 489317; 493810; 498282; 502733; 507161; 511568; 515952; 520315; 524655;
528972; 533267; 537539; 541788; 546015; 550218; 554398; 558555].
Definition mid_ints_14 : list Z := [
562688; 566797; 570883; 574945; 578983; 582997; 586987; 590952; 594893; 598810; 602701; 606568; 610411; 614228; 618020; 621787;
625528; 629244; 632935; 636600; 640239; 643853; 647440; 651002; 654537; 658046; 661529; 664985; 668415; 671818; 675195; 678544;
681867; 685163; 688432; 691673; 694888; 698075; 701234; 704366; 707471; 710548; 713597; 716618; 719612; 722577; 725514; 728424;
731305; 734158; 736982; 739778; 742545; 745284; 747995; 750676; 753329; 755953; 758548; 761114; 763652; 766160; 768639; 771088;
773509; 775900; 778262; 780594; 782897; 785171; 787415; 789629; 791813; 793968; 796093; 798189; 800254; 802290; 804295; 806271;
808217; 810132; 812018; 813873; 815698; 817493; 819258; 820992; 822696; 824370; 826014; 827627; 829210; 830762; 832284; 833775;
835236; 836666; 838066; 839435; 840774; 842082; 843359; 844606; 845822; 847007; 848162; 849286; 850379; 851442; 852474; 853475;
854446; 855386; 856295; 857173; 858021; 858838; 859624; 860379; 861104; 861798; 862462; 863094; 863696; 864267; 864808; 865318;
865797; 866246; 866664; 867051; 867408; 867734; 868030; 868295; 868530; 868734; 868908; 869051; 869164; 869246; 869298; 869320;
869311; 869272; 869203; 869104; 868974; 868814; 868624; 868405; 868155; 867875; 867565; 867225; 866855; 866455; 866026; 865567;
865078; 864559; 864011; 863433; 862826; 862189; 861523; 860828; 860103; 859349; 858566; 857753; 856912; 856041; 855141; 854213;
853256; 852270; 851255; 850211; 849139; 848038; 846909; 845752; 844566; 843352; 842109; 840839; 839540; 838214; 836860; 835477;
834067; 832630; 831164; 829672; 828151; 826604; 825029; 823427; 821798; 820142; 818458; 816748; 815012; 813248; 811458; 809641;
807798; 805929; 804033; 802111; 800164; 798190; 796190; 794165; 792113; 790037; 787935; 785807; 783654; 781476; 779273; 777045;
774792; 772514; 770211; 767884; 765533; 763157; 760757; 758333; 755884; 753412; 750916; 748396; 745853; 743286; 740696; 738082;
735446; 732786; 730104; 727398; 724670; 721920; 719147; 716352; 713534; 710694; 707833; 704949; 702044; 699118; 696169; 693200;
690209; 687197; 684164; 681111; 678036; 674941; 671826; 668690; 665534; 662358; 659162; 655947; 652711; 649456; 646182; 642888;
639575; 636243; 632893; 629523; 626135; 622729; 619304; 615861; 612400; 608921; 605424; 601909; 598378; 594828; 591262; 587678;
584078; 580461; 576827; 573176; 569510; 565827; 562128; 558413; 554682; 550936; 547174; 543397; 539604; 535797; 531975; 528138;
524286; 520420; 516540; 512645; 508737; 504814; 500878; 496929; 492966; 488989; 485000; 480998; 476983; 472955; 468915; 464862;
460798; 456721; 452633; 448532; 444421; 440297; 436163; 432017; 427861; 423694; 419516; 415328; 411129; 406920; 402702; 398473;
394235; 389987; 385730; 381463; 377188; 372904; 368611; 364309; 359999; 355681; 351355; 347020; 342678; 338329; 333972; 329607;
325236; 320857; 316472; 312080; 307682; 303277; 298866; 294449; 290026; 285598; 281164; 276724; 272279; 267830; 263375; 258916;
254452; 249984; 245511; 241034; 236554; 232070; 227582; 223090; 218596; 214098; 209597; 205094; 200587; 196079; 191568; 187054;
182539; 178022; 173504; 168983; 164462; 159939; 155415; 150890; 146365; 141839; 137312; 132786; 128259; 123732; 119206; 114679;
110154; 105629; 101105; 96582; 92060; 87539; 83020; 78503; 73987; 69474; 64962; 60453; 55946; 51441; 46940; 42441;
37945; 33453; 28964; 24478; 19996; 15518; 11043; 6573; 2107; -2353; -6810; -11262; -15710; -20152; -24589; -29021;
-33447; -37868; -42283; -46692; -51095; -55492; -59882; -64266; -68644; -73014; -77378; -81734; -86084; -90425; -94760; -99087;
-103405; -107716; -112019; -116314; -120600; -124878; -129147; -133407; -137658; -141901; -146134; -150357; -154571; -158776; -162971; -167156;
-171330; -175495; -179649; -183793; -187926; -192049; -196161; -200261; -204351; -208429; -212496; -216552; -220596; -224628; -228648; -232656;
-236652; -240635; -244607; -248565; -252512; -256445; -260365; -264273; -268167; -272048; -275915; -279769; -283609; -287436; -291248; -295047;
-298832; -302602; -306358; -310099; -313826; -317538; -321236; -324918; -328585; -332237; -335874; -339496; -343102; -346692; -350267; -353826;
-357368; -360895; -364406; -367900; -371378; -374840; -378285; -381713; -385125; -388520; -391897; -395258; -398601; -401928; -405236; -408528;
-411801; -415057; -418295; -421516; -424718; -427903; -431069; -434217; -437346; -440458; -443550; -446624; -449680; -452716; -455734; -458733;
-461713; -464673; -467615; -470537; -473440; -476323; -479187; -482031; -484856; -487660; -490445; -493210; -495955; -498680; -501384; -504069;
-506733; -509377; -512000; -514603; -517185; -519747; -522287; -524807; -527307; -529785; -532242; -534678; -537093; -539487; -541860; -544211;
-546541; -548849; -551136; -553402; -555646; -557868; -560069; -562247; -564404; -566539; -568652; -570743; -572812; -574859; -576884; -578887;
-580867; -582826; -584762; -586675; -588566; -590435; -592281; -594105; -595906; -597684; -599440; -601173; -602883; -604571; -606236; -607877;
-609497; -611093; -612666; -614216; -615743; -617248; -618729; -620187; -621622; -623034; -624422; -625788; -627130; -628449; -629745; -631017;
-632266; -633492; -634694; -635874; -637029; -638162; -639271; -640356; -641418; -642457; -643472; -644463; -645432; -646376; -647297; -648195;
-649069; -649920; -650747; -651550; -652330; -653087; -653820; -654529; -655215; -655877; -656516; -657131; -657722; -658290; -658835; -659356;
-659853; -660327; -660778; -661205; -661608; -661988; -662344; -662677; -662987; -663273; -663536; -663775; -663991; -664183; -664352; -664498;
-664621; -664720; -664796; -664848; -664878; -664884; -664867; -664826; -664763; -664677; -664567; -664434; -664279; -664100; -663899; -663674;
-663426; -663156; -662863; -662547; -662208; -661846; -661462; -661055; -660626; -660173; -659699; -659201; -658682; -658140; -657575; -656988;
-656379; -655747; -655094; -654418; -653720; -653000; -652258; -651493; -650707; -649899; -649070; -648218; -647345; -646450; -645533; -644595;
-643636; -642655; -641652; -640628; -639583; -638517; -637429; -636321; -635191; -634040; -632869; -631676; -630463; -629229; -627974; -626699;
-625403; -624087; -622750; -621393; -620016; -618618; -617201; -615763; -614305; -612828; -611330; -609813; -608276; -606720; -605144; -603548;
-601933; -600299; -598645; -596973; -595281; -593570; -591840; -590092; -588324; -586538; -584734; -582910; -581069; -579209; -577331; -575434;
-573520; -571587; -569636; -567668; -565682; -563678; -561657; -559618; -557562; -555488; -553397; -551289; -549164; -547022; -544864; -542688;
-540496; -538287; -536062; -533820; -531562; -529288; -526998; -524691; -522369; -520031; -517678; -515308; -512923; -510523; -508108; -505677;
-503231; -500770; -498294; -495804; -493299; -490779; -488244; -485695; -483132; -480555; -477964; -475358; -472739; -470106; -467460; -464799;
-462126; -459439; -456739; -454025; -451299; -448560; -445808; -443043; -440266; -437476; -434674; -431860; -429033; -426195; -423344; -420482;
-417608; -414723; -411826; -408917; -405998; -403067; -400126; -397173; -394210; -391236; -388251; -385257; -382251; -379236; -376210; -373175;
-370130; -367075; -364010; -360936; -357852; -354759; -351657; -348546; -345427; -342298; -339160; -336015; -332860; -329698; -326527; -323348;
-320161; -316966; -313764; -310554; -307336; -304111; -300879; -297640; -294394; -291141; -287881; -284614; -281341; -278062; -274776; -271485;
-268187; -264883; -261573; -258258; -254938; -251612; -248280; -244944; -241602; -238255; -234904; -231548; -228187; -224822; -221453; -218079;
-214702; -211320; -207935; -204546; -201153; -197757; -194357; -190955; -187549; -184140; -180729; -177314; -173897; -170478; -167056; -163632;
-160206; -156778; -153348; -149916; -146483; -143048; -139612; -136174; -132736; -129296; -125856; -122414; -118972; -115530; -112087; -108644;
-105200; -101757; -98314; -94870; -91428; -87985; -84543; -81102; -77662; -74222; -70784; -67347; -63910; -60476; -57043; -53611;
-50181; -46753; -43328; -39904; -36482; -33063; -29646; -26232; -22820; -19411; -16005; -12603; -9203; -5807; -2413; 975;
4361; 7743; 11122; 14496; 17866; 21233; 24595; 27952; 31305; 34653; 37997; 41336; 44669; 47998; 51322; 54640;
57953; 61260; 64561; 67857; 71147; 74432; 77710; 80981; 84247; 87506; 90759; 94005; 97244; 100477; 103702; 106921;
110132; 113336; 116533; 119723; 122905; 126079; 129245; 132404].
Definition mid_ints_15 : list Z := [
135554; 138697; 141831; 144957; 148075; 151184; 154285; 157377; 160460; 163535; 166600; 169657; 172704; 175742; 178770; 181790;
184799; 187799; 190789; 193770; 196740; 199701; 202651; 205591; 208521; 211441; 214350; 217248; 220136; 223013; 225879; 228734;
231579; 234412; 237234; 240044; 242844; 245632; 248408; 251173; 253926; 256667; 259396; 262114; 264819; 267513; 270194; 272862;
275519; 278163; 280794; 283413; 286019; 288613; 291193; 293761; 296316; 298858; 301386; 303901; 306403; 308892; 311367; 313829;
316277; 318712; 321133; 323540; 325933; 328312; 330677; 333029; 335366; 337689; 339997; 342291; 344571; 346837; 349088; 351324;
353546; 355753; 357945; 360122; 362285; 364432; 366565; 368682; 370785; 372872; 374944; 377001; 379042; 381068; 383078; 385073;
387052; 389016; 390964; 392896; 394813; 396713; 398598; 400467; 402320; 404157; 405978; 407783; 409571; 411343; 413100; 414839;
416563; 418270; 419961; 421635; 423292; 424934; 426558; 428166; 429757; 431332; 432890; 434431; 435955; 437462; 438953; 440426;
441883; 443323; 444745; 446151; 447539; 448911; 450265; 451602; 452922; 454225; 455510; 456778; 458029; 459263; 460479; 461678;
462859; 464023; 465170; 466299; 467410; 468504; 469581; 470640; 471681; 472705; 473711; 474700; 475671; 476624; 477560; 478478;
479378; 480261; 481126; 481973; 482803; 483614; 484408; 485185; 485943; 486684; 487407; 488112; 488799; 489469; 490120; 490754;
491370; 491969; 492549; 493112; 493657; 494184; 494693; 495184; 495658; 496114; 496551; 496972; 497374; 497759; 498125; 498474;
498806; 499119; 499415; 499693; 499953; 500195; 500420; 500627; 500816; 500988; 501142; 501278; 501397; 501498; 501581; 501647;
501696; 501726; 501739; 501735; 501713; 501674; 501617; 501543; 501451; 501342; 501215; 501071; 500910; 500732; 500536; 500323;
500092; 499845; 499580; 499298; 499000; 498683; 498350; 498000; 497633; 497249; 496848; 496430; 495995; 495543; 495075; 494590;
494088; 493569; 493033; 492481; 491913; 491328; 490726; 490108; 489473; 488822; 488155; 487471; 486771; 486055; 485323; 484574;
483810; 483029; 482232; 481420; 480591; 479747; 478886; 478010; 477118; 476211; 475288; 474349; 473395; 472425; 471440; 470439;
469423; 468392; 467346; 466284; 465207; 464115; 463009; 461887; 460750; 459599; 458432; 457251; 456056; 454845; 453620; 452381;
451127; 449859; 448576; 447279; 445968; 444643; 443304; 441951; 440583; 439202; 437807; 436399; 434976; 433540; 432090; 430627;
429151; 427661; 426158; 424641; 423111; 421569; 420013; 418444; 416862; 415268; 413661; 412041; 410408; 408763; 407106; 405436;
403753; 402059; 400352; 398633; 396902; 395159; 393404; 391638; 389860; 388070; 386268; 384455; 382630; 380794; 378947; 377089;
375219; 373339; 371447; 369544; 367631; 365707; 363772; 361827; 359871; 357905; 355929; 353942; 351945; 349938; 347920; 345893;
343856; 341810; 339753; 337687; 335612; 333527; 331432; 329329; 327216; 325094; 322963; 320823; 318674; 316517; 314351; 312176;
309993; 307801; 305601; 303392; 301176; 298951; 296719; 294478; 292230; 289974; 287710; 285439; 283160; 280874; 278580; 276280;
273972; 271657; 269335; 267007; 264672; 262329; 259981; 257626; 255264; 252896; 250522; 248142; 245756; 243364; 240966; 238562;
236152; 233737; 231316; 228890; 226459; 224022; 221581; 219134; 216682; 214226; 211764; 209298; 206827; 204352; 201873; 199389;
196901; 194408; 191912; 189412; 186908; 184400; 181888; 179373; 176854; 174332; 171807; 169279; 166747; 164212; 161675; 159134;
156591; 154045; 151497; 148946; 146392; 143837; 141279; 138719; 136157; 133593; 131027; 128460; 125891; 123320; 120748; 118175;
115600; 113024; 110447; 107869; 105290; 102710; 100129; 97548; 94966; 92384; 89802; 87219; 84636; 82053; 79469; 76886;
74303; 71721; 69139; 66557; 63975; 61395; 58815; 56236; 53657; 51080; 48504; 45929; 43355; 40783; 38212; 35642;
33074; 30508; 27943; 25381; 22820; 20262; 17705; 15151; 12599; 10050; 7503; 4958; 2416; -122; -2658; -5192;
-7722; -10249; -12773; -15294; -17812; -20326; -22836; -25343; -27847; -30346; -32842; -35334; -37822; -40306; -42785; -45261;
-47732; -50198; -52660; -55118; -57571; -60019; -62462; -64900; -67334; -69762; -72185; -74603; -77016; -79423; -81825; -84222;
-86612; -88997; -91377; -93750; -96118; -98479; -100835; -103184; -105527; -107864; -110194; -112518; -114835; -117146; -119450; -121748;
-124039; -126322; -128599; -130869; -133131; -135387; -137635; -139876; -142109; -144335; -146554; -148765; -150968; -153164; -155351; -157531;
-159703; -161867; -164023; -166171; -168310; -170441; -172564; -174679; -176785; -178882; -180971; -183051; -185123; -187185; -189239; -191284;
-193320; -195347; -197365; -199374; -201373; -203364; -205345; -207316; -209278; -211231; -213174; -215107; -217031; -218945; -220849; -222743;
-224628; -226502; -228366; -230221; -232065; -233899; -235723; -237537; -239340; -241133; -242915; -244687; -246448; -248199; -249939; -251669;
-253388; -255096; -256793; -258479; -260154; -261819; -263472; -265114; -266746; -268366; -269975; -271572; -273158; -274733; -276297; -277849;
-279390; -280919; -282437; -283943; -285438; -286921; -288392; -289851; -291299; -292735; -294159; -295571; -296972; -298360; -299736; -301101;
-302453; -303793; -305121; -306437; -307741; -309032; -310311; -311578; -312833; -314075; -315305; -316523; -317728; -318921; -320101; -321268;
-322423; -323566; -324696; -325813; -326918; -328010; -329089; -330156; -331210; -332251; -333279; -334295; -335297; -336287; -337264; -338228;
-339179; -340118; -341043; -341955; -342855; -343741; -344614; -345475; -346322; -347156; -347977; -348785; -349580; -350362; -351131; -351887;
-352629; -353358; -354075; -354778; -355467; -356144; -356807; -357457; -358094; -358718; -359328; -359925; -360509; -361080; -361638; -362182;
-362713; -363230; -363734; -364225; -364703; -365168; -365619; -366057; -366481; -366893; -367291; -367676; -368047; -368405; -368750; -369082;
-369400; -369705; -369997; -370276; -370541; -370793; -371032; -371258; -371470; -371669; -371855; -372028; -372187; -372334; -372467; -372587;
-372694; -372787; -372868; -372935; -372990; -373031; -373059; -373074; -373076; -373065; -373041; -373004; -372954; -372891; -372816; -372727;
-372625; -372510; -372383; -372242; -372089; -371923; -371744; -371552; -371348; -371130; -370900; -370658; -370402; -370134; -369854; -369561;
-369255; -368936; -368606; -368262; -367906; -367538; -367157; -366764; -366359; -365941; -365511; -365068; -364614; -364147; -363668; -363177;
-362673; -362158; -361630; -361091; -360539; -359975; -359400; -358813; -358213; -357602; -356979; -356345; -355698; -355040; -354371; -353689;
-352996; -352292; -351576; -350849; -350110; -349360; -348598; -347825; -347041; -346246; -345439; -344621; -343792; -342952; -342102; -341240;
-340367; -339483; -338588; -337683; -336767; -335840; -334902; -333954; -332996; -332026; -331046; -330056; -329056; -328045; -327023; -325992;
-324950; -323898; -322836; -321764; -320682; -319590; -318488; -317376; -316254; -315123; -313982; -312831; -311671; -310501; -309321; -308132;
-306934; -305726; -304509; -303283; -302048; -300803; -299549; -298287; -297015; -295735; -294445; -293147; -291840; -290524; -289200; -287867;
-286526; -285176; -283818; -282451; -281076; -279693; -278302; -276902; -275495; -274079; -272656; -271224; -269785; -268338; -266883; -265421;
-263951; -262474; -260989; -259496; -257997; -256490; -254976; -253454; -251926; -250390; -248848; -247298; -245742; -244179; -242609; -241033;
-239450; -237860; -236264; -234662; -233053; -231438; -229816; -228189; -226555; -224916; -223270; -221619; -219961; -218298; -216630; -214955;
-213275; -211590; -209899; -208202; -206501; -204794; -203082; -201365; -199642; -197915; -196183; -194446; -192704; -190958; -189207; -187451;
-185691; -183926; -182157; -180383; -178606; -176824; -175038; -173248; -171454; -169656; -167854; -166049; -164240; -162427; -160611; -158791;
-156967; -155141; -153311; -151477; -149641; -147801; -145959; -144113; -142265; -140414; -138560; -136703; -134844; -132982; -131117; -129251;
-127382; -125510; -123637; -121761; -119883; -118003; -116122; -114238; -112353; -110465; -108577; -106686; -104794; -102901; -101006; -99110;
-97213; -95314; -93414; -91514; -89612; -87709; -85806; -83902; -81997; -80091; -78185; -76278; -74371; -72463; -70556; -68648;
-66739; -64831; -62923; -61014; -59106; -57198; -55290; -53383].
Definition mid_ints_16 : list Z := [
-51475; -49569; -47662; -45757; -43851; -41947; -40043; -38141; -36239; -34338; -32438; -30539; -28641; -26745; -24849; -22956;
-21063; -19172; -17283; -15395; -13509; -11624; -9742; -7861; -5982; -4105; -2231; -358; 1512; 3380; 5246; 7109;
8970; 10829; 12685; 14539; 16389; 18237; 20083; 21925; 23764; 25601; 27434; 29265; 31092; 32916; 34736; 36553;
38367; 40178; 41984; 43788; 45587; 47383; 49175; 50963; 52748; 54528; 56305; 58077; 59846; 61610; 63370; 65125;
66876; 68623; 70366; 72104; 73837; 75566; 77290; 79009; 80724; 82433; 84138; 85838; 87533; 89223; 90907; 92587;
94261; 95930; 97594; 99252; 100905; 102552; 104194; 105831; 107461; 109086; 110706; 112319; 113927; 115529; 117125; 118714;
120298; 121876; 123448; 125013; 126573; 128126; 129672; 131213; 132747; 134274; 135795; 137309; 138817; 140318; 141813; 143301;
144782; 146256; 147723; 149184; 150637; 152084; 153523; 154956; 156381; 157799; 159210; 160614; 162010; 163400; 164781; 166156;
167523; 168882; 170234; 171578; 172915; 174244; 175566; 176880; 178186; 179484; 180774; 182057; 183332; 184599; 185857; 187108;
188351; 189586; 190813; 192031; 193241; 194444; 195638; 196823; 198001; 199170; 200330; 201483; 202627; 203762; 204889; 206008;
207118; 208219; 209312; 210396; 211472; 212539; 213597; 214646; 215687; 216719; 217742; 218756; 219762; 220758; 221746; 222725;
223694; 224655; 225607; 226550; 227483; 228408; 229323; 230230; 231127; 232015; 232894; 233764; 234625; 235476; 236318; 237151;
237974; 238789; 239594; 240389; 241175; 241952; 242720; 243478; 244226; 244965; 245695; 246415; 247126; 247828; 248519; 249202;
249874; 250538; 251191; 251835; 252470; 253095; 253710; 254316; 254912; 255498; 256075; 256642; 257200; 257748; 258286; 258814;
259333; 259842; 260342; 260831; 261311; 261782; 262242; 262693; 263134; 263566; 263987; 264399; 264801; 265194; 265576; 265949;
266313; 266666; 267010; 267344; 267668; 267982; 268287; 268582; 268867; 269142; 269408; 269664; 269910; 270147; 270373; 270590;
270798; 270995; 271183; 271361; 271530; 271688; 271837; 271977; 272106; 272226; 272337; 272437; 272528; 272610; 272681; 272743;
272796; 272839; 272872; 272896; 272910; 272914; 272909; 272895; 272871; 272837; 272794; 272741; 272679; 272608; 272527; 272436;
272336; 272227; 272108; 271980; 271843; 271696; 271540; 271375; 271200; 271016; 270823; 270621; 270409; 270188; 269958; 269719;
269470; 269213; 268946; 268670; 268386; 268092; 267789; 267477; 267156; 266827; 266488; 266140; 265784; 265418; 265044; 264661;
264269; 263868; 263459; 263041; 262614; 262179; 261734; 261282; 260820; 260350; 259872; 259385; 258889; 258386; 257873; 257352;
256823; 256286; 255740; 255186; 254624; 254053; 253474; 252887; 252292; 251689; 251078; 250459; 249831; 249196; 248553; 247901;
247242; 246576; 245901; 245218; 244528; 243830; 243124; 242411; 241690; 240962; 240226; 239482; 238731; 237972; 237207; 236433;
235653; 234865; 234070; 233267; 232458; 231641; 230817; 229986; 229148; 228303; 227451; 226592; 225727; 224854; 223975; 223088;
222196; 221296; 220390; 219477; 218557; 217632; 216699; 215760; 214815; 213863; 212905; 211941; 210971; 209994; 209011; 208022;
207027; 206026; 205019; 204006; 202987; 201962; 200931; 199895; 198853; 197805; 196752; 195693; 194628; 193558; 192482; 191401;
190315; 189223; 188126; 187024; 185916; 184804; 183686; 182563; 181435; 180303; 179165; 178022; 176875; 175723; 174566; 173404;
172238; 171067; 169891; 168711; 167527; 166338; 165145; 163947; 162746; 161540; 160329; 159115; 157897; 156674; 155448; 154217;
152983; 151745; 150503; 149257; 148008; 146755; 145499; 144238; 142975; 141708; 140437; 139163; 137886; 136606; 135322; 134035;
132745; 131452; 130156; 128857; 127555; 126250; 124943; 123633; 122319; 121004; 119685; 118364; 117041; 115715; 114387; 113056;
111723; 110388; 109050; 107710; 106369; 105025; 103679; 102331; 100981; 99629; 98276; 96921; 95564; 94205; 92844; 91483;
90119; 88754; 87388; 86020; 84651; 83281; 81909; 80537; 79163; 77788; 76412; 75035; 73657; 72278; 70899; 69518;
68137; 66756; 65373; 63990; 62607; 61223; 59838; 58453; 57068; 55683; 54297; 52911; 51525; 50139; 48753; 47367;
45981; 44595; 43209; 41823; 40438; 39053; 37668; 36284; 34900; 33516; 32133; 30751; 29369; 27988; 26608; 25229;
23850; 22472; 21095; 19719; 18345; 16971; 15598; 14226; 12856; 11487; 10119; 8753; 7387; 6024; 4662; 3301;
1942; 584; -770; -2125; -3477; -4827; -6176; -7523; -8868; -10211; -11552; -12891; -14227; -15562; -16894; -18224;
-19552; -20878; -22201; -23521; -24840; -26155; -27468; -28779; -30087; -31392; -32695; -33995; -35291; -36586; -37877; -39165;
-40450; -41733; -43012; -44288; -45561; -46831; -48098; -49361; -50621; -51878; -53131; -54381; -55627; -56870; -58110; -59346;
-60578; -61806; -63031; -64252; -65470; -66683; -67893; -69099; -70301; -71498; -72692; -73882; -75068; -76250; -77427; -78601;
-79770; -80935; -82095; -83252; -84404; -85551; -86694; -87833; -88967; -90097; -91222; -92342; -93458; -94569; -95676; -96777;
-97874; -98967; -100054; -101136; -102214; -103286; -104354; -105417; -106475; -107527; -108575; -109617; -110654; -111686; -112713; -113735;
-114751; -115762; -116768; -117769; -118764; -119753; -120738; -121716; -122690; -123657; -124620; -125576; -126527; -127473; -128412; -129347;
-130275; -131198; -132114; -133026; -133931; -134830; -135724; -136612; -137494; -138370; -139240; -140104; -140962; -141814; -142660; -143500;
-144333; -145161; -145983; -146798; -147608; -148411; -149208; -149998; -150783; -151561; -152333; -153098; -153857; -154610; -155357; -156097;
-156831; -157558; -158279; -158993; -159701; -160403; -161098; -161786; -162468; -163144; -163813; -164475; -165130; -165779; -166422; -167058;
-167687; -168309; -168925; -169534; -170136; -170732; -171321; -171903; -172479; -173047; -173609; -174164; -174712; -175254; -175788; -176316;
-176837; -177351; -177859; -178359; -178852; -179339; -179819; -180292; -180757; -181216; -181668; -182114; -182552; -182983; -183407; -183824;
-184235; -184638; -185035; -185424; -185806; -186182; -186550; -186912; -187266; -187613; -187954; -188287; -188613; -188933; -189245; -189550;
-189849; -190140; -190424; -190701; -190971; -191234; -191490; -191739; -191981; -192216; -192444; -192665; -192879; -193086; -193286; -193479;
-193664; -193843; -194015; -194179; -194337; -194488; -194632; -194768; -194898; -195021; -195136; -195245; -195347; -195442; -195529; -195610;
-195684; -195751; -195811; -195864; -195910; -195949; -195982; -196007; -196025; -196037; -196042; -196040; -196031; -196015; -195992; -195962;
-195926; -195883; -195833; -195776; -195712; -195642; -195565; -195481; -195390; -195293; -195189; -195078; -194960; -194836; -194705; -194568;
-194424; -194273; -194115; -193951; -193781; -193604; -193420; -193230; -193033; -192830; -192620; -192404; -192181; -191952; -191716; -191474;
-191226; -190971; -190710; -190442; -190168; -189888; -189602; -189309; -189010; -188705; -188393; -188075; -187752; -187422; -187085; -186743;
-186395; -186040; -185680; -185313; -184941; -184562; -184177; -183787; -183390; -182988; -182580; -182165; -181745; -181320; -180888; -180450;
-180007; -179558; -179104; -178643; -178177; -177706; -177228; -176745; -176257; -175763; -175263; -174758; -174248; -173732; -173210; -172684;
-172152; -171614; -171071; -170523; -169970; -169411; -168847; -168278; -167704; -167125; -166540; -165951; -165356; -164756; -164152; -163542;
-162928; -162308; -161684; -161054; -160420; -159782; -159138; -158490; -157836; -157179; -156516; -155849; -155177; -154501; -153820; -153135;
-152445; -151751; -151052; -150349; -149642; -148930; -148214; -147494; -146769; -146040; -145308; -144570; -143829; -143084; -142335; -141581;
-140824; -140063; -139297; -138528; -137755; -136979; -136198; -135414; -134625; -133834; -133038; -132239; -131436; -130630; -129820; -129007;
-128190; -127370; -126547; -125720; -124889; -124056; -123219; -122379; -121535; -120689; -119839; -118987; -118131; -117272; -116410; -115546;
-114678; -113807; -112934; -112058; -111179; -110297; -109412; -108525; -107635; -106743; -105848; -104950; -104050; -103148; -102243; -101335;
-100425; -99513; -98599; -97682; -96763; -95842; -94919; -93993].
Definition mid_ints_17 : list Z := [
-93066; -92136; -91205; -90271; -89335; -88398; -87459; -86518; -85575; -84630; -83683; -82735; -81785; -80834; -79881; -78926;
-77970; -77013; -76053; -75093; -74131; -73168; -72203; -71238; -70271; -69302; -68333; -67362; -66391; -65418; -64444; -63470;
-62494; -61518; -60540; -59562; -58583; -57603; -56622; -55641; -54659; -53677; -52693; -51710; -50725; -49741; -48755; -47770;
-46784; -45797; -44811; -43824; -42836; -41849; -40861; -39874; -38886; -37898; -36910; -35922; -34934; -33946; -32959; -31971;
-30984; -29996; -29009; -28023; -27036; -26050; -25065; -24079; -23095; -22110; -21127; -20143; -19161; -18179; -17197; -16217;
-15237; -14258; -13279; -12302; -11325; -10349; -9374; -8400; -7427; -6455; -5484; -4514; -3546; -2578; -1612; -646;
317; 1279; 2241; 3201; 4159; 5116; 6072; 7026; 7979; 8930; 9880; 10828; 11775; 12719; 13663; 14604;
15544; 16481; 17417; 18352; 19284; 20214; 21143; 22069; 22994; 23916; 24837; 25755; 26671; 27585; 28497; 29407;
30314; 31219; 32122; 33023; 33921; 34817; 35710; 36601; 37490; 38376; 39259; 40140; 41019; 41895; 42768; 43638;
44506; 45371; 46234; 47093; 47950; 48804; 49655; 50504; 51349; 52192; 53031; 53868; 54701; 55532; 56359; 57184;
58005; 58823; 59638; 60450; 61259; 62065; 62867; 63666; 64461; 65254; 66043; 66828; 67611; 68389; 69165; 69937;
70705; 71470; 72232; 72989; 73744; 74494; 75242; 75985; 76725; 77461; 78194; 78922; 79647; 80369; 81086; 81800;
82510; 83216; 83918; 84616; 85310; 86001; 86687; 87370; 88048; 88723; 89394; 90060; 90723; 91381; 92035; 92686;
93332; 93974; 94612; 95245; 95875; 96500; 97121; 97738; 98351; 98959; 99563; 100163; 100758; 101349; 101936; 102518;
103096; 103670; 104239; 104804; 105364; 105920; 106471; 107018; 107561; 108099; 108632; 109161; 109686; 110206; 110721; 111232;
111738; 112239; 112736; 113228; 113716; 114199; 114678; 115151; 115620; 116085; 116544; 116999; 117449; 117895; 118336; 118772;
119203; 119630; 120051; 120468; 120880; 121288; 121690; 122088; 122481; 122869; 123253; 123631; 124005; 124373; 124737; 125096;
125451; 125800; 126144; 126484; 126818; 127148; 127473; 127793; 128108; 128418; 128723; 129023; 129318; 129609; 129894; 130175;
130450; 130721; 130986; 131247; 131503; 131753; 131999; 132240; 132476; 132707; 132933; 133154; 133370; 133581; 133787; 133988;
134184; 134375; 134561; 134742; 134919; 135090; 135256; 135417; 135574; 135725; 135871; 136013; 136149; 136281; 136407; 136529;
136645; 136757; 136864; 136966; 137062; 137154; 137241; 137323; 137400; 137472; 137540; 137602; 137659; 137712; 137759; 137802;
137840; 137873; 137901; 137924; 137942; 137955; 137964; 137968; 137967; 137961; 137950; 137934; 137914; 137888; 137858; 137823;
137783; 137739; 137690; 137636; 137577; 137513; 137445; 137372; 137294; 137212; 137125; 137033; 136937; 136835; 136729; 136619;
136504; 136384; 136260; 136131; 135997; 135859; 135716; 135568; 135417; 135260; 135099; 134934; 134763; 134589; 134410; 134226;
134038; 133846; 133649; 133448; 133242; 133032; 132818; 132599; 132376; 132148; 131916; 131680; 131439; 131195; 130946; 130692;
130435; 130173; 129907; 129637; 129362; 129084; 128801; 128514; 128224; 127928; 127629; 127326; 127019; 126708; 126392; 126073;
125750; 125422; 125091; 124756; 124417; 124074; 123727; 123376; 123022; 122663; 122301; 121935; 121565; 121191; 120814; 120433;
120048; 119660; 119268; 118872; 118472; 118069; 117663; 117253; 116839; 116422; 116001; 115577; 115149; 114718; 114283; 113845;
113403; 112958; 112510; 112059; 111604; 111146; 110684; 110220; 109752; 109281; 108806; 108329; 107848; 107365; 106878; 106388;
105895; 105399; 104900; 104398; 103893; 103385; 102874; 102360; 101843; 101324; 100801; 100276; 99748; 99217; 98684; 98147;
97608; 97067; 96522; 95975; 95426; 94874; 94319; 93762; 93202; 92639; 92075; 91507; 90938; 90366; 89791; 89214;
88635; 88054; 87470; 86884; 86296; 85705; 85112; 84517; 83920; 83321; 82720; 82117; 81511; 80904; 80295; 79683;
79070; 78455; 77838; 77219; 76598; 75975; 75351; 74724; 74096; 73466; 72835; 72202; 71567; 70930; 70292; 69653;
69012; 68369; 67725; 67079; 66432; 65783; 65133; 64481; 63829; 63175; 62519; 61862; 61204; 60545; 59885; 59223;
58560; 57896; 57231; 56565; 55898; 55230; 54561; 53890; 53219; 52547; 51874; 51200; 50525; 49850; 49173; 48496;
47818; 47140; 46460; 45780; 45099; 44418; 43736; 43053; 42370; 41686; 41002; 40318; 39632; 38947; 38261; 37574;
36888; 36201; 35513; 34826; 34138; 33449; 32761; 32072; 31384; 30695; 30006; 29317; 28627; 27938; 27249; 26560;
25871; 25181; 24492; 23803; 23115; 22426; 21737; 21049; 20361; 19673; 18986; 18298; 17611; 16925; 16239; 15553;
14867; 14182; 13498; 12814; 12130; 11447; 10765; 10083; 9401; 8721; 8041; 7361; 6683; 6005; 5328; 4651;
3976; 3301; 2627; 1954; 1281; 610; -59; -729; -1397; -2065; -2731; -3397; -4061; -4725; -5387; -6048;
-6708; -7367; -8025; -8681; -9336; -9990; -10643; -11295; -11945; -12593; -13241; -13887; -14532; -15175; -15816; -16457;
-17096; -17733; -18369; -19003; -19636; -20267; -20896; -21524; -22151; -22775; -23398; -24019; -24639; -25257; -25873; -26487;
-27099; -27710; -28319; -28926; -29531; -30134; -30735; -31334; -31932; -32527; -33120; -33712; -34301; -34889; -35474; -36057;
-36638; -37217; -37794; -38369; -38941; -39512; -40080; -40646; -41210; -41771; -42331; -42887; -43442; -43995; -44545; -45092;
-45638; -46181; -46721; -47259; -47795; -48328; -48859; -49387; -49913; -50437; -50957; -51476; -51992; -52505; -53015; -53524;
-54029; -54532; -55032; -55530; -56024; -56517; -57006; -57493; -57977; -58459; -58937; -59413; -59886; -60357; -60824; -61289;
-61751; -62210; -62666; -63120; -63570; -64018; -64463; -64905; -65344; -65780; -66213; -66643; -67070; -67495; -67916; -68334;
-68750; -69162; -69571; -69977; -70381; -70781; -71178; -71572; -71963; -72351; -72736; -73117; -73496; -73871; -74243; -74613;
-74979; -75341; -75701; -76058; -76411; -76761; -77108; -77452; -77792; -78129; -78463; -78794; -79122; -79446; -79767; -80085;
-80399; -80711; -81019; -81323; -81625; -81923; -82218; -82509; -82797; -83082; -83363; -83642; -83916; -84188; -84456; -84721;
-84982; -85240; -85495; -85746; -85994; -86238; -86480; -86717; -86952; -87183; -87410; -87634; -87855; -88073; -88287; -88497;
-88704; -88908; -89108; -89305; -89499; -89689; -89875; -90058; -90238; -90414; -90587; -90757; -90923; -91085; -91244; -91400;
-91552; -91701; -91847; -91989; -92127; -92262; -92394; -92522; -92647; -92768; -92886; -93000; -93111; -93219; -93323; -93424;
-93521; -93615; -93705; -93792; -93876; -93956; -94032; -94106; -94176; -94242; -94305; -94365; -94421; -94474; -94523; -94569;
-94612; -94651; -94687; -94719; -94749; -94774; -94797; -94816; -94831; -94844; -94852; -94858; -94860; -94859; -94855; -94847;
-94836; -94821; -94804; -94783; -94758; -94731; -94700; -94665; -94628; -94587; -94543; -94496; -94445; -94391; -94334; -94274;
-94211; -94144; -94074; -94001; -93924; -93845; -93762; -93676; -93587; -93495; -93399; -93301; -93199; -93094; -92986; -92875;
-92761; -92644; -92523; -92400; -92274; -92144; -92011; -91876; -91737; -91595; -91450; -91303; -91152; -90998; -90842; -90682;
-90519; -90354; -90185; -90014; -89839; -89662; -89482; -89299; -89113; -88924; -88732; -88538; -88341; -88141; -87938; -87732;
-87523; -87312; -87098; -86881; -86662; -86439; -86214; -85987; -85756; -85523; -85287; -85049; -84808; -84564; -84318; -84069;
-83818; -83563; -83307; -83048; -82786; -82522; -82255; -81986; -81714; -81440; -81163; -80884; -80602; -80318; -80032; -79743;
-79451; -79158; -78862; -78564; -78263; -77960; -77655; -77347; -77038; -76726; -76411; -76095; -75776; -75455; -75132; -74807;
-74479; -74150; -73818; -73484; -73149; -72811; -72471; -72128].
Definition mid_ints_18 : list Z := [
-71784; -71438; -71090; -70740; -70388; -70034; -69678; -69320; -68960; -68598; -68235; -67869; -67502; -67133; -66762; -66389;
-66014; -65638; -65260; -64880; -64498; -64115; -63730; -63344; -62955; -62565; -62174; -61781; -61386; -60989; -60592; -60192;
-59791; -59389; -58985; -58579; -58172; -57764; -57354; -56943; -56530; -56116; -55701; -55284; -54866; -54447; -54026; -53604;
-53181; -52757; -52331; -51904; -51476; -51047; -50617; -50185; -49752; -49319; -48884; -48448; -48011; -47573; -47134; -46694;
-46253; -45811; -45368; -44924; -44479; -44033; -43586; -43139; -42691; -42241; -41791; -41341; -40889; -40437; -39983; -39530;
-39075; -38620; -38164; -37707; -37250; -36792; -36333; -35874; -35415; -34954; -34494; -34032; -33571; -33108; -32645; -32182;
-31718; -31254; -30790; -30325; -29860; -29394; -28928; -28462; -27995; -27528; -27061; -26593; -26126; -25658; -25190; -24721;
-24253; -23784; -23316; -22847; -22378; -21909; -21440; -20970; -20501; -20032; -19563; -19093; -18624; -18155; -17686; -17217;
-16748; -16279; -15811; -15342; -14874; -14406; -13938; -13470; -13002; -12535; -12068; -11601; -11135; -10668; -10203; -9737;
-9272; -8807; -8343; -7879; -7415; -6952; -6489; -6027; -5565; -5104; -4643; -4183; -3724; -3264; -2806; -2348;
-1891; -1434; -978; -523; -68; 385; 839; 1291; 1743; 2194; 2645; 3094; 3543; 3991; 4439; 4885;
5331; 5775; 6219; 6662; 7104; 7545; 7985; 8425; 8863; 9300; 9737; 10172; 10606; 11040; 11472; 11903;
12333; 12762; 13190; 13617; 14043; 14467; 14890; 15313; 15734; 16154; 16572; 16990; 17406; 17821; 18235; 18647;
19058; 19468; 19877; 20284; 20690; 21094; 21498; 21899; 22300; 22699; 23097; 23493; 23888; 24281; 24673; 25063;
25452; 25840; 26226; 26610; 26993; 27375; 27755; 28133; 28510; 28885; 29259; 29631; 30001; 30370; 30737; 31102;
31466; 31828; 32189; 32548; 32905; 33260; 33614; 33966; 34316; 34665; 35012; 35357; 35700; 36041; 36381; 36719;
37055; 37389; 37721; 38052; 38381; 38708; 39033; 39356; 39677; 39996; 40314; 40629; 40943; 41255; 41565; 41872;
42178; 42482; 42784; 43084; 43382; 43678; 43973; 44265; 44555; 44843; 45129; 45413; 45695; 45975; 46253; 46528;
46802; 47074; 47343; 47611; 47876; 48140; 48401; 48660; 48917; 49172; 49425; 49676; 49924; 50171; 50415; 50657;
50897; 51135; 51370; 51604; 51835; 52064; 52291; 52515; 52738; 52958; 53176; 53392; 53606; 53817; 54026; 54233;
54438; 54641; 54841; 55039; 55235; 55428; 55620; 55809; 55996; 56180; 56362; 56542; 56720; 56896; 57069; 57240;
57408; 57575; 57739; 57900; 58060; 58217; 58372; 58524; 58675; 58823; 58968; 59112; 59253; 59392; 59528; 59662;
59794; 59924; 60051; 60176; 60298; 60418; 60536; 60652; 60765; 60876; 60985; 61091; 61195; 61297; 61397; 61494;
61588; 61681; 61771; 61859; 61944; 62027; 62108; 62187; 62263; 62337; 62409; 62478; 62545; 62609; 62672; 62732;
62790; 62845; 62898; 62949; 62998; 63044; 63088; 63129; 63169; 63206; 63241; 63273; 63303; 63331; 63357; 63380;
63401; 63420; 63437; 63451; 63463; 63473; 63481; 63486; 63489; 63490; 63488; 63485; 63479; 63471; 63460; 63448;
63433; 63416; 63397; 63375; 63352; 63326; 63298; 63267; 63235; 63200; 63164; 63125; 63084; 63040; 62995; 62947;
62898; 62846; 62792; 62736; 62678; 62617; 62555; 62490; 62423; 62355; 62284; 62211; 62136; 62059; 61980; 61898;
61815; 61730; 61642; 61553; 61461; 61368; 61272; 61175; 61075; 60974; 60870; 60765; 60657; 60548; 60436; 60323;
60208; 60090; 59971; 59850; 59727; 59602; 59475; 59346; 59216; 59083; 58949; 58812; 58674; 58534; 58392; 58249;
58103; 57956; 57807; 57656; 57503; 57348; 57192; 57034; 56874; 56712; 56549; 56384; 56217; 56049; 55878; 55706;
55533; 55357; 55180; 55002; 54821; 54639; 54456; 54270; 54083; 53895; 53705; 53513; 53320; 53125; 52929; 52731;
52531; 52330; 52127; 51923; 51717; 51510; 51302; 51092; 50880; 50667; 50452; 50237; 50019; 49800; 49580; 49359;
49136; 48911; 48685; 48458; 48230; 48000; 47769; 47537; 47303; 47068; 46831; 46594; 46355; 46115; 45873; 45631;
45387; 45142; 44896; 44648; 44399; 44150; 43899; 43646; 43393; 43139; 42883; 42627; 42369; 42110; 41850; 41589;
41327; 41064; 40800; 40535; 40269; 40002; 39734; 39465; 39195; 38924; 38652; 38379; 38105; 37830; 37555; 37278;
37001; 36723; 36444; 36164; 35883; 35602; 35319; 35036; 34752; 34468; 34182; 33896; 33609; 33321; 33033; 32744;
32454; 32163; 31872; 31580; 31288; 30995; 30701; 30407; 30112; 29816; 29520; 29223; 28926; 28628; 28330; 28031;
27732; 27432; 27132; 26831; 26530; 26228; 25926; 25623; 25320; 25017; 24713; 24409; 24104; 23799; 23494; 23188;
22882; 22576; 22269; 21962; 21655; 21348; 21040; 20732; 20424; 20116; 19807; 19498; 19189; 18880; 18571; 18261;
17951; 17642; 17332; 17022; 16711; 16401; 16091; 15780; 15470; 15160; 14849; 14539; 14228; 13917; 13607; 13296;
12986; 12675; 12365; 12055; 11744; 11434; 11124; 10814; 10504; 10195; 9885; 9576; 9266; 8957; 8648; 8340;
8031; 7723; 7415; 7107; 6799; 6492; 6185; 5878; 5572; 5266; 4960; 4654; 4349; 4044; 3739; 3435;
3132; 2828; 2525; 2222; 1920; 1618; 1317; 1016; 716; 416; 116; -182; -480; -778; -1076; -1373;
-1669; -1965; -2261; -2556; -2850; -3144; -3437; -3729; -4021; -4312; -4603; -4893; -5182; -5471; -5759; -6046;
-6333; -6619; -6904; -7189; -7473; -7756; -8038; -8320; -8601; -8881; -9160; -9439; -9717; -9994; -10270; -10545;
-10820; -11094; -11367; -11639; -11910; -12180; -12450; -12718; -12986; -13253; -13518; -13783; -14047; -14311; -14573; -14834;
-15094; -15354; -15612; -15869; -16126; -16381; -16636; -16889; -17141; -17393; -17643; -17892; -18141; -18388; -18634; -18879;
-19123; -19366; -19608; -19849; -20088; -20327; -20564; -20801; -21036; -21270; -21503; -21735; -21966; -22195; -22423; -22651;
-22877; -23101; -23325; -23547; -23769; -23989; -24208; -24425; -24642; -24857; -25071; -25283; -25495; -25705; -25914; -26122;
-26328; -26533; -26737; -26940; -27141; -27341; -27540; -27737; -27933; -28128; -28321; -28514; -28704; -28894; -29082; -29269;
-29454; -29638; -29821; -30003; -30183; -30361; -30539; -30715; -30889; -31062; -31234; -31405; -31574; -31741; -31907; -32072;
-32236; -32398; -32558; -32717; -32875; -33031; -33186; -33340; -33492; -33642; -33792; -33939; -34085; -34230; -34374; -34516;
-34656; -34795; -34933; -35069; -35203; -35336; -35468; -35598; -35727; -35854; -35980; -36104; -36227; -36348; -36468; -36586;
-36703; -36818; -36932; -37045; -37156; -37265; -37373; -37479; -37584; -37687; -37789; -37889; -37988; -38085; -38181; -38276;
-38368; -38460; -38549; -38638; -38724; -38810; -38893; -38975; -39056; -39135; -39213; -39289; -39363; -39437; -39508; -39578;
-39647; -39714; -39779; -39843; -39906; -39966; -40026; -40084; -40140; -40195; -40248; -40300; -40351; -40399; -40447; -40492;
-40537; -40580; -40621; -40661; -40699; -40736; -40771; -40805; -40837; -40868; -40897; -40925; -40951; -40976; -40999; -41021;
-41041; -41060; -41077; -41093; -41107; -41120; -41131; -41141; -41150; -41157; -41162; -41166; -41169; -41170; -41170; -41168;
-41165; -41160; -41154; -41146; -41137; -41127; -41115; -41101; -41087; -41070; -41053; -41034; -41013; -40991; -40968; -40943;
-40917; -40890; -40861; -40830; -40799; -40765; -40731; -40695; -40658; -40619; -40579; -40538; -40495; -40451; -40405; -40358;
-40310; -40261; -40210; -40158; -40104; -40049; -39993; -39936; -39877; -39817; -39755; -39692; -39628; -39563; -39496; -39428;
-39359; -39289; -39217; -39144; -39070; -38994; -38917; -38839].
Definition mid_ints_19 : list Z := [
-38760; -38680; -38598; -38515; -38431; -38345; -38259; -38171; -38082; -37991; -37900; -37807; -37714; -37619; -37523; -37425;
-37327; -37227; -37126; -37024; -36921; -36817; -36712; -36606; -36498; -36389; -36280; -36169; -36057; -35944; -35830; -35715;
-35598; -35481; -35363; -35243; -35123; -35001; -34879; -34755; -34631; -34505; -34378; -34251; -34122; -33993; -33862; -33731;
-33598; -33465; -33330; -33195; -33058; -32921; -32783; -32644; -32504; -32363; -32221; -32078; -31935; -31790; -31645; -31499;
-31351; -31203; -31055; -30905; -30754; -30603; -30451; -30298; -30144; -29989; -29834; -29678; -29521; -29363; -29205; -29045;
-28885; -28725; -28563; -28401; -28238; -28074; -27910; -27745; -27579; -27412; -27245; -27077; -26909; -26739; -26570; -26399;
-26228; -26056; -25884; -25711; -25537; -25363; -25188; -25013; -24837; -24660; -24483; -24305; -24127; -23948; -23769; -23589;
-23408; -23227; -23046; -22864; -22682; -22499; -22315; -22131; -21947; -21762; -21577; -21391; -21205; -21019; -20832; -20644;
-20457; -20268; -20080; -19891; -19701; -19512; -19322; -19131; -18941; -18749; -18558; -18366; -18174; -17982; -17789; -17596;
-17403; -17209; -17015; -16821; -16627; -16432; -16237; -16042; -15847; -15651; -15456; -15260; -15064; -14867; -14671; -14474;
-14277; -14080; -13883; -13685; -13488; -13290; -13093; -12895; -12697; -12499; -12301; -12102; -11904; -11705; -11507; -11308;
-11110; -10911; -10713; -10514; -10315; -10116; -9918; -9719; -9520; -9321; -9122; -8924; -8725; -8526; -8328; -8129;
-7931; -7732; -7534; -7336; -7138; -6940; -6742; -6544; -6346; -6148; -5951; -5753; -5556; -5359; -5162; -4965;
-4769; -4572; -4376; -4180; -3984; -3789; -3593; -3398; -3203; -3008; -2814; -2620; -2426; -2232; -2038; -1845;
-1652; -1460; -1267; -1075; -883; -692; -501; -310; -119; 70; 260; 449; 638; 827; 1016; 1204;
1391; 1579; 1766; 1952; 2138; 2324; 2509; 2694; 2879; 3063; 3246; 3429; 3612; 3794; 3976; 4157;
4338; 4519; 4699; 4878; 5057; 5235; 5413; 5591; 5768; 5944; 6120; 6295; 6470; 6644; 6818; 6991;
7164; 7336; 7507; 7678; 7848; 8018; 8187; 8356; 8524; 8691; 8858; 9024; 9190; 9355; 9519; 9683;
9846; 10008; 10170; 10331; 10491; 10651; 10810; 10969; 11126; 11283; 11440; 11595; 11751; 11905; 12058; 12211;
12364; 12515; 12666; 12816; 12965; 13114; 13262; 13409; 13555; 13701; 13846; 13990; 14134; 14276; 14418; 14559;
14700; 14839; 14978; 15116; 15253; 15390; 15525; 15660; 15794; 15928; 16060; 16192; 16323; 16453; 16582; 16710;
16838; 16965; 17090; 17216; 17340; 17463; 17586; 17707; 17828; 17948; 18067; 18186; 18303; 18420; 18535; 18650;
18764; 18877; 18990; 19101; 19211; 19321; 19430; 19538; 19644; 19751; 19856; 19960; 20063; 20166; 20267; 20368;
20468; 20566; 20664; 20761; 20857; 20953; 21047; 21140; 21233; 21324; 21415; 21504; 21593; 21681; 21768; 21854;
21939; 22023; 22106; 22188; 22269; 22350; 22429; 22508; 22585; 22662; 22737; 22812; 22886; 22958; 23030; 23101;
23171; 23240; 23308; 23375; 23441; 23506; 23571; 23634; 23696; 23758; 23818; 23877; 23936; 23993; 24050; 24106;
24160; 24214; 24267; 24318; 24369; 24419; 24468; 24516; 24563; 24609; 24654; 24698; 24741; 24783; 24825; 24865;
24904; 24942; 24980; 25016; 25052; 25086; 25120; 25152; 25184; 25215; 25245; 25273; 25301; 25328; 25354; 25379;
25403; 25426; 25448; 25470; 25490; 25509; 25528; 25545; 25562; 25577; 25592; 25605; 25618; 25630; 25641; 25651;
25660; 25668; 25675; 25681; 25687; 25691; 25695; 25697; 25699; 25699; 25699; 25698; 25696; 25693; 25689; 25685;
25679; 25672; 25665; 25656; 25647; 25637; 25626; 25614; 25601; 25588; 25573; 25557; 25541; 25524; 25506; 25487;
25467; 25446; 25425; 25402; 25379; 25355; 25330; 25304; 25277; 25249; 25221; 25192; 25161; 25130; 25099; 25066;
25033; 24998; 24963; 24927; 24890; 24853; 24814; 24775; 24735; 24694; 24653; 24610; 24567; 24523; 24478; 24433;
24386; 24339; 24291; 24242; 24193; 24143; 24092; 24040; 23987; 23934; 23880; 23825; 23770; 23713; 23656; 23599;
23540; 23481; 23421; 23360; 23299; 23237; 23174; 23110; 23046; 22981; 22916; 22849; 22782; 22715; 22646; 22577;
22507; 22437; 22366; 22294; 22222; 22149; 22075; 22001; 21926; 21850; 21774; 21697; 21620; 21541; 21463; 21383;
21303; 21223; 21141; 21060; 20977; 20894; 20811; 20727; 20642; 20556; 20471; 20384; 20297; 20210; 20121; 20033;
19943; 19854; 19763; 19673; 19581; 19489; 19397; 19304; 19210; 19117; 19022; 18927; 18832; 18736; 18639; 18542;
18445; 18347; 18249; 18150; 18051; 17951; 17851; 17750; 17649; 17548; 17446; 17343; 17241; 17137; 17034; 16930;
16825; 16721; 16615; 16510; 16404; 16297; 16191; 16083; 15976; 15868; 15760; 15651; 15542; 15433; 15323; 15213;
15103; 14993; 14882; 14770; 14659; 14547; 14435; 14322; 14209; 14096; 13983; 13869; 13755; 13641; 13527; 13412;
13297; 13182; 13066; 12950; 12834; 12718; 12602; 12485; 12368; 12251; 12134; 12016; 11898; 11780; 11662; 11544;
11425; 11307; 11188; 11069; 10949; 10830; 10711; 10591; 10471; 10351; 10231; 10111; 9990; 9870; 9749; 9628;
9508; 9387; 9266; 9144; 9023; 8902; 8780; 8659; 8537; 8416; 8294; 8172; 8050; 7928; 7806; 7684;
7562; 7440; 7318; 7196; 7074; 6952; 6830; 6707; 6585; 6463; 6341; 6219; 6097; 5974; 5852; 5730;
5608; 5486; 5364; 5242; 5120; 4999; 4877; 4755; 4633; 4512; 4390; 4269; 4148; 4026; 3905; 3784;
3663; 3542; 3421; 3301; 3180; 3060; 2940; 2819; 2699; 2579; 2460; 2340; 2221; 2101; 1982; 1863;
1744; 1626; 1507; 1389; 1271; 1153; 1035; 918; 800; 683; 566; 449; 333; 216; 100; -15;
-130; -246; -361; -476; -591; -705; -819; -933; -1047; -1160; -1274; -1387; -1499; -1612; -1724; -1836;
-1947; -2058; -2169; -2280; -2390; -2500; -2610; -2720; -2829; -2938; -3046; -3154; -3262; -3370; -3477; -3584;
-3690; -3797; -3903; -4008; -4113; -4218; -4322; -4427; -4530; -4634; -4737; -4839; -4942; -5043; -5145; -5246;
-5347; -5447; -5547; -5647; -5746; -5844; -5943; -6041; -6138; -6235; -6332; -6428; -6524; -6620; -6715; -6809;
-6903; -6997; -7091; -7183; -7276; -7368; -7459; -7550; -7641; -7731; -7821; -7910; -7999; -8087; -8175; -8263;
-8350; -8436; -8522; -8608; -8693; -8777; -8862; -8945; -9028; -9111; -9193; -9275; -9356; -9437; -9517; -9596;
-9676; -9754; -9832; -9910; -9987; -10064; -10140; -10216; -10291; -10365; -10439; -10513; -10586; -10659; -10731; -10802;
-10873; -10943; -11013; -11083; -11151; -11220; -11287; -11355; -11421; -11487; -11553; -11618; -11682; -11746; -11810; -11872;
-11935; -11996; -12058; -12118; -12178; -12238; -12297; -12355; -12413; -12470; -12527; -12583; -12639; -12694; -12748; -12802;
-12856; -12908; -12961; -13012; -13063; -13114; -13164; -13213; -13262; -13310; -13358; -13405; -13451; -13497; -13543; -13587;
-13632; -13675; -13718; -13761; -13803; -13844; -13885; -13925; -13964; -14003; -14042; -14080; -14117; -14153; -14190; -14225;
-14260; -14294; -14328; -14361; -14394; -14426; -14457; -14488; -14519; -14548; -14577; -14606; -14634; -14661; -14688; -14714;
-14740; -14765; -14790; -14813; -14837; -14860; -14882; -14903; -14924; -14945; -14965; -14984; -15003; -15021; -15038; -15055;
-15072; -15088; -15103; -15118; -15132; -15145; -15158; -15171; -15183; -15194; -15205; -15215; -15224; -15233; -15242; -15250;
-15257; -15264; -15270; -15276; -15281; -15285; -15289; -15293].
Definition mid_ints_20 : list Z := [
-15296; -15298; -15300; -15301; -15302; -15302; -15301; -15300; -15299; -15297; -15294; -15291; -15287; -15283; -15278; -15273;
-15267; -15261; -15254; -15246; -15238; -15230; -15221; -15211; -15201; -15191; -15179; -15168; -15156; -15143; -15130; -15116;
-15102; -15087; -15072; -15056; -15040; -15023; -15006; -14988; -14970; -14951; -14932; -14912; -14892; -14871; -14850; -14828;
-14806; -14783; -14760; -14736; -14712; -14687; -14662; -14637; -14611; -14584; -14557; -14530; -14502; -14473; -14444; -14415;
-14385; -14355; -14325; -14293; -14262; -14230; -14197; -14165; -14131; -14097; -14063; -14029; -13994; -13958; -13922; -13886;
-13849; -13812; -13774; -13736; -13698; -13659; -13620; -13580; -13540; -13499; -13459; -13417; -13376; -13334; -13291; -13248;
-13205; -13162; -13118; -13073; -13028; -12983; -12938; -12892; -12846; -12799; -12752; -12705; -12657; -12609; -12561; -12512;
-12463; -12414; -12364; -12314; -12264; -12213; -12162; -12110; -12059; -12006; -11954; -11901; -11848; -11795; -11741; -11687;
-11633; -11579; -11524; -11468; -11413; -11357; -11301; -11245; -11188; -11131; -11074; -11017; -10959; -10901; -10843; -10784;
-10725; -10666; -10607; -10547; -10487; -10427; -10367; -10306; -10246; -10185; -10123; -10062; -10000; -9938; -9876; -9813;
-9751; -9688; -9625; -9561; -9498; -9434; -9370; -9306; -9242; -9177; -9113; -9048; -8983; -8917; -8852; -8786;
-8720; -8654; -8588; -8522; -8455; -8389; -8322; -8255; -8188; -8121; -8053; -7986; -7918; -7850; -7782; -7714;
-7646; -7577; -7509; -7440; -7371; -7302; -7233; -7164; -7095; -7026; -6956; -6887; -6817; -6747; -6678; -6608;
-6538; -6468; -6397; -6327; -6257; -6187; -6116; -6045; -5975; -5904; -5833; -5763; -5692; -5621; -5550; -5479;
-5408; -5337; -5266; -5195; -5123; -5052; -4981; -4910; -4838; -4767; -4696; -4624; -4553; -4482; -4410; -4339;
-4267; -4196; -4125; -4053; -3982; -3910; -3839; -3768; -3696; -3625; -3554; -3483; -3411; -3340; -3269; -3198;
-3127; -3056; -2985; -2914; -2843; -2772; -2701; -2630; -2560; -2489; -2418; -2348; -2278; -2207; -2137; -2067;
-1997; -1926; -1857; -1787; -1717; -1647; -1577; -1508; -1439; -1369; -1300; -1231; -1162; -1093; -1024; -955;
-887; -818; -750; -682; -614; -546; -478; -410; -343; -275; -208; -141; -74; -7; 59; 126;
192; 258; 324; 390; 456; 522; 587; 653; 718; 783; 848; 912; 977; 1041; 1105; 1169;
1233; 1297; 1360; 1423; 1486; 1549; 1612; 1674; 1736; 1798; 1860; 1922; 1983; 2044; 2105; 2166;
2227; 2287; 2347; 2407; 2467; 2527; 2586; 2645; 2704; 2762; 2821; 2879; 2937; 2995; 3052; 3109;
3166; 3223; 3279; 3336; 3392; 3448; 3503; 3558; 3613; 3668; 3723; 3777; 3831; 3885; 3938; 3991;
4044; 4097; 4149; 4202; 4254; 4305; 4357; 4408; 4458; 4509; 4559; 4609; 4659; 4708; 4758; 4807;
4855; 4903; 4951; 4999; 5047; 5094; 5141; 5187; 5234; 5280; 5325; 5371; 5416; 5461; 5505; 5550;
5594; 5637; 5681; 5724; 5766; 5809; 5851; 5893; 5934; 5975; 6016; 6057; 6097; 6137; 6177; 6216;
6255; 6294; 6332; 6371; 6408; 6446; 6483; 6520; 6556; 6593; 6628; 6664; 6699; 6734; 6769; 6803;
6837; 6871; 6904; 6937; 6970; 7002; 7034; 7066; 7097; 7128; 7159; 7189; 7219; 7249; 7278; 7307;
7336; 7364; 7392; 7420; 7448; 7475; 7501; 7528; 7554; 7580; 7605; 7630; 7655; 7679; 7704; 7727;
7751; 7774; 7797; 7819; 7841; 7863; 7884; 7905; 7926; 7947; 7967; 7986; 8006; 8025; 8044; 8062;
8080; 8098; 8115; 8133; 8149; 8166; 8182; 8198; 8213; 8228; 8243; 8257; 8272; 8285; 8299; 8312;
8325; 8337; 8349; 8361; 8373; 8384; 8394; 8405; 8415; 8425; 8434; 8444; 8452; 8461; 8469; 8477;
8485; 8492; 8499; 8505; 8512; 8518; 8523; 8528; 8533; 8538; 8542; 8546; 8550; 8553; 8557; 8559;
8562; 8564; 8566; 8567; 8568; 8569; 8570; 8570; 8570; 8569; 8569; 8568; 8566; 8565; 8563; 8561;
8558; 8555; 8552; 8549; 8545; 8541; 8537; 8532; 8527; 8522; 8516; 8510; 8504; 8498; 8491; 8484;
8477; 8469; 8461; 8453; 8445; 8436; 8427; 8418; 8408; 8398; 8388; 8378; 8367; 8356; 8345; 8333;
8321; 8309; 8297; 8284; 8271; 8258; 8245; 8231; 8217; 8203; 8188; 8174; 8159; 8143; 8128; 8112;
8096; 8080; 8063; 8046; 8029; 8012; 7994; 7977; 7958; 7940; 7922; 7903; 7884; 7864; 7845; 7825;
7805; 7785; 7764; 7744; 7723; 7702; 7680; 7659; 7637; 7615; 7592; 7570; 7547; 7524; 7501; 7478;
7454; 7430; 7406; 7382; 7357; 7333; 7308; 7283; 7257; 7232; 7206; 7180; 7154; 7128; 7102; 7075;
7048; 7021; 6994; 6966; 6939; 6911; 6883; 6855; 6826; 6798; 6769; 6740; 6711; 6682; 6652; 6623;
6593; 6563; 6533; 6502; 6472; 6441; 6411; 6380; 6349; 6317; 6286; 6255; 6223; 6191; 6159; 6127;
6095; 6062; 6030; 5997; 5964; 5931; 5898; 5865; 5831; 5798; 5764; 5730; 5696; 5662; 5628; 5594;
5559; 5525; 5490; 5456; 5421; 5386; 5351; 5315; 5280; 5245; 5209; 5174; 5138; 5102; 5066; 5030;
4994; 4958; 4921; 4885; 4848; 4812; 4775; 4738; 4702; 4665; 4628; 4591; 4553; 4516; 4479; 4442;
4404; 4367; 4329; 4291; 4254; 4216; 4178; 4140; 4102; 4064; 4026; 3988; 3950; 3912; 3873; 3835;
3797; 3758; 3720; 3681; 3643; 3604; 3566; 3527; 3488; 3449; 3411; 3372; 3333; 3294; 3255; 3217;
3178; 3139; 3100; 3061; 3022; 2983; 2944; 2905; 2866; 2827; 2788; 2749; 2710; 2671; 2632; 2592;
2553; 2514; 2475; 2436; 2397; 2358; 2319; 2280; 2241; 2202; 2163; 2124; 2085; 2046; 2008; 1969;
1930; 1891; 1852; 1814; 1775; 1736; 1697; 1659; 1620; 1582; 1543; 1505; 1466; 1428; 1389; 1351;
1313; 1275; 1236; 1198; 1160; 1122; 1084; 1046; 1008; 971; 933; 895; 858; 820; 783; 745;
708; 671; 633; 596; 559; 522; 485; 448; 411; 375; 338; 301; 265; 229; 192; 156;
120; 84; 48; 12; -23; -59; -94; -130; -165; -200; -236; -271; -306; -341; -376; -410;
-445; -480; -514; -548; -583; -617; -651; -685; -718; -752; -786; -819; -852; -886; -919; -952;
-984; -1017; -1050; -1082; -1115; -1147; -1179; -1211; -1243; -1275; -1306; -1338; -1369; -1401; -1432; -1463;
-1494; -1524; -1555; -1585; -1616; -1646; -1676; -1706; -1736; -1765; -1795; -1824; -1853; -1882; -1911; -1940;
-1969; -1997; -2026; -2054; -2082; -2110; -2138; -2165; -2193; -2220; -2247; -2274; -2301; -2328; -2354; -2381;
-2407; -2433; -2459; -2485; -2510; -2536; -2561; -2586; -2611; -2636; -2661; -2685; -2710; -2734; -2758; -2782;
-2805; -2829; -2852; -2875; -2898; -2921; -2944; -2967; -2989; -3011; -3033; -3055; -3077; -3098; -3120; -3141;
-3162; -3183; -3203; -3224; -3244; -3264; -3284; -3304; -3324; -3343; -3363; -3382; -3401; -3420; -3438; -3457;
-3475; -3493; -3511; -3529; -3546; -3564; -3581; -3598; -3615; -3631; -3648; -3664; -3680; -3696; -3712; -3728;
-3743; -3759; -3774; -3789; -3803; -3818; -3832; -3847; -3861; -3874; -3888; -3902; -3915; -3928; -3941; -3954;
-3966; -3979; -3991; -4003; -4015; -4027; -4038; -4050].
Definition mid_ints_21 : list Z := [
-4061; -4072; -4082; -4093; -4104; -4114; -4124; -4134; -4144; -4153; -4163; -4172; -4181; -4190; -4198; -4207;
-4215; -4223; -4231; -4239; -4247; -4254; -4261; -4269; -4275; -4282; -4289; -4295; -4301; -4307; -4313; -4319;
-4325; -4330; -4335; -4340; -4345; -4350; -4354; -4358; -4362; -4366; -4370; -4374; -4377; -4381; -4384; -4387;
-4389; -4392; -4394; -4397; -4399; -4401; -4403; -4404; -4406; -4407; -4408; -4409; -4410; -4410; -4411; -4411;
-4411; -4411; -4411; -4411; -4410; -4409; -4409; -4408; -4406; -4405; -4404; -4402; -4400; -4398; -4396; -4394;
-4391; -4389; -4386; -4383; -4380; -4377; -4374; -4370; -4366; -4363; -4359; -4355; -4350; -4346; -4341; -4337;
-4332; -4327; -4322; -4316; -4311; -4305; -4300; -4294; -4288; -4282; -4275; -4269; -4262; -4256; -4249; -4242;
-4235; -4228; -4220; -4213; -4205; -4197; -4189; -4181; -4173; -4165; -4156; -4148; -4139; -4130; -4121; -4112;
-4103; -4094; -4084; -4074; -4065; -4055; -4045; -4035; -4025; -4014; -4004; -3993; -3983; -3972; -3961; -3950;
-3939; -3927; -3916; -3905; -3893; -3881; -3869; -3857; -3845; -3833; -3821; -3809; -3796; -3784; -3771; -3758;
-3745; -3732; -3719; -3706; -3693; -3679; -3666; -3652; -3638; -3625; -3611; -3597; -3583; -3568; -3554; -3540;
-3525; -3511; -3496; -3481; -3467; -3452; -3437; -3422; -3407; -3391; -3376; -3361; -3345; -3330; -3314; -3298;
-3282; -3267; -3251; -3235; -3219; -3202; -3186; -3170; -3153; -3137; -3120; -3104; -3087; -3070; -3054; -3037;
-3020; -3003; -2986; -2969; -2952; -2934; -2917; -2900; -2882; -2865; -2847; -2830; -2812; -2794; -2777; -2759;
-2741; -2723; -2705; -2687; -2669; -2651; -2633; -2615; -2596; -2578; -2560; -2541; -2523; -2504; -2486; -2467;
-2449; -2430; -2412; -2393; -2374; -2355; -2337; -2318; -2299; -2280; -2261; -2242; -2223; -2204; -2185; -2166;
-2147; -2128; -2109; -2090; -2071; -2051; -2032; -2013; -1994; -1974; -1955; -1936; -1916; -1897; -1878; -1858;
-1839; -1820; -1800; -1781; -1761; -1742; -1722; -1703; -1683; -1664; -1645; -1625; -1606; -1586; -1567; -1547;
-1528; -1508; -1489; -1469; -1450; -1430; -1411; -1391; -1372; -1352; -1333; -1313; -1294; -1274; -1255; -1236;
-1216; -1197; -1177; -1158; -1139; -1119; -1100; -1081; -1061; -1042; -1023; -1004; -984; -965; -946; -927;
-908; -889; -870; -850; -831; -812; -793; -774; -755; -737; -718; -699; -680; -661; -642; -624;
-605; -586; -568; -549; -530; -512; -493; -475; -457; -438; -420; -402; -383; -365; -347; -329;
-311; -293; -274; -257; -239; -221; -203; -185; -167; -150; -132; -114; -97; -79; -62; -44;
-27; -10; 7; 24; 41; 58; 75; 92; 109; 126; 143; 160; 176; 193; 210; 226;
243; 259; 275; 292; 308; 324; 340; 356; 372; 388; 404; 420; 436; 451; 467; 483;
498; 514; 529; 544; 559; 575; 590; 605; 620; 635; 649; 664; 679; 693; 708; 722;
737; 751; 765; 780; 794; 808; 822; 836; 849; 863; 877; 890; 904; 917; 931; 944;
957; 970; 983; 996; 1009; 1022; 1035; 1048; 1060; 1073; 1085; 1097; 1110; 1122; 1134; 1146;
1158; 1170; 1182; 1193; 1205; 1217; 1228; 1239; 1251; 1262; 1273; 1284; 1295; 1306; 1317; 1328;
1338; 1349; 1359; 1370; 1380; 1390; 1400; 1410; 1420; 1430; 1440; 1450; 1459; 1469; 1478; 1488;
1497; 1506; 1515; 1525; 1533; 1542; 1551; 1560; 1568; 1577; 1585; 1594; 1602; 1610; 1618; 1626;
1634; 1642; 1650; 1657; 1665; 1672; 1680; 1687; 1694; 1701; 1708; 1715; 1722; 1729; 1736; 1742;
1749; 1755; 1762; 1768; 1774; 1780; 1786; 1792; 1798; 1804; 1809; 1815; 1820; 1826; 1831; 1836;
1842; 1847; 1852; 1856; 1861; 1866; 1871; 1875; 1880; 1884; 1888; 1892; 1896; 1901; 1904; 1908;
1912; 1916; 1919; 1923; 1926; 1930; 1933; 1936; 1939; 1942; 1945; 1948; 1951; 1953; 1956; 1959;
1961; 1963; 1966; 1968; 1970; 1972; 1974; 1976; 1978; 1979; 1981; 1982; 1984; 1985; 1987; 1988;
1989; 1990; 1991; 1992; 1993; 1993; 1994; 1995; 1995; 1996; 1996; 1996; 1996; 1997; 1997; 1997;
1996; 1996; 1996; 1996; 1995; 1995; 1994; 1994; 1993; 1992; 1991; 1990; 1989; 1988; 1987; 1986;
1985; 1983; 1982; 1980; 1979; 1977; 1976; 1974; 1972; 1970; 1968; 1966; 1964; 1962; 1959; 1957;
1955; 1952; 1950; 1947; 1944; 1942; 1939; 1936; 1933; 1930; 1927; 1924; 1921; 1918; 1914; 1911;
1908; 1904; 1901; 1897; 1893; 1890; 1886; 1882; 1878; 1874; 1870; 1866; 1862; 1858; 1854; 1849;
1845; 1840; 1836; 1831; 1827; 1822; 1818; 1813; 1808; 1803; 1798; 1793; 1788; 1783; 1778; 1773;
1768; 1763; 1757; 1752; 1746; 1741; 1736; 1730; 1724; 1719; 1713; 1707; 1702; 1696; 1690; 1684;
1678; 1672; 1666; 1660; 1654; 1648; 1641; 1635; 1629; 1622; 1616; 1610; 1603; 1597; 1590; 1584;
1577; 1570; 1564; 1557; 1550; 1543; 1536; 1530; 1523; 1516; 1509; 1502; 1495; 1488; 1481; 1473;
1466; 1459; 1452; 1445; 1437; 1430; 1423; 1415; 1408; 1400; 1393; 1385; 1378; 1370; 1363; 1355;
1348; 1340; 1332; 1325; 1317; 1309; 1301; 1294; 1286; 1278; 1270; 1262; 1254; 1246; 1238; 1230;
1222; 1214; 1206; 1198; 1190; 1182; 1174; 1166; 1158; 1150; 1142; 1134; 1125; 1117; 1109; 1101;
1093; 1084; 1076; 1068; 1059; 1051; 1043; 1035; 1026; 1018; 1010; 1001; 993; 985; 976; 968;
959; 951; 943; 934; 926; 917; 909; 900; 892; 884; 875; 867; 858; 850; 841; 833;
824; 816; 808; 799; 791; 782; 774; 765; 757; 748; 740; 731; 723; 715; 706; 698;
689; 681; 672; 664; 656; 647; 639; 630; 622; 614; 605; 597; 589; 580; 572; 564;
555; 547; 539; 530; 522; 514; 506; 497; 489; 481; 473; 464; 456; 448; 440; 432;
424; 416; 407; 399; 391; 383; 375; 367; 359; 351; 343; 335; 327; 319; 311; 303;
296; 288; 280; 272; 264; 257; 249; 241; 233; 226; 218; 210; 203; 195; 187; 180;
172; 165; 157; 150; 142; 135; 127; 120; 113; 105; 98; 91; 84; 76; 69; 62;
55; 48; 40; 33; 26; 19; 12; 5; -1; -8; -15; -21; -28; -35; -42; -49;
-55; -62; -69; -75; -82; -89; -95; -102; -108; -115; -121; -127; -134; -140; -146; -153;
-159; -165; -171; -178; -184; -190; -196; -202; -208; -214; -220; -226; -232; -237; -243; -249;
-255; -260; -266; -272; -277; -283; -288; -294; -299; -305; -310; -315; -321; -326; -331; -337;
-342; -347; -352; -357; -362; -367; -372; -377; -382; -387; -392; -397; -401; -406; -411; -415;
-420; -425; -429; -434; -438; -443; -447; -451; -456; -460; -464; -468; -473; -477; -481; -485;
-489; -493; -497; -501; -505; -509; -513; -516].
Definition mid_ints_22 : list Z := [
-520; -524; -527; -531; -535; -538; -542; -545; -549; -552; -556; -559; -562; -565; -569; -572;
-575; -578; -581; -584; -587; -590; -593; -596; -599; -602; -605; -607; -610; -613; -615; -618;
-621; -623; -626; -628; -630; -633; -635; -638; -640; -642; -644; -646; -649; -651; -653; -655;
-657; -659; -661; -663; -664; -666; -668; -670; -672; -673; -675; -676; -678; -680; -681; -683;
-684; -685; -687; -688; -689; -691; -692; -693; -694; -695; -696; -697; -699; -699; -700; -701;
-702; -703; -704; -705; -706; -706; -707; -708; -708; -709; -709; -710; -710; -711; -711; -712;
-712; -712; -713; -713; -713; -714; -714; -714; -714; -714; -714; -714; -714; -714; -714; -714;
-714; -714; -714; -714; -713; -713; -713; -712; -712; -712; -711; -711; -710; -710; -709; -709;
-708; -708; -707; -707; -706; -705; -704; -704; -703; -702; -701; -700; -700; -699; -698; -697;
-696; -695; -694; -693; -692; -691; -689; -688; -687; -686; -685; -683; -682; -681; -680; -678;
-677; -675; -674; -673; -671; -670; -668; -667; -665; -664; -662; -661; -659; -657; -656; -654;
-652; -651; -649; -647; -645; -643; -642; -640; -638; -636; -634; -632; -630; -628; -627; -625;
-623; -621; -619; -617; -614; -612; -610; -608; -606; -604; -602; -600; -597; -595; -593; -591;
-589; -586; -584; -582; -579; -577; -575; -572; -570; -568; -565; -563; -561; -558; -556; -553;
-551; -548; -546; -543; -541; -538; -536; -533; -531; -528; -526; -523; -521; -518; -515; -513;
-510; -508; -505; -502; -500; -497; -494; -492; -489; -486; -484; -481; -478; -476; -473; -470;
-467; -465; -462; -459; -456; -454; -451; -448; -445; -442; -440; -437; -434; -431; -428; -426;
-423; -420; -417; -414; -411; -409; -406; -403; -400; -397; -394; -392; -389; -386; -383; -380;
-377; -374; -371; -369; -366; -363; -360; -357; -354; -351; -349; -346; -343; -340; -337; -334;
-331; -328; -326; -323; -320; -317; -314; -311; -308; -306; -303; -300; -297; -294; -291; -288;
-286; -283; -280; -277; -274; -271; -269; -266; -263; -260; -257; -255; -252; -249; -246; -243;
-241; -238; -235; -232; -230; -227; -224; -221; -219; -216; -213; -210; -208; -205; -202; -200;
-197; -194; -192; -189; -186; -184; -181; -178; -176; -173; -171; -168; -165; -163; -160; -158;
-155; -152; -150; -147; -145; -142; -140; -137; -135; -132; -130; -127; -125; -122; -120; -117;
-115; -113; -110; -108; -105; -103; -101; -98; -96; -94; -91; -89; -87; -84; -82; -80;
-78; -75; -73; -71; -69; -66; -64; -62; -60; -58; -55; -53; -51; -49; -47; -45;
-43; -41; -39; -36; -34; -32; -30; -28; -26; -24; -22; -20; -18; -17; -15; -13;
-11; -9; -7; -5; -3; 0].
Definition mid_ints : list Z := mid_ints_0 ++ mid_ints_1 ++ mid_ints_2 ++ mid_ints_3 ++ mid_ints_4 ++ mid_ints_5 ++ mid_ints_6 ++ mid_ints_7 ++ mid_ints_8 ++ mid_ints_9 ++ mid_ints_10 ++ mid_ints_11 ++ mid_ints_12 ++ mid_ints_13 ++ mid_ints_14 ++ mid_ints_15 ++ mid_ints_16 ++ mid_ints_17 ++ mid_ints_18 ++ mid_ints_19 ++ mid_ints_20 ++ mid_ints_21 ++ mid_ints_22.

Lemma mid_same : same_units (snd mid_qual_table) mid_ints = true.
Proof. vm_cast_no_check (eq_refl true). Qed.
