(** The coefficient table of /repo/src/mid_qual_coeffs.h:23-22468, copied digit for digit: (m, k) stands for the decimal m / 10^k.
    Generated once by a script from the C source; the number of entries and the increment are as declared there. *)
From Coq Require Import ZArith List.
Import ListNotations.
Local Open Scope Z_scope.

Definition mid_increment : Z := 491.
Definition mid_0 : list (Z * Z) := [
(9190632349861385109,19);
(9190579273831620544,19);
(9190420046848706281,19);
(9190154672231939381,19);
(9189783155513205903,19);
(9189305504437105254,19);
(9188721728960548285,19);
(9188031841252660703,19);
(9187235855694375619,19);
(9186333788878118245,19);
(9185325659607400661,19);
(9184211488896345532,19);
(9182991299969165411,19);
(9181665118259576541,19);
(9180232971410120513,19);
(9178694889271632462,19);
(9177050903902308487,19);
(9175301049567006206,19);
(9173445362736407649,19);
(9171483882086021167,19);
(9169416648495360977,19);
(9167243705046783653,19);
(9164965097024515561,19);
(9162580871913481584,19);
(9160091079398144931,19);
(9157495771361238157,19);
(9154795001882498617,19);
(9151988827237356183,19);
(9149077305895451095,19);
(9146060498519228421,19);
(9142938467962469229,19);
(9139711279268634136,19);
(9136378999669314549,19);
(9132941698582575096,19);
(9129399447611106222,19);
(9125752320540596596,19);
(9122000393337836854,19);
(9118143744148777818,19);
(9114182453296666431,19);
(9110116603280005165,19);
(9105946278770478131,19);
(9101671566610971542,19);
(9097292555813195625,19);
(9092809337555683991,19);
(9088222005181412211,19);
(9083530654195477450,19);
(9078735382262775877,19);
(9073836289205553518,19);
(9068833477000901588,19);
(9063727049778221856,19);
(9058517113816679789,19);
(9053203777542537800,19);
(9047787151526440752,19);
(9042267348480692579,19);
(9036644483256435212,19);
(9030918672840801964,19);
(9025090036354035394,19);
(9019158695046503027,19);
(9013124772295638687,19);
(9006988393602999299,19);
(9000749686590990839,19);
(8994408780999827435,19);
(8987965808684226232,19);
(8981420903610175532,19)].
Definition mid_1 : list (Z * Z) := [
(8974774201851590805,19);
(8968025841586921842,19);
(8961175963095725505,19);
(8954224708755219586,19);
(8947172223036650163,19);
(8940018652501846574,19);
(8932764145799431121,19);
(8925408853661255248,19);
(8917952928898525977,19);
(8910396526398144390,19);
(8902739803118754347,19);
(8894982918086901114,19);
(8887126032393080077,19);
(8879169309187701087,19);
(8871112913677079437,19);
(8862957013119301397,19);
(8854701776820081971,19);
(8846347376128601558,19);
(8837893984433177197,19);
(8829341777157024840,19);
(8820690931753858433,19);
(8811941627703521185,19);
(8803094046507521364,19);
(8794148371684512577,19);
(8785104788765752959,19);
(8775963485290545485,19);
(8766724650801458463,19);
(8757388476839771396,19);
(8747955156940626642,19);
(8738424886628276544,19);
(8728797863411223990,19);
(8719074286777279692,19);
(8709254358188718292,19);
(8699338281077153567,19);
(8689326260838612370,19);
(8679218504828314362,19);
(8669015222355691552,19);
(8658716624679085871,19);
(8648322925000503369,19);
(8637834338460406158,19);
(8627251082132331161,19);
(8616573375017505532,19);
(8605801438039482054,19);
(8594935494038545842,19);
(8583975767766348630,19);
(8572922485880160037,19);
(8561775876937460783,19);
(8550536171390092921,19);
(8539203601578667646,19);
(8527778401726748836,19);
(8516260807935129851,19);
(8504651058175859424,19);
(8492949392286508470,19);
(8481156051964116038,19);
(8469271280759230747,19);
(8457295324069898923,19);
(8445228429135611670,19);
(8433070845031135354,19);
(8420822822660410933,19);
(8408484614750260100,19);
(8396056475844214662,19);
(8383538662296191601,19);
(8370931432264129279,19);
(8358235045703655830,19)].
Definition mid_2 : list (Z * Z) := [
(8345449764361591027,19);
(8332575851769530306,19);
(8319613573237311099,19);
(8306563195846453640,19);
(8293424988443554025,19);
(8280199221633630646,19);
(8266886167773459526,19);
(8253486100964876337,19);
(8239999297047861937,19);
(8226426033593938758,19);
(8212766589899133107,19);
(8199021246977172828,19);
(8185190287552487343,19);
(8171273996053307620,19);
(8157272658604564075,19);
(8143186563020841096,19);
(8129015998799332676,19);
(8114761257112590442,19);
(8100422630801440427,19);
(8086000414367682243,19);
(8071494903966890400,19);
(8056906397400991349,19);
(8042235194111070351,19);
(8027481595169910777,19);
(8012645903274501213,19);
(7997728422738685783,19);
(7982729459485642387,19);
(7967649321040266575,19);
(7952488316521624245,19);
(7937246756635402134,19);
(7921924953666147351,19);
(7906523221469667906,19);
(7891041875465214517,19);
(7875481232627762340,19);
(7859841611480169465,19);
(7844123332085419786,19);
(7828326716038601640,19);
(7812452086459110712,19);
(7796499767982624229,19);
(7780470086753159542,19);
(7764363370415053867,19);
(7748179948104801928,19);
(7731920150443076789,19);
(7715584309526551943,19);
(7699172758919735626,19);
(7682685833646747398,19);
(7666123870183109146,19);
(7649487206447473930,19);
(7632776181793284875,19);
(7615991137000481803,19);
(7599132414267077973,19);
(7582200357200843399,19);
(7565195310810692852,19);
(7548117621498410257,19);
(7530967637050012264,19);
(7513745706627268373,19);
(7496452180759085593,19);
(7479087411332924207,19);
(7461651751586176884,19);
(7444145556097488958,19);
(7426569180778060941,19);
(7408922982862901074,19);
(7391207320902084543,19);
(7373422554751976055,19)].
Definition mid_3 : list (Z * Z) := [
(7355569045566335840,19);
(7337647155787578868,19);
(7319657249137790922,19);
(7301599690609852367,19);
(7283474846458531937,19);
(7265283084191426211,19);
(7247024772560038963,19);
(7228700281550752837,19);
(7210309982375715521,19);
(7191854247463771443,19);
(7173333450451372384,19);
(7154747966173405915,19);
(7136098170654050499,19);
(7117384441097539538,19);
(7098607155879003150,19);
(7079766694535134519,19);
(7060863437754946181,19);
(7041897767370496330,19);
(7022870066347511875,19);
(7003780718776047021,19);
(6984630109861137415,19);
(6965418625913292194,19);
(6946146654339206972,19);
(6926814583632128208,19);
(6907422803362553987,19);
(6887971704168563969,19);
(6868461677746440230,19);
(6848893116840982787,19);
(6829266415235965004,19);
(6809581967744615660,19);
(6789840170199873404,19);
(6770041419444806641,19);
(6750186113322906856,19);
(6730274650668458536,19);
(6710307431296762548,19);
(6690284855994397262,19);
(6670207326509497436,19);
(6650075245541966495,19);
(6629889016733656604,19);
(6609649044658548744,19);
(6589355734812931686,19);
(6569009493605521000,19);
(6548610728347569188,19);
(6528159847243016900,19);
(6507657259378472059,19);
(6487103374713369952,19);
(6466498604069961242,19);
(6445843359123345495,19);
(6425138052391472510,19);
(6404383097225108123,19);
(6383578907797843316,19);
(6362725899096030036,19);
(6341824486908668179,19);
(6320875087817382498,19);
(6299878119186311798,19);
(6278833999151931522,19);
(6257743146613017338,19);
(6236605981220407768,19);
(6215422923366868968,19);
(6194194394176928409,19);
(6172920815496674152,19);
(6151602609883521922,19);
(6130240200596011046,19);
(6108834011583562651,19)].
Definition mid_4 : list (Z * Z) := [
(6087384467476207872,19);
(6065891993574344943,19);
(6044357015838404124,19);
(6022779960878675842,19);
(6001161255944840178,19);
(5979501328915760583,19);
(5957800608289128830,19);
(5936059523171076657,19);
(5914278503265888443,19);
(5892457978865548451,19);
(5870598380839474606,19);
(5848700140623979138,19);
(5826763690212029001,19);
(5804789462142687650,19);
(5782777889490804402,19);
(5760729405856517271,19);
(5738644445354834644,19);
(5716523442605190297,19);
(5694366832720955118,19);
(5672175051299007675,19);
(5649948534409220402,19);
(5627687718583990195,19);
(5605393040807753469,19);
(5583064938506450137,19);
(5560703849537081966,19);
(5538310212177105507,19);
(5515884465114002655,19);
(5493427047434678023,19);
(5470938398614946241,19);
(5448418958509020360,19);
(5425869167338921439,19);
(5403289465683932535,19);
(5380680294470076008,19);
(5358042094959520885,19);
(5335375308740007982,19);
(5312680377714298352,19);
(5289957744089563985,19);
(5267207850366882882,19);
(5244431139330546499,19);
(5221628054037583677,19);
(5198799037807055878,19);
(5175944534209612202,19);
(5153064987056736879,19);
(5130160840390248778,19);
(5107232538471692118,19);
(5084280525771708303,19);
(5061305246959465487,19);
(5038307146892031518,19);
(5015286670603764652,19);
(4992244263295749218,19);
(4969180370325161356,19);
(4946095437194681921,19);
(4922989909541840015,19);
(4899864233128516933,19);
(4876718853830233624,19);
(4853554217625615785,19);
(4830370770585796225,19);
(4807168958863756725,19);
(4783949228683817001,19);
(4760712026330969904,19);
(4737457798140347620,19);
(4714186990486617379,19);
(4690900049773344405,19);
(4667597422422511966,19)].
Definition mid_5 : list (Z * Z) := [
(4644279554863849913,19);
(4620946893524336962,19);
(4597599884817572535,19);
(4574238975133261276,19);
(4550864610826618750,19);
(4527477238207830434,19);
(4504077303531530130,19);
(4480665252986199554,19);
(4457241532683687835,19);
(4433806588648644964,19);
(4410360866808032965,19);
(4386904812980580992,19);
(4363438872866268747,19);
(4339963492035851522,19);
(4316479115920361376,19);
(4292986189800601093,19);
(4269485158796667568,19);
(4245976467857516812,19);
(4222460561750463470,19);
(4198937885050729735,19);
(4175408882131029231,19);
(4151873997151118156,19);
(4128333674047376389,19);
(4104788356522376391,19);
(4081238488034499290,19);
(4057684511787542636,19);
(4034126870720317060,19);
(4010566007496311758,19);
(3987002364493300588,19);
(3963436383793022544,19);
(3939868507170818934,19);
(3916299176085331069,19);
(3892728831668186840,19);
(3869157914713690083,19);
(3845586865668559340,19);
(3822016124621629984,19);
(3798446131293629069,19);
(3774877325026881336,19);
(3751310144775131805,19);
(3727745029093312845,19);
(3704182416127326238,19);
(3680622743603884639,19);
(3657066448820316396,19);
(3633513968634422553,19);
(3609965739454338851,19);
(3586422197228419373,19);
(3562883777435115751,19);
(3539350915072877468,19);
(3515824044650110447,19);
(3492303600175108436,19);
(3468790015145981065,19);
(3445283722540682936,19);
(3421785154806974427,19);
(3398294743852442457,19);
(3374812921034551771,19);
(3351340117150671816,19);
(3327876762428151336,19);
(3304423286514424074,19);
(3280980118467101692,19);
(3257547686744098892,19);
(3234126419193791291,19);
(3210716743045173849,19);
(3187319084898069810,19);
(3163933870713313556,19)].
Definition mid_6 : list (Z * Z) := [
(3140561525802987863,19);
(3117202474820692792,19);
(3093857141751790718,19);
(3070525949903712415,19);
(3047209321896293677,19);
(3023907679652058089,19);
(3000621444386648573,19);
(2977351036599155676,19);
(2954096876062539678,19);
(2930859381814076015,19);
(2907638972145774048,19);
(2884436064594896321,19);
(2861251075934408972,19);
(2838084422163551501,19);
(2814936518498354356,19);
(2791807779362223130,19);
(2768698618376533860,19);
(2745609448351263859,19);
(2722540681275621988,19);
(2699492728308742207,19);
(2676465999770359372,19);
(2653460905131571068,19);
(2630477853005538380,19);
(2607517251138323777,19);
(2584579506399626303,19);
(2561665024773684407,19);
(2538774211350079968,19);
(2515907470314657779,19);
(2493065204940423107,19);
(2470247817578479221,19);
(2447455709649018207,19);
(2424689281632305682,19);
(2401948933059702695,19);
(2379235062504720111,19);
(2356548067574134042,19);
(2333888344899041900,19);
(2311256290126076363,19);
(2288652297908512490,19);
(2266076761897511394,19);
(2243530074733340873,19);
(2221012628036639069,19);
(2198524812399700601,19);
(2176067017377827095,19);
(2153639631480640526,19);
(2131243042163519785,19);
(2108877635818975083,19);
(2086543797768119768,19);
(2064241912252161304,19);
(2041972362423890019,19);
(2019735530339234475,19);
(1997531796948866234,19);
(1975361542089770495,19);
(1953225144476904152,19);
(1931122981694899932,19);
(1909055430189743885,19);
(1887022865260525595,19);
(1865025661051234740,19);
(1843064190542557934,19);
(1821138825543719975,19);
(1799249936684388651,19);
(1777397893406555962,19);
(1755583063956519529,19);
(1733805815376853743,19);
(1712066513498422260,19)].
Definition mid_7 : list (Z * Z) := [
(1690365522932452125,19);
(1668703207062609550,19);
(1647079928037134544,19);
(1625496046760998015,19);
(1603951922888105230,19);
(1582447914813536749,19);
(1560984379665793786,19);
(1539561673299155720,19);
(1518180150285969310,19);
(1496840163909078092,19);
(1475542066154204024,19);
(1454286207702433220,19);
(1433072937922706958,19);
(1411902604864334054,19);
(1390775555249584849,19);
(1369692134466284628,19);
(1348652686560476988,19);
(1327657554229089709,19);
(1306707078812674727,19);
(1285801600288170587,19);
(1264941457261690716,19);
(1244126986961386766,19);
(1223358525230311133,19);
(1202636406519352608,19);
(1181960963880184096,19);
(1161332528958274463,19);
(1140751431985919384,19);
(1120218001775331595,19);
(1099732565711753762,19);
(1079295449746630053,19);
(1058906978390803943,19);
(1038567474707753902,19);
(1018277260306897219,19);
(9980366553368975879,20);
(9778459784790455300,20);
(9577055469406584032,20);
(9376156764485409079,20);
(9175766812424655805,20);
(8975888740687235079,20);
(8776525661736865602,20);
(8577680672974313802,20);
(8379356856674115284,20);
(8181557279921417014,20);
(7984284994549635528,20);
(7787543037078317743,20);
(7591334428651391741,20);
(7395662174976043446,20);
(7200529266261787575,20);
(7005938677160263028,20);
(6811893366705192021,20);
(6618396278252910991,20);
(6425450339423315060,20);
(6233058462041313197,20);
(6041223542078567182,20);
(5849948459595861322,20);
(5659236078685713628,20);
(5469089247415612892,20);
(5279510797771662378,20);
(5090503545602581559,20);
(4902070290564224803,20);
(4714213816064585783,20);
(4526936889209169645,20);
(4340242260746868946,20);
(4154132665016377346,20)].
Definition mid_8 : list (Z * Z) := [
(3968610819892821884,20);
(3783679426735115509,20);
(3599341170333596185,20);
(3415598718858217642,20);
(3232454723807156455,20);
(3049911819955901035,20);
(2867972625306763890,20);
(2686639741038932688,20);
(2505915751458907478,20);
(2325803223951459012,20);
(2146304708931060651,20);
(1967422739793688383,20);
(1789159832869266151,20);
(1611518487374387701,20);
(1434501185365678888,20);
(1258110391693542836,20);
(1082348553956342420,20);
(9072181024551642312,21);
(7327214501490089335,21);
(5588609926104382876,21);
(3856391079816731595,21);
(2130581569313045372,21);
(4112048261128918277,22);
(-1301715893853703891,21);
(-3008157510666674764,21);
(-4708097120829565600,21);
(-6401511997679847077,21);
(-8088379591793346673,21);
(-9768677531385444243,21);
(-1144238362270462092,20);
(-1310947585042377024,20);
(-1476993237802585839,20);
(-1642373154818383557,20);
(-1807085188313660440,20);
(-1971127208506028711,20);
(-2134497103643320792,20);
(-2297192780039746321,20);
(-2459212162111552510,20);
(-2620553192412000687,20);
(-2781213831666087127,20);
(-2941192058804676171,20);
(-3100485870998073712,20);
(-3259093283689189213,20);
(-3417012330626258837,20);
(-3574241063894840337,20);
(-3730777553949572029,20);
(-3886619889645268056,20);
(-4041766178267684750,20);
(-4196214545563502207,20);
(-4349963135770099770,20);
(-4503010111644691060,20);
(-4655353654492962873,20);
(-4806991964197219330,20);
(-4957923259244118031,20);
(-5108145776751701894,20);
(-5257657772496109050,20);
(-5406457520937765077,20);
(-5554543315246938257,20);
(-5701913467328958290,20);
(-5848566307848800799,20);
(-5994500186255261043,20);
(-6139713470804509382,20);
(-6284204548583378902,20);
(-6427971825531779426,20)].
Definition mid_9 : list (Z * Z) := [
(-6571013726464908222,20);
(-6713328695094904208,20);
(-6854915194051883209,20);
(-6995771704904532595,20);
(-7135896728180173010,20);
(-7275288783384496749,20);
(-7413946409020417960,20);
(-7551868162606749368,20);
(-7689052620696315565,20);
(-7825498378893407103,20);
(-7961204051870818255,20);
(-8096168273386479541,20);
(-8230389696299372781,20);
(-8363866992585079763,20);
(-8496598853350889602,20);
(-8628583988850112296,20);
(-8759821128496195208,20);
(-8890309020876198398,20);
(-9020046433763699578,20);
(-9149032154131311878,20);
(-9277264988162647885,20);
(-9404743761263691104,20);
(-9531467318073758022,20);
(-9657434522475939753,20);
(-9782644257607100990,20);
(-9907095425867107341,20);
(-1003078694892777928,19);
(-1015371776774138673,19);
(-1027588684254842066,19);
(-1039729315288496908,19);
(-1051793569758964209,19);
(-1063781349480981131,19);
(-1075692558200752463,19);
(-1087527101596490881,19);
(-1099284887278886014,19);
(-1110965824791536605,19);
(-1122569825611343941,19);
(-1134096803148829935,19);
(-1145546672748422035,19);
(-1156919351688680681,19);
(-1168214759182474166,19);
(-1179432816377107424,19);
(-1190573446354401682,19);
(-1201636574130715424,19);
(-1212622126656922456,19);
(-1223530032818331281,19);
(-1234360223434566306,19);
(-1245112631259390062,19);
(-1255787190980464096,19);
(-1266383839219092644,19);
(-1276902514529875965,19);
(-1287343157400339111,19);
(-1297705710250501576,19);
(-1307990117432406285,19);
(-1318196325229574750,19);
(-1328324281856444466,19);
(-1338373937457725815,19);
(-1348345244107727325,19);
(-1358238155809629033,19);
(-1368052628494691725,19);
(-1377788620021447863,19);
(-1387446090174797586,19);
(-1397025000665092775,19);
(-1406525315127157560,19)].
Definition mid_10 : list (Z * Z) := [
(-1415946999119251926,19);
(-1425290020122001178,19);
(-1434554347537262409,19);
(-1443739952686944883,19);
(-1452846808811790458,19);
(-1461874891070080174,19);
(-1470824176536327244,19);
(-1479694644199892328,19);
(-1488486274963550238,19);
(-1497199051642035539,19);
(-1505832958960495460,19);
(-1514387983552939465,19);
(-1522864113960600008,19);
(-1531261340630272472,19);
(-1539579655912597933,19);
(-1547819054060284583,19);
(-1555979531226297785,19);
(-1564061085462002954,19);
(-1572063716715234871,19);
(-1579987426828348140,19);
(-1587832219536197687,19);
(-1595598100464094560,19);
(-1603285077125682634,19);
(-1610893158920797819,19);
(-1618422357133250944,19);
(-1625872684928586220,19);
(-1633244157351789183,19);
(-1640536791324917476,19);
(-1647750605644736632,19);
(-1654885620980248440,19);
(-1661941859870235405,19);
(-1668919346720686980,19);
(-1675818107802248824,19);
(-1682638171247568815,19);
(-1689379567048636122,19);
(-1696042327054044230,19);
(-1702626484966231479,19);
(-1709132076338646389,19);
(-1715559138572904652,19);
(-1721907710915855649,19);
(-1728177834456636197,19);
(-1734369552123671276,19);
(-1740482908681612872,19);
(-1746517950728253277,19);
(-1752474726691367890,19);
(-1758353286825550810,19);
(-1764153683208952716,19);
(-1769875969740035415,19);
(-1775520202134212855,19);
(-1781086437920502696,19);
(-1786574736438100441,19);
(-1791985158832926639,19);
(-1797317768054111087,19);
(-1802572628850462877,19);
(-1807749807766843297,19);
(-1812849373140552889,19);
(-1817871395097633569,19);
(-1822815945549154382,19);
(-1827683098187413702,19);
(-1832472928482144769,19);
(-1837185513676646009,19);
(-1841820932783877762,19);
(-1846379266582506562,19);
(-1850860597612929148,19)].
Definition mid_11 : list (Z * Z) := [
(-1855265010173219875,19);
(-1859592590315060912,19);
(-1863843425839618873,19);
(-1868017606293377042,19);
(-1872115222963938452,19);
(-1876136368875747640,19);
(-1880081138785841266,19);
(-1883949629179472729,19);
(-1887741938265751485,19);
(-1891458165973220751,19);
(-1895098413945400795,19);
(-1898662785536271713,19);
(-1902151385805748440,19);
(-1905564321515070547,19);
(-1908901701122190653,19);
(-1912163634777095667,19);
(-1915350234317103051,19);
(-1918461613262105736,19);
(-1921497886809775124,19);
(-1924459171830743276,19);
(-1927345586863704607,19);
(-1930157252110531740,19);
(-1932894289431289492,19);
(-1935556822339275507,19);
(-1938144975995957087,19);
(-1940658877205916066,19);
(-1943098654411736514,19);
(-1945464437688827486,19);
(-1947756358740273808,19);
(-1949974550891566127,19);
(-1952119149085367322,19);
(-1954190289876166220,19);
(-1956188111424968790,19);
(-1958112753493901070,19);
(-1959964357440767968,19);
(-1961743066213625097,19);
(-1963449024345252369,19);
(-1965082377947637848,19);
(-1966643274706406652,19);
(-1968131863875193510,19);
(-1969548296270003107,19);
(-1970892724263536289,19);
(-1972165301779451041,19);
(-1973366184286627079,19);
(-1974495528793354937,19);
(-1975553493841510633,19);
(-1976540239500707841,19);
(-1977455927362358201,19);
(-1978300720533773538,19);
(-1979074783632173984,19);
(-1979778282778685006,19);
(-1980411385592297513,19);
(-1980974261183778840,19);
(-1981467080149586224,19);
(-1981890014565697022,19);
(-1982243237981424766,19);
(-1982526925413239660,19);
(-1982741253338477783,19);
(-1982886399689092749,19);
(-1982962543845317727,19);
(-1982969866629326061,19);
(-1982908550298856376,19);
(-1982778778540780218,19);
(-1982580736464675530,19)].
Definition mid_12 : list (Z * Z) := [
(-1982314610596337956,19);
(-1981980588871263271,19);
(-1981578860628108452,19);
(-1981109616602116097,19);
(-1980573048918519430,19);
(-1979969351085877072,19);
(-1979298717989431133,19);
(-1978561345884379818,19);
(-1977757432389165293,19);
(-1976887176478709651,19);
(-1975950778477610914,19);
(-1974948440053329035,19);
(-1973880364209327498,19);
(-1972746755278200759,19);
(-1971547818914748951,19);
(-1970283762089042046,19);
(-1968954793079456533,19);
(-1967561121465653262,19);
(-1966102958121587474,19);
(-1964580515208399492,19);
(-1962994006167389505,19);
(-1961343645712849137,19);
(-1959629649824959630,19);
(-1957852235742604252,19);
(-1956011621956174340,19);
(-1954108028200353953,19);
(-1952141675446855962,19);
(-1950112785897158141,19);
(-1948021582975197619,19);
(-1945868291320025922,19);
(-1943653136778486501,19);
(-1941376346397789276,19);
(-1939038148418137653,19);
(-1936638772265284747,19);
(-1934178448543069084,19);
(-1931657409025933636,19);
(-1929075886651437644,19);
(-1926434115512693501,19);
(-1923732330850826677,19);
(-1920970769047395388,19);
(-1918149667616791398,19);
(-1915269265198594195,19);
(-1912329801549935704,19);
(-1909331517537815881,19);
(-1906274655131419415,19);
(-1903159457394377752,19);
(-1899986168477036386,19);
(-1896755033608688856,19);
(-1893466299089792415,19);
(-1890120212284156775,19);
(-1886717021611102052,19);
(-1883256976537637795,19);
(-1879740327570557090,19);
(-1876167326248569800,19);
(-1872538225134368906,19);
(-1868853277806705182,19);
(-1865112738852438279,19);
(-1861316863858549775,19);
(-1857465909404159565,19);
(-1853560133052509495,19);
(-1849599793342928122,19);
(-1845585149782788814,19);
(-1841516462839419832,19);
(-1837393993932036618,19)].
Definition mid_13 : list (Z * Z) := [
(-1833218005423634112,19);
(-1828988760612835773,19);
(-1824706523725789786,19);
(-1820371559907975889,19);
(-1815984135216056616,19);
(-1811544516609651101,19);
(-1807052971943146902,19);
(-1802509769957474639,19);
(-1797915180271848767,19);
(-1793269473375513623,19);
(-1788572920619474760,19);
(-1783825794208199200,19);
(-1779028367191308468,19);
(-1774180913455263020,19);
(-1769283707715027520,19);
(-1764337025505696988,19);
(-1759341143174174282,19);
(-1754296337870740463,19);
(-1749202887540707296,19);
(-1744061070915970402,19);
(-1738871167506614024,19);
(-1733633457592479721,19);
(-1728348222214689811,19);
(-1723015743167230218,19);
(-1717636302988445329,19);
(-1712210184952562553,19);
(-1706737673061213545,19);
(-1701219052034905754,19);
(-1695654607304505901,19);
(-1690044625002734557,19);
(-1684389391955579962,19);
(-1678689195673798429,19);
(-1672944324344317613,19);
(-1667155066821666698,19);
(-1661321712619413249,19);
(-1655444551901550099,19);
(-1649523875473913603,19);
(-1643559974775558319,19);
(-1637553141870143614,19);
(-1631503669437308346,19);
(-1625411850764024169,19);
(-1619277979735971595,19);
(-1613102350828858056,19);
(-1606885259099785079,19);
(-1600627000178563852,19);
(-1594327870259047986,19);
(-1587988166090451014,19);
(-1581608184968653352,19);
(-1575188224727510355,19);
(-1568728583730151782,19);
(-1562229560860272370,19);
(-1555691455513421584,19);
(-1549114567588285030,19);
(-1542499197477955886,19);
(-1535845646061212433,19);
(-1529154214693787817,19);
(-1522425205199613163,19);
(-1515658919862105658,19);
(-1508855661415393901,19);
(-1502015733035588496,19);
(-1495139438332021009,19);
(-1488227081338478752,19);
(-1481278966504471217,19);
(-1474295398686431557,19)].
Definition mid_14 : list (Z * Z) := [
(-1467276683138982185,19);
(-1460223125506163178,19);
(-1453135031812648192,19);
(-1446012708454984530,19);
(-1438856462192825147,19);
(-1431666600140145407,19);
(-1424443429756479529,19);
(-1417187258838134845,19);
(-1409898395509420199,19);
(-1402577148213876301,19);
(-1395223825705493303,19);
(-1387838737039929771,19);
(-1380422191565756351,19);
(-1372974498915662533,19);
(-1365495968997690046,19);
(-1357986911986465428,19);
(-1350447638314421495,19);
(-1342878458663030183,19);
(-1335279683954043173,19);
(-1327651625340714736,19);
(-1319994594199049298,19);
(-1312308902119038168,19);
(-1304594860895899600,19);
(-1296852782521335790,19);
(-1289082979174762944,19);
(-1281285763214592144,19);
(-1273461447169460803,19);
(-1265610343729507703,19);
(-1257732765737639424,19);
(-1249829026180795249,19);
(-1241899438181227056,19);
(-1233944314987776986,19);
(-1225963969967164835,19);
(-1217958716595282653,19);
(-1209928868448487266,19);
(-1201874739194905700,19);
(-1193796642585740891,19);
(-1185694892446600424,19);
(-1177569802668806259,19);
(-1169421687200731391,19);
(-1161250860039137744,19);
(-1153057635220514771,19);
(-1144842326812446492,19);
(-1136605248904952736,19);
(-1128346715601877132,19);
(-1120067041012253739,19);
(-1111766539241694496,19);
(-1103445524383789011,19);
(-1095104310511497286,19);
(-1086743211668582260,19);
(-1078362541861021262,19);
(-1069962615048431626,19);
(-1061543745135536260,19);
(-1053106245963597309,19);
(-1044650431301889504,19);
(-1036176614839176974,19);
(-1027685110175191041,19);
(-1019176230812139927,19);
(-1010650290146204999,19);
(-1002107601459072267,19);
(-9935484779094549967,20);
(-9849732325246546294,20);
(-9763821781920969944,20);
(-9677756276509209832,20)].
Definition mid_15 : list (Z * Z) := [
(-9591538934835500130,20);
(-9505172881072967983,20);
(-9418661237659614605,20);
(-9332007125214691889,20);
(-9245213662454923598,20);
(-9158283966111123442,20);
(-9071221150844796521,20);
(-8984028329164922555,20);
(-8896708611344975037,20);
(-8809265105339894597,20);
(-8721700916703446771,20);
(-8634019148505563124,20);
(-8546222901249865556,20);
(-8458315272791444572,20);
(-8370299358254701394,20);
(-8282178249951348270,20);
(-8193955037298662758,20);
(-8105632806737848861,20);
(-8017214641652514739,20);
(-7928703622287416874,20);
(-7840102825667365216,20);
(-7751415325516218535,20);
(-7662644192176196190,20);
(-7573792492527164910,20);
(-7484863289906408534,20);
(-7395859644028197899,20);
(-7306784610903965804,20);
(-7217641242762286302,20);
(-7128432587969313339,20);
(-7039161690949324868,20);
(-6949831592105389089,20);
(-6860445327740317956,20);
(-6771005929977824689,20);
(-6681516426683822840,20);
(-6591979841387921035,20);
(-6502399193205235517,20);
(-6412777496758288731,20);
(-6323117762099134120,20);
(-6233422994631773739,20);
(-6143696195034705626,20);
(-6053940359183709874,20);
(-5964158478074842867,20);
(-5874353537747725729,20);
(-5784528519208916031,20);
(-5694686398355629231,20);
(-5604830145899593330,20);
(-5514962727291260886,20);
(-5425087102644017556,20);
(-5335206226658920081,20);
(-5245323048549390549,20);
(-5155440511966371403,20);
(-5065561554923501270,20);
(-4975689109722783443,20);
(-4885826102880189148,20);
(-4795975455051824932,20);
(-4706140080960100752,20);
(-4616322889320215866,20);
(-4526526782767004153,20);
(-4436754657781861316,20);
(-4347009404619985723,20);
(-4257293907237917618,20);
(-4167611043221376710,20);
(-4077963683713110854,20);
(-3988354693341313734,20)].
Definition mid_16 : list (Z * Z) := [
(-3898786930148114699,20);
(-3809263245518437757,20);
(-3719786484108952851,20);
(-3630359483777548940,20);
(-3540985075512882024,20);
(-3451666083364200721,20);
(-3362405324371572218,20);
(-3273205608496281699,20);
(-3184069738551512097,20);
(-3095000510133325000,20);
(-3006000711551949645,20);
(-2917073123763230108,20);
(-2828220520300543661,20);
(-2739445667206867954,20);
(-2650751322967108067,20);
(-2562140238440870077,20);
(-2473615156795364034,20);
(-2385178813438674703,20);
(-2296833935953311243,20);
(-2208583244030043816,20);
(-2120429449402067013,20);
(-2032375255779379775,20);
(-1944423358783580608,20);
(-1856576445882891432,20);
(-1768837196327451358,20);
(-1681208281085015688,20);
(-1593692362776880436,20);
(-1506292095614137141,20);
(-1419010125334228822,20);
(-1331849089137860688,20);
(-1244811615626108259,20);
(-1157900324738007913,20);
(-1071117827688339297,20);
(-9844667269056943046,21);
(-8979496159710283198,21);
(-8115690795563606369,21);
(-7253276933638790752,21);
(-6392280240653525070,21);
(-5532726292418784463,21);
(-4674640573238895459,21);
(-3818048475316177144,21);
(-2962975298157581594,21);
(-2109446247985370584,21);
(-1257486437150360332,21);
(-4071208835497625608,22);
(4416254899527989955,22);
(1288727856103917936,21);
(2134161483832644392,21);
(2977901738819858837,21);
(3819924084065656495,21);
(4660204080450173689,21);
(5498717387294599357,21);
(6335439762916334275,21);
(7170347065180650466,21);
(8003415252051096843,21);
(8834620382134322075,21);
(9663938615221290968,21);
(1049134621282744352,20);
(1131681953872633144,20);
(1214033505948173067,20);
(1296186934497535817,20);
(1378139906893190852,20);
(1459890100943853943,20);
(1541435204946387319,20)].
Definition mid_17 : list (Z * Z) := [
(1622772917737084694,20);
(1703900948742618007,20);
(1784817018030847649,20);
(1865518856360981123,20);
(1946004205233562226,20);
(2026270816940014055,20);
(2106316454611901340,20);
(2186138892269620312,20);
(2265735914871047640,20);
(2345105318359553062,20);
(2424244909711654322,20);
(2503152506984553799,20);
(2581825939362976385,20);
(2660263047205869286,20);
(2738461682092602906,20);
(2816419706868916392,20);
(2894134995692274059,20);
(2971605434077162142,20);
(3048828918939719412,20);
(3125803358642074981,20);
(3202526673036449473,20);
(3278996793508710816,20);
(3355211663021503976,20);
(3431169236157279728,20);
(3506867479160614282,20);
(3582304369980302688,20);
(3657477898311160130,20);
(3732386065635161926,20);
(3807026885262537047,20);
(3881398382372207995,20);
(3955498594051913563,20);
(4029325569338068624,20);
(4102877369255063938,20);
(4176152066854230821,20);
(4249147747252515761,20);
(4321862507670611031,20);
(4394294457470727944,20);
(4466441718194132104,20);
(4538302423598088858,20);
(4609874719692400730,20);
(4681156764775806778,20);
(4752146729471744269,20);
(4822842796763708584,20);
(4893243162030429944,20);
(4963346033080404118,20);
(5033149630186199014,20);
(5102652186118265126,20);
(5171851946178442072,20);
(5240747168232848252,20);
(5309336122744753861,20);
(5377617092806637189,20);
(5445588374172065371,20);
(5513248275287205291,20);
(5580595117321775905,20);
(5647627234199695950,20);
(5714342972629322948,20);
(5780740692133330000,20);
(5846818765077928248,20);
(5912575576702142760,20);
(5978009525146244646,20);
(6043119021479914643,20);
(6107902489730181878,20);
(6172358366908740207,20);
(6236485103038832967,20)].
Definition mid_18 : list (Z * Z) := [
(6300281161181928158,20);
(6363745017463873221,20);
(6426875161100566169,20);
(6489670094423362345,20);
(6552128332903969787,20);
(6614248405178961565,20);
(6676028853073934233,20);
(6737468231627116722,20);
(6798565109112746085,20);
(6859318067063896462,20);
(6919725700294883375,20);
(6979786616923443210,20);
(7039499438392284036,20);
(7098862799490290865,20);
(7157875348373402002,20);
(7216535746585003852,20);
(7274842669075808066,20);
(7332794804223585761,20);
(7390390853852199515,20);
(7447629533250424427,20);
(7504509571190193240,20);
(7561029709944663835,20);
(7617188705305501240,20);
(7672985326600156863,20);
(7728418356708499637,20);
(7783486592078980859,20);
(7838188842744558960,20);
(7892523932338159354,20);
(7946490698107566697,20);
(8000087990930167259,20);
(8053314675327025163,20);
(8106169629476690786,20);
(8158651745228566454,20);
(8210759928115832218,20);
(8262493097367956674,20);
(8313850185922837255,20);
(8364830140438496431,20);
(8415431921304285245,20);
(8465654502651848157,20);
(8515496872365528602,20);
(8564958032092395701,20);
(8614036997251864336,20);
(8662732797044912780,20);
(8711044474462915910,20);
(8758971086295898323,20);
(8806511703140673664,20);
(8853665409408212339,20);
(8900431303330950950,20);
(8946808496969338442,20);
(8992796116218310098,20);
(9038393300813062081,20);
(9083599204334591448,20);
(9128412994214787912,20);
(9172833851741038491,20);
(9216860972060436641,20);
(9260493564183765181,20);
(9303730850988797818,20);
(9346572069223295365,20);
(9389016469507693863,20);
(9431063316337252866,20);
(9472711888083733267,20);
(9513961476997029321,20);
(9554811389205820904,20);
(9595260944718277119,20)].
Definition mid_19 : list (Z * Z) := [
(9635309477422218660,20);
(9674956335084826387,20);
(9714200879351844731,20);
(9753042485746703238,20);
(9791480543668885927,20);
(9829514456392052235,20);
(9867143641061781878,20);
(9904367528692763212,20);
(9941185564165799793,20);
(9977597206224188275,20);
(1001360192746983263,19);
(1004919921435895591,19);
(1008438856719724164,19);
(1011916950013485306,19);
(1015354154116073354,19);
(1018750423209683204,19);
(1022105712859157911,19);
(1025419980011329085,19);
(1028693182994293021,19);
(1031925281516662546,19);
(1035116236666767803,19);
(1038266010911824133,19);
(1041374568097056669,19);
(1044441873444791474,19);
(1047467893553492291,19);
(1050452596396778127,19);
(1053395951322381868,19);
(1056297929051085993,19);
(1059158501675602909,19);
(1061977642659436560,19);
(1064755326835677279,19);
(1067491530405779016,19);
(1070186230938299510,19);
(1072839407367579129,19);
(1075451039992403046,19);
(1078021110474614019,19);
(1080549601837691998,19);
(1083036498465280856,19);
(1085481786099699586,19);
(1087885451840396034,19);
(1090247484142371631,19);
(1092567872814559082,19);
(1094846609018174932,19);
(1097083685265021202,19);
(1099279095415756358,19);
(1101432834678127276,19);
(1103544899605155838,19);
(1105615288093303034,19);
(1107643999380577282,19);
(1109631034044619990,19);
(1111576394000742957,19);
(1113480082499938295,19);
(1115342104126838263,19);
(1117162464797655103,19);
(1118941171758056075,19);
(1120678233581040434,19);
(1122373660164741466,19);
(1124027462730216587,19);
(1125639653819188457,19);
(1127210247291753065,19);
(1128739258324051309,19);
(1130226703405906863,19);
(1131672600338419626,19);
(1133076968231531700,19)].
Definition mid_20 : list (Z * Z) := [
(1134439827501550480,19);
(1135761199868644267,19);
(1137041108354286401,19);
(1138279577278690502,19);
(1139476632258167033,19);
(1140632300202501642,19);
(1141746609312234984,19);
(1142819589075965009,19);
(1143851270267569054,19);
(1144841684943423976,19);
(1145790866439563016,19);
(1146698849368823908,19);
(1147565669617940376,19);
(1148391364344608367,19);
(1149175971974534943,19);
(1149919532198401817,19);
(1150622085968862202,19);
(1151283675497450365,19);
(1151904344251484247,19);
(1152484136950913812,19);
(1153023099565165382,19);
(1153521279309927400,19);
(1153978724643902054,19);
(1154395485265540811,19);
(1154771612109735945,19);
(1155107157344481272,19);
(1155402174367492762,19);
(1155656717802802796,19);
(1155870843497332628,19);
(1156044608517408645,19);
(1156178071145261832,19);
(1156271290875492269,19);
(1156324328411498237,19);
(1156337245661875623,19);
(1156310105736796240,19);
(1156242972944318131,19);
(1156135912786717401,19);
(1155988991956739681,19);
(1155802278333856459,19);
(1155575840980460067,19);
(1155309750138054092,19);
(1155004077223396458,19);
(1154658894824609344,19);
(1154274276697283830,19);
(1153850297760513205,19);
(1153387034092934887,19);
(1152884562928717105,19);
(1152342962653528091,19);
(1151762312800465454,19);
(1151142694045968057,19);
(1150484188205689456,19);
(1149786878230339149,19);
(1149050848201512154,19);
(1148276183327461980,19);
(1147462969938865956,19);
(1146611295484560450,19);
(1145721248527229452,19);
(1144792918739091503,19);
(1143826396897532349,19);
(1142821774880731500,19);
(1141779145663237016,19);
(1140698603311543491,19);
(1139580242979606889,19);
(1138424160904357163,19)].
Definition mid_21 : list (Z * Z) := [
(1137230454401182145,19);
(1135999221859367581,19);
(1134730562737523707,19);
(1133424577558981017,19);
(1132081367907163821,19);
(1130701036420929950,19);
(1129283686789885194,19);
(1127829423749675680,19);
(1126338353077252358,19);
(1124810581586112579,19);
(1123246217121506435,19);
(1121645368555623107,19);
(1120008145782764308,19);
(1118334659714461665,19);
(1116625022274604639,19);
(1114879346394518772,19);
(1113097746008028244,19);
(1111280336046494149,19);
(1109427232433825294,19);
(1107538552081471228,19);
(1105614412883377251,19);
(1103654933710936092,19);
(1101660234407898648,19);
(1099630435785269866,19);
(1097565659616171196,19);
(1095466028630702332,19);
(1093331666510749256,19);
(1091162697884799915,19);
(1088959248322710210,19);
(1086721444330465552,19);
(1084449413344920066,19);
(1082143283728496802,19);
(1079803184763889062,19);
(1077429246648720779,19);
(1075021600490196488,19);
(1072580378299725218,19);
(1070105712987531182,19);
(1067597738357224380,19);
(1065056589100376316,19);
(1062482400791050774,19);
(1059875309880336097,19);
(1057235453690833632,19);
(1054562970411151712,19);
(1051857999090357876,19);
(1049120679632426917,19);
(1046351152790657157,19);
(1043549560162079365,19);
(1040716044181830002,19);
(1037850748117533639,19);
(1034953816063630683,19);
(1032025392935715102,19);
(1029065624464844120,19);
(1026074657191820699,19);
(1023052638461480757,19);
(1019999716416930963,19);
(1016916039993806808,19);
(1013801758914470580,19);
(1010657023682232231,19);
(1007481985575529870,19);
(1004276796642093739,19);
(1001041609693105461,19);
(9977765782973362085,20);
(9944818567752557181,20);
(9911576001931479696,20)].
Definition mid_22 : list (Z * Z) := [
(9878039643571960571,20);
(9844211058075447163,20);
(9810091818123778395,20);
(9775683503619382597,20);
(9740987701625695994,20);
(9706006006307223155,20);
(9670740018869518340,20);
(9635191347499004466,20);
(9599361607302604738,20);
(9563252420247460306,20);
(9526865415100128909,20);
(9490202227365962528,20);
(9453264499228233864,20);
(9416053879487110145,20);
(9378572023498490950,20);
(9340820593112907078,20);
(9302801256613879577,20);
(9264515688656607684,20);
(9225965570206304256,20);
(9187152588476360515,20);
(9148078436866510788,20);
(9108744814900887610,20);
(9069153428165842301,20);
(9029305988247791903,20);
(8989204212670820482,20);
(8948849824834312350,20);
(8908244553950339650,20);
(8867390134981041616,20);
(8826288308575909458,20);
(8784940821008821454,20);
(8743349424115216817,20);
(8701515875228980901,20);
(8659441937119286004,20);
(8617129377927386369,20);
(8574579971103250819,20);
(8531795495342238411,20);
(8488777734521436857,20);
(8445528477636236875,20);
(8402049518736558198,20);
(8358342656863104736,20);
(8314409695983582260,20);
(8270252444928742619,20);
(8225872717328426564,20);
(8181272331547521925,20);
(8136453110621788554,20);
(8091416882193715188,20);
(8046165478448212560,20);
(8000700736048345363,20);
(7955024496070883799,20);
(7909138603941888446,20);
(7863044909372222946,20);
(7816745266292945971,20);
(7770241532790697625,20);
(7723535571043102510,20);
(7676629247253963229,20);
(7629524431588495526,20);
(7582222998108610612,20);
(7534726824707928261,20);
(7487037793046977252,20);
(7439157788488190426,20);
(7391088700030996883,20);
(7342832420246665770,20);
(7294390845213463703,20);
(7245765874451400024,20)].
Definition mid_23 : list (Z * Z) := [
(7196959410857182993,20);
(7147973360639094109,20);
(7098809633251808304,20);
(7049470141331172501,20);
(6999956800629074383,20);
(6950271529948102989,20);
(6900416251076395280,20);
(6850392888722357798,20);
(6800203370449309226,20);
(6749849626610290865,20);
(6699333590282730011,20);
(6648657197203076963,20);
(6597822385701584968,20);
(6546831096636943070,20);
(6495685273330933929,20);
(6444386861503183239,20);
(6392937809205777311,20);
(6341340066757955585,20);
(6289595586680890582,20);
(6237706323632246502,20);
(6185674234341029948,20);
(6133501277542201258,20);
(6081189413911518293,20);
(6028740606000180385,20);
(5976156818169715834,20);
(5923440016526682755,20);
(5870592168857491355,20);
(5817615244563349719,20);
(5764511214594966737,20);
(5711282051387563813,20);
(5657929728795784569,20);
(5604456222028585122,20);
(5550863507584274936,20);
(5497153563185583347,20);
(5443328367714608124,20);
(5389389901147991629,20);
(5335340144492110165,20);
(5281181079718162003,20);
(5226914689697428895,20);
(5172542958136654156,20);
(5118067869513240331,20);
(5063491409010693195,20);
(5008815562454091430,20);
(4954042316245493849,20);
(4899173657299552703,20);
(4844211572979159608,20);
(4789158051030967950,20);
(4734015079521310815,20);
(4678784646771852462,20);
(4623468741295520129,20);
(4568069351732450406,20);
(4512588466785955044,20);
(4457028075158589453,20);
(4401390165488382883,20);
(4345676726284972841,20);
(4289889745865927556,20);
(4234031212293234980,20);
(4178103113309632882,20);
(4122107436275198461,20);
(4066046168104092695,20);
(4009921295201131913,20);
(3953734803398728515,20);
(3897488677893685971,20);
(3841184903184327593,20)].
Definition mid_24 : list (Z * Z) := [
(3784825463007453900,20);
(3728412340275675391,20);
(3671947517014593348,20);
(3615432974300223506,20);
(3558870692196561963,20);
(3502262649693039381,20);
(3445610824642367231,20);
(3388917193698297303,20);
(3332183732253514441,20);
(3275412414377701364,20);
(3218605212755724920,20);
(3161764098625815395,20);
(3104891041717990074,20);
(3047988010192603792,20);
(2991056970578846036,20);
(2934099887713631158,20);
(2877118724680330711,20);
(2820115442747860371,20);
(2763092001309731816,20);
(2706050357823376606,20);
(2648992467749444052,20);
(2591920284491351298,20);
(2534835759334986768,20);
(2477740841388362605,20);
(2420637477521704953,20);
(2363527612307361747,20);
(2306413187960070638,20);
(2249296144277369153,20);
(2192178418579965316,20);
(2135061945652438550,20);
(2077948657684075551,20);
(2020840484209705801,20);
(1963739352050834427,20);
(1906647185256950261,20);
(1849565905046804404,20);
(1792497429750028112,20);
(1735443674748887027,20);
(1678406552420035058,20);
(1621387972076678008,20);
(1564389839910706320,20);
(1507414058935030270,20);
(1450462528926140665,20);
(1393537146366859852,20);
(1336639804389102432,20);
(1279772392716960021,20);
(1222936797609982737,20);
(1166134901806436391,20);
(1109368584466934385,20);
(1052639721118220177,20);
(9959501835969834099,21);
(9393018399940177704,21);
(8826965545985472963,21);
(8261361878425896310,21);
(7696225962456655287,21);
(7131576323596798377,21);
(6567431447138396931,21);
(6003809777599971101,21);
(5440729718179292129,21);
(4878209630210759117,21);
(4316267832621930103,21);
(3754922601394939871,21);
(3194192169027075100,21);
(2634094723995269137,21);
(2074648410222489341,21)].
Definition mid_25 : list (Z * Z) := [
(1515871326544439724,21);
(9577815261809084118,22);
(4003970162065617904,22);
(-1562642429744725257,22);
(-7121843381519621981,22);
(-1267345403832345185,21);
(-1821729622757877181,21);
(-2375319226423679153,21);
(-2928096495594133264,21);
(-3480043760815640895,21);
(-4031143402927247175,21);
(-4581377853570486186,21);
(-5130729595695702507,21);
(-5679181164066179205,21);
(-6226715145760802587,21);
(-6773314180674660893,21);
(-7318960962015670473,21);
(-7863638236801374568,21);
(-8407328806351688916,21);
(-8950015526779514508,21);
(-9491681309480425738,21);
(-1003230912161858293,20);
(-1057188198661029345,20);
(-1111038298460692575,20);
(-1164779525297362367,20);
(-1218410198676608130,20);
(-1271928643920606540,20);
(-1325333192215328790,20);
(-1378622180657479435,20);
(-1431793952301350752,20);
(-1484846856205270481,20);
(-1537779247477824920,20);
(-1590589487323990775,20);
(-1643275943090778679,20);
(-1695836988312885568,20);
(-1748271002757850745,20);
(-1800576372471216630,20);
(-1852751489821160419,20);
(-1904794753543158359,20);
(-1956704568784189968,20);
(-2008479347146733748,20);
(-2060117506732618217,20);
(-2111617472186435099,20);
(-2162977674738865083,20);
(-2214196552249662192,20);
(-2265272549250304732,20);
(-2316204116986610509,20);
(-2366989713460843081,20);
(-2417627803473664308,20);
(-2468116858665893310,20);
(-2518455357559880661,20);
(-2568641785600618913,20);
(-2618674635196735143,20);
(-2668552405761034571,20);
(-2718273603750876247,20);
(-2767836742708236139,20);
(-2817240343299569696,20);
(-2866482933355291723,20);
(-2915563047909090072,20);
(-2964479229236912164,20);
(-3013230026895627814,20);
(-3061813997761563683,20);
(-3110229706068614111,20);
(-3158475723446103195,20)].
Definition mid_26 : list (Z * Z) := [
(-3206550628956489346,20);
(-3254453009132615704,20);
(-3302181458014773890,20);
(-3349734577187515883,20);
(-3397110975816115819,20);
(-3444309270682747309,20);
(-3491328086222460214,20);
(-3538166054558810475,20);
(-3584821815539138146,20);
(-3631294016769773259,20);
(-3677581313650651190,20);
(-3723682369409982845,20);
(-3769595855138266338,20);
(-3815320449822387494,20);
(-3860854840379085440,20);
(-3906197721688409868,20);
(-3951347796626701603,20);
(-3996303776099318500,20);
(-4041064379073169149,20);
(-4085628332608786523,20);
(-4129994371892273253,20);
(-4174161240266845846,20);
(-4218127689264063868,20);
(-4261892478634904391,20);
(-4305454376380369458,20);
(-4348812158781886761,20);
(-4391964610431411259,20);
(-4434910524261240217,20);
(-4477648701573413992,20);
(-4520177952068980820,20);
(-4562497093876844573,20);
(-4604604953582377980,20);
(-4646500366255647968,20);
(-4688182175479485569,20);
(-4729649233377042350,20);
(-4770900400639280226,20);
(-4811934546551954739,20);
(-4852750549022394333,20);
(-4893347294605966680,20);
(-4933723678532259127,20);
(-4973878604730814362,20);
(-5013810985856800850,20);
(-5053519743316140650,20);
(-5093003807290445717,20);
(-5132262116761681509,20);
(-5171293619536403846,20);
(-5210097272269752916,20);
(-5248672040489194002,20);
(-5287016898617811350,20);
(-5325130829997406362,20);
(-5363012826911270348,20);
(-5400661890606531235,20);
(-5438077031316390642,20);
(-5475257268281816941,20);
(-5512201629773157141,20);
(-5548909153111245690,20);
(-5585378884688277368,20);
(-5621609879988397757,20);
(-5657601203607912771,20);
(-5693351929275265733,20);
(-5728861139870543989,20);
(-5764127927444902960,20);
(-5799151393239466296,20);
(-5833930647704012318,20)].
Definition mid_27 : list (Z * Z) := [
(-5868464810515328089,20);
(-5902753010595210292,20);
(-5936794386128207979,20);
(-5970588084579041277,20);
(-6004133262709646784,20);
(-6037429086595917649,20);
(-6070474731644233402,20);
(-6103269382607497129,20);
(-6135812233601007498,20);
(-6168102488117883919,20);
(-6200139359044339049,20);
(-6231922068674428800,20);
(-6263449848724655933,20);
(-6294721940348170508,20);
(-6325737594148625464,20);
(-6356496070193826120,20);
(-6386996638028936968,20);
(-6417238576689431040,20);
(-6447221174713720082,20);
(-6476943730155461376,20);
(-6506405550595520393,20);
(-6535605953153604541,20);
(-6564544264499701243,20);
(-6593219820864985870,20);
(-6621631968052585360,20);
(-6649780061447972679,20);
(-6677663466028946337,20);
(-6705281556375505825,20);
(-6732633716679145564,20);
(-6759719340752012862,20);
(-6786537832035696716,20);
(-6813088603609683547,20);
(-6839371078199486809,20);
(-6865384688184511530,20);
(-6891128875605452564,20);
(-6916603092171628997,20);
(-6941806799267744021,20);
(-6966739467960426924,20);
(-6991400579004571070,20);
(-7015789622849051554,20);
(-7039906099642520565,20);
(-7063749519238513019,20);
(-7087319401200507796,20);
(-7110615274806442176,20);
(-7133636679053179108,20);
(-7156383162660372166,20);
(-7178854284074179248,20);
(-7201049611470679290,20);
(-7222968722758806026,20);
(-7244611205583206814,20);
(-7265976657326482513,20);
(-7287064685111470375,20);
(-7307874905802826115,20);
(-7328406946008640677,20);
(-7348660442081482447,20);
(-7368635040119259072,20);
(-7388330395965721220,20);
(-7407746175210652706,20);
(-7426882053189751143,20);
(-7445737714984203282,20);
(-7464312855419916182,20);
(-7482607179066477765,20);
(-7500620400235745444,20);
(-7518352242980172462,20)].
Definition mid_28 : list (Z * Z) := [
(-7535802441090819204,20);
(-7552970738095023118,20);
(-7569856887253761935,20);
(-7586460651558714352,20);
(-7602781803729012633,20);
(-7618820126207685728,20);
(-7634575411157773495,20);
(-7650047460458174464,20);
(-7665236085699106416,20);
(-7680141108177293563,20);
(-7694762358890945564,20);
(-7709099678534202249,20);
(-7723152917491574176,20);
(-7736921935831750363,20);
(-7750406603301283892,20);
(-7763606799318044371,20);
(-7776522412964197162,20);
(-7789153342978868966,20);
(-7801499497750735701,20);
(-7813560795310030282,20);
(-7825337163320410239,20);
(-7836828539070507527,20);
(-7848034869465121688,20);
(-7858956111016091040,20);
(-7869592229833052843,20);
(-7879943201613610892,20);
(-7890009011633403180,20);
(-7899789654735855926,20);
(-7909285135321561522,20);
(-7918495467337399729,20);
(-7927420674265373002,20);
(-7936060789111153146,20);
(-7944415854392208876,20);
(-7952485922125902829,20);
(-7960271053816962705,20);
(-7967771320444942684,20);
(-7974986802451212997,20);
(-7981917589725705253,20);
(-7988563781593471802,20);
(-7994925486800705250,20);
(-8001002823500755201,20);
(-8006795919239662052,20);
(-8012304910941422942,20);
(-8017529944893107829,20);
(-8022471176729469022,20);
(-8027128771417457731,20);
(-8031502903240339553,20);
(-8035593755781576808,20);
(-8039401521908397241,20);
(-8042926403755103204,20);
(-8046168612706085244,20);
(-8049128369378535930,20);
(-8051805903604918047,20);
(-8054201454415137185,20);
(-8056315270018434005,20);
(-8058147607784947597,20);
(-8059698734227134509,20);
(-8060968924980749239,20);
(-8061958464785648482,20);
(-8062667647466324750,20);
(-8063096775912062530,20);
(-8063246162056990352,20);
(-8063116126859672106,20);
(-8062707000282591518,20)].
Definition mid_29 : list (Z * Z) := [
(-8062019121271238320,20);
(-8061052837732993193,20);
(-8059808506515787896,20);
(-8058286493386304650,20);
(-8056487173008190783,20);
(-8054410928919755741,20);
(-8052058153511557070,20);
(-8049429248003638071,20);
(-8046524622422575324,20);
(-8043344695578176495,20);
(-8039889895039974144,20);
(-8036160657113503025,20);
(-8032157426816183277,20);
(-8027880657853071755,20);
(-8023330812592333050,20);
(-8018508362040356607,20);
(-8013413785816747570,20);
(-8008047572129053937,20);
(-8002410217747082943,20);
(-7996502227977152211,20);
(-7990324116636024487,20);
(-7983876406024549566,20);
(-7977159626901146605,20);
(-7970174318454900653,20);
(-7962921028278552305,20);
(-7955400312341211200,20);
(-7947612734960739223,20);
(-7939558868776043499,20);
(-7931239294718864241,20);
(-7922654601985744394,20);
(-7913805388009254038,20);
(-7904692258429427132,20);
(-7895315827064632030,20);
(-7885676715882442012,20);
(-7875775554970082526,20);
(-7865612982504785466,20);
(-7855189644723831188,20);
(-7844506195894383749,20);
(-7833563298283097165,20);
(-7822361622125473257,20);
(-7810901845595029369,20);
(-7799184654772250980,20);
(-7787210743613204311,20);
(-7774980813918051792,20);
(-7762495575299306616,20);
(-7749755745149848607,20);
(-7736762048610719422,20);
(-7723515218538730409,20);
(-7710015995473767925,20);
(-7696265127606051470,20);
(-7682263370742957453,20);
(-7668011488275798537,20);
(-7653510251146330989,20);
(-7638760437813052473,20);
(-7623762834217213957,20);
(-7608518233748813586,20);
(-7593027437212182540,20);
(-7577291252791458487,20);
(-7561310496015874461,20);
(-7545085989724746589,20);
(-7528618564032441007,20);
(-7511909056292874476,20);
(-7494958311064056633,20);
(-7477767180072351916,20)].
Definition mid_30 : list (Z * Z) := [
(-7460336522176438945,20);
(-7442667203331282400,20);
(-7424760096551691335,20);
(-7406616081875874724,20);
(-7388236046328676421,20);
(-7369620883884638041,20);
(-7350771495430935554,20);
(-7331688788730084116,20);
(-7312373678382456943,20);
(-7292827085788614050,20);
(-7273049939111450590,20);
(-7253043173238218899,20);
(-7232807729742261882,20);
(-7212344556844652033,20);
(-7191654609375608409,20);
(-7170738848735802584,20);
(-7149598242857389818,20);
(-7128233766164919494,20);
(-7106646399536135916,20);
(-7084837130262473803,20);
(-7062806952009438588,20);
(-7040556864776979784,20);
(-7018087874859349484,20);
(-6995400994805141270,20);
(-6972497243377005771,20);
(-6949377645511187196,20);
(-6926043232276914152,20);
(-6902495040835739115,20);
(-6878734114400550381,20);
(-6854761502194529899,20);
(-6830578259409987585,20);
(-6806185447166897273,20);
(-6781584132471454862,20);
(-6756775388174379726,20);
(-6731760292929084288,20);
(-6706539931149697875,20);
(-6681115392968989264,20);
(-6655487774196078288,20);
(-6629658176274041970,20);
(-6603627706237351347,20);
(-6577397476669244458,20);
(-6550968605658825938,20);
(-6524342216758195756,20);
(-6497519438939264314,20);
(-6470501406550616119,20);
(-6443289259274068148,20);
(-6415884142081215713,20);
(-6388287205189886742,20);
(-6360499604020235231,20);
(-6332522499150991524,20);
(-6304357056275446125,20);
(-6276004446157291972,20);
(-6247465844586397310,20);
(-6218742432334468245,20);
(-6189835395110540595,20);
(-6160745923516382921,20);
(-6131475213001792018,20);
(-6102024463819785693,20);
(-6072394880981624166,20);
(-6042587674211781501,20);
(-6012604057902817128,20);
(-5982445251070026004,20);
(-5952112477306180371,20);
(-5921606964735958573,20)].
Definition mid_31 : list (Z * Z) := [
(-5890929945970377335,20);
(-5860082658061234462,20);
(-5829066342455116456,20);
(-5797882244947703823,20);
(-5766531615637713465,20);
(-5735015708880845942,20);
(-5703335783243624474,20);
(-5671493101457135422,20);
(-5639488930370698677,20);
(-5607324540905390259,20);
(-5575001208007627357,20);
(-5542520210602428637,20);
(-5509882831546800835,20);
(-5477090357582996283,20);
(-5444144079291571986,20);
(-5411045291044555561,20);
(-5377795290958351654,20);
(-5344395380846742732,20);
(-5310846866173626890,20);
(-5277151056005919411,20);
(-5243309262966099754,20);
(-5209322803185014589,20);
(-5175192996254258937,20);
(-5140921165178801572,20);
(-5106508636329365469,20);
(-5071956739394813812,20);
(-5037266807334418034,20);
(-5002440176330155003,20);
(-4967478185738846697,20);
(-4932382178044337345,20);
(-4897153498809565797,20);
(-4861793496628525474,20);
(-4826303523078317309,20);
(-4790684932671046559,20);
(-4754939082805644673,20);
(-4719067333719809132,20);
(-4683071048441636575,20);
(-4646951592741498105,20);
(-4610710335083630096,20);
(-4574348646577875571,20);
(-4537867900931220194,20);
(-4501269474399419851,20);
(-4464554745738560232,20);
(-4427725096156497758,20);
(-4390781909264397653,20);
(-4353726571028161685,20);
(-4316560469719835091,20);
(-4279284995868991304,20);
(-4241901542214145809,20);
(-4204411503654013893,20);
(-4166816277198868990,20);
(-4129117261921873283,20);
(-4091315858910295200,20);
(-4053413471216760905,20);
(-4015411503810565469,20);
(-3977311363528829996,20);
(-3939114459027746179,20);
(-3900822200733783385,20);
(-3862436000794840923,20);
(-3823957273031457216,20);
(-3785387432888023124,20);
(-3746727897383874545,20);
(-3707980085064529335,20);
(-3669145415952819456,20)].
Definition mid_32 : list (Z * Z) := [
(-3630225311500043239,20);
(-3591221194537174560,20);
(-3552134489225985958,20);
(-3512966621010248786,20);
(-3473719016566926415,20);
(-3434393103757314714,20);
(-3394990311578257453,20);
(-3355512070113409601,20);
(-3315959810484352122,20);
(-3276334964801892735,20);
(-3236638966117337535,20);
(-3196873248373656440,20);
(-3157039246356881795,20);
(-3117138395647334193,20);
(-3077172132570999558,20);
(-3037141894150807361,20);
(-2997049118058095832,20);
(-2956895242563938736,20);
(-2916681706490596715,20);
(-2876409949163010252,20);
(-2836081410360228802,20);
(-2795697530266948866,20);
(-2755259749425129426,20);
(-2714769508685485611,20);
(-2674228249159179074,20);
(-2633637412169491376,20);
(-2592998439203500136,20);
(-2552312771863811044,20);
(-2511581851820446007,20);
(-2470807120762553641,20);
(-2429990020350381030,20);
(-2389131992167181293,20);
(-2348234477671209269,20);
(-2307298918147697095,20);
(-2266326754661033421,20);
(-2225319428006821559,20);
(-2184278378664095133,20);
(-2143205046747626366,20);
(-2102100871960134801,20);
(-2060967293544775300,20);
(-2019805750237453623,20);
(-1978617680219405678,20);
(-1937404521069751098,20);
(-1896167709718065905,20);
(-1854908682397107475,20);
(-1813628874595625898,20);
(-1772329721011116355,20);
(-1731012655502743927,20);
(-1689679111044398857,20);
(-1648330519677641826,20);
(-1606968312464891746,20);
(-1565593919442648599,20);
(-1524208769574730837,20);
(-1482814290705705175,20);
(-1441411909514261729,20);
(-1400003051466842605,20);
(-1358589140771156861,20);
(-1317171600329985516,20);
(-1275751851694901899,20);
(-1234331315020175540,20);
(-1192911409016795751,20);
(-1151493550906453230,20);
(-1110079156375751858,20);
(-1068669639530485729,20)].
Definition mid_33 : list (Z * Z) := [
(-1027266412849928666,20);
(-9858708871413103883,21);
(-9444844714944151606,21);
(-9031085732361488622,21);
(-8617445978853281036,21);
(-8203939491075741205,21);
(-7790580286701910551,21);
(-7377382363973220523,21);
(-6964359701250321527,21);
(-6551526256566859996,21);
(-6138895967182455768,21);
(-5726482749138683132,21);
(-5314300496814470740,21);
(-4902363082483721102,21);
(-4490684355874207702,21);
(-4079278143726318591,21);
(-3668158249354945468,21);
(-3257338452210606448,21);
(-2846832507443070731,21);
(-2436654145466198886,21);
(-2026817071522901085,21);
(-1617334965252489052,21);
(-1208221480259231680,21);
(-7994902436811283670,22);
(-3911548557610529516,22);
(1677111058077926023,23);
(4242741101741629079,22);
(8313406260238004721,22);
(1237957169732863214,21);
(1644110281926440586,21);
(2049786532671881486,21);
(2454972521898892736,21);
(2859654879818813826,21);
(3263820267340243435,21);
(3667455376485580579,21);
(4070546930804781749,21);
(4473081685789086388,21);
(4875046429280869599,21);
(5276427981884174861,21);
(5677213197373867648,21);
(6077388963101055044,21);
(6476942200399119463,21);
(6875859864988406213,21);
(7274128947377056509,21);
(7671736473262571673,21);
(8068669503931742357,21);
(8464915136656972136,21);
(8860460505093223013,21);
(9255292779672637249,21);
(9649399167997339474,21);
(1004276691523033928,20);
(1043538330448613369,20);
(1082723565721786969,20);
(1121831133360458831,20);
(1160859773293578846,20);
(1199808229399418856,20);
(1238675249543743848,20);
(1277459585617868321,20);
(1316159993576333093,20);
(1354775233474598758,20);
(1393304069506600892,20);
(1431745270041902274,20);
(1470097607662862807,20);
(1508359859201690960,20)].
Definition mid_34 : list (Z * Z) := [
(1546530805777043306,20);
(1584609232830710285,20);
(1622593930164089454,20);
(1660483691974278669,20);
(1698277316890229802,20);
(1735973608008629585,20);
(1773571372929534651,20);
(1811069423791929200,20);
(1848466577309051603,20);
(1885761654803489243,20);
(1922953482242151582,20);
(1960040890271130473,20);
(1997022714250126091,20);
(2033897794286903746,20);
(2070664975271587979,20);
(2107323106910502855,20);
(2143871043760092049,20);
(2180307645260595728,20);
(2216631775769328794,20);
(2252842304594031286,20);
(2288938106025933256,20);
(2324918059372480666,20);
(2360781048990075875,20);
(2396525964316528756,20);
(2432151699903265657,20);
(2467657155447372519,20);
(2503041235823523503,20);
(2538302851115518607,20);
(2573440916647813659,20);
(2608454353016740820,20);
(2643342086121521634,20);
(2678103047195084033,20);
(2712736172834807891,20);
(2747240405032783800,20);
(2781614691206098916,20);
(2815857984226893818,20);
(2849969242452052992,20);
(2883947429752827668,20);
(2917791515544300093,20);
(2951500474814375274,20);
(2985073288152844187,20);
(3018508941780147226,20);
(3051806427575786199,20);
(3084964743106703364,20);
(3117982891655382907,20);
(3150859882247699501,20);
(3183594729680571528,20);
(3216186454549446044,20);
(3248634083275445811,20);
(3280936648132455613,20);
(3313093187273905005,20);
(3345102744759234636,20);
(3376964370580342462,20);
(3408677120687665651,20);
(3440240057016114711,20);
(3471652247510688405,20);
(3502912766151942275,20);
(3534020692981312828,20);
(3564975114125976813,20);
(3595775121823711895,20);
(3626419814447476991,20);
(3656908296529646357,20);
(3687239678786174979,20);
(3717413078140495430,20)].
Definition mid_35 : list (Z * Z) := [
(3747427617747067785,20);
(3777282427014849731,20);
(3806976641630491903,20);
(3836509403581284117,20);
(3865879861177835830,20);
(3895087169076628941,20);
(3924130488302231268,20);
(3953008986269310882,20);
(3981721836804547054,20);
(4010268220168012460,20);
(4038647323074603945,20);
(4066858338715204774,20);
(4094900466777352810,20);
(4122772913466016265,20);
(4150474891523963511,20);
(4178005620251827590,20);
(4205364325528090919,20);
(4232550239828787586,20);
(4259562602246853152,20);
(4286400658511372447,20);
(4313063661006582422,20);
(4339550868790523208,20);
(4365861547613541366,20);
(4391994969936587057,20);
(4417950414949153165,20);
(4443727168587049969,20);
(4469324523549987604,20);
(4494741779318756764,20);
(4519978242172353888,20);
(4545033225204764271,20);
(4569906048341459970,20);
(4594596038355773515,20);
(4619102528884996839,20);
(4643424860446098562,20);
(4667562380451385079,20);
(4691514443223870207,20);
(4715280410012290258,20);
(4738859649005978947,20);
(4762251535349541764,20);
(4785455451157124424,20);
(4808470785526570285,20);
(4831296934553317574,20);
(4853933301343992673,20);
(4876379296029758476,20);
(4898634335779545462,20);
(4920697844812826210,20);
(4942569254412320506,20);
(4964248002936416659,20);
(4985733535831241015,20);
(5007025305642578278,20);
(5028122772027596166,20);
(5049025401766154414,20);
(5069732668771988887,20);
(5090244054103713195,20);
(5110559045975310299,20);
(5130677139766675471,20);
(5150597838033766501,20);
(5170320650518459016,20);
(5189845094158274802,20);
(5209170693095781929,20);
(5228296978687782537,20);
(5247223489514173111,20);
(5265949771386699285,20);
(5284475377357324144,20)].
Definition mid_36 : list (Z * Z) := [
(5302799867726451510,20);
(5320922810050816160,20);
(5338843779151170033,20);
(5356562357119716566,20);
(5374078133327277879,20);
(5391390704430269742,20);
(5408499674377323374,20);
(5425404654415744155,20);
(5442105263097726797,20);
(5458601126286231203,20);
(5474891877160698028,20);
(5490977156222513061,20);
(5506856611300162130,20);
(5522529897554126488,20);
(5537996677481685920,20);
(5553256620921263181,20);
(5568309405056650480,20);
(5583154714420941050,20);
(5597792240900273386,20);
(5612221683737193823,20);
(5626442749533908799,20);
(5640455152255246379,20);
(5654258613231323560,20);
(5667852861160008887,20);
(5681237632109142205,20);
(5694412669518481712,20);
(5707377724201420643,20);
(5720132554346434028,20);
(5732676925518302019,20);
(5745010610659129213,20);
(5757133390088959440,20);
(5769045051506336425,20);
(5780745389988525829,20);
(5792234207991459743,20);
(5803511315349475091,20);
(5814576529274893130,20);
(5825429674357097964,20);
(5836070582561687925,20);
(5846499093229173827,20);
(5856715053073460048,20);
(5866718316180138948,20);
(5876508744004534796,20);
(5886086205369428503,20);
(5895450576462613057,20);
(5904601740834193591,20);
(5913539589393613377,20);
(5922264020406479285,20);
(5930774939491100656,20);
(5939072259614806143,20);
(5947155901090028784,20);
(5955025791570162791,20);
(5962681866045101142,20);
(5970124066836630244,20);
(5977352343593546335,20);
(5984366653286506826,20);
(5991166960202637393,20);
(5997753235939982247,20);
(6004125459401647019,20);
(6010283616789632161,20);
(6016227701598628880,20);
(6021957714609379314,20);
(6027473663881898619,20);
(6032775564748447950,20);
(6037863439806250010,20)].
Definition mid_37 : list (Z * Z) := [
(6042737318909979088,20);
(6047397239164051252,20);
(6051843244914587028,20);
(6056075387741225585,20);
(6060093726448704393,20);
(6063898327058152987,20);
(6067489262798180655,20);
(6070866614095681013,20);
(6074030468566572749,20);
(6076980921006056718,20);
(6079718073378870963,20);
(6082242034809136333,20);
(6084552921570155620,20);
(6086650857073751947,20);
(6088535971859639073,20);
(6090208403584315006,20);
(6091668297009911887,20);
(6092915803992764168,20);
(6093951083471679103,20);
(6094774301456059445,20);
(6095385631013817973,20);
(6095785252258952014,20);
(6095973352339040252,20);
(6095950125422446020,20);
(6095715772685216666,20);
(6095270502297909371,20);
(6094614529412142878,20);
(6093748076146855014,20);
(6092671371574377714,20);
(6091384651706437114,20);
(6089888159479672769,20);
(6088182144741112467,20);
(6086266864233412510,20);
(6084142581579844722,20);
(6081809567269076677,20);
(6079268098639753481,20);
(6076518459864802685,20);
(6073560941935628871,20);
(6070395842646030687,20);
(6067023466575852120,20);
(6063444125074543556,20);
(6059658136244441134,20);
(6055665824923797680,20);
(6051467522669694288,20);
(6047063567740684764,20);
(6042454305079233978,20);
(6037640086293942498,20);
(6032621269641617184,20);
(6027398220009076019,20);
(6021971308894749630,20);
(6016340914390131550,20);
(6010507421160960623,20);
(6004471220428249378,20);
(5998232709949078562,20);
(5991792293997202229,20);
(5985150383343446068,20);
(5978307395235912813,20);
(5971263753380014888,20);
(5964019887918215607,20);
(5956576235409705850,20);
(5948933238809774732,20);
(5941091347449023452,20);
(5933051017012427875,20);
(5924812709518093717,20)].
Definition mid_38 : list (Z * Z) := [
(5916376893295986761,20);
(5907744042966268233,20);
(5898914639417618400,20);
(5889889169785273576,20);
(5880668127428869546,20);
(5871252011910215590,20);
(5861641328970636222,20);
(5851836590508399660,20);
(5841838314555813233,20);
(5831647025256120331,20);
(5821263252840275237,20);
(5810687533603505622,20);
(5799920409881725858,20);
(5788962430027688733,20);
(5777814148387054594,20);
(5766476125274203751,20);
(5754948926947907328,20);
(5743233125586839904,20);
(5731329299264863175,20);
(5719238031926159038,20);
(5706959913360234310,20);
(5694495539176641641,20);
(5681845510779613001,20);
(5669010435342562715,20);
(5655990925782287959,20);
(5642787600733064485,20);
(5629401084520669479,20);
(5615832007136059567,20);
(5602081004208959297,20);
(5588148716981398284,20);
(5574035792280878504,20);
(5559742882493519389,20);
(5545270645536990589,20);
(5530619744833302487,20);
(5515790849281448222,20);
(5500784633229773013,20);
(5485601776448425365,20);
(5470242964101335731,20);
(5454708886718351996,20);
(5439000240166987077,20);
(5423117725624113789,20);
(5407062049547496640,20);
(5390833923647164044,20);
(5374434064856668802,20);
(5357863195304077980,20);
(5341122042282967636,20);
(5324211338223209383,20);
(5307131820661516175,20);
(5289884232212019310,20);
(5272469320536576215,20);
(5254887838314915849,20);
(5237140543214788974,20);
(5219228197861830454,20);
(5201151569809316089,20);
(5182911431507822991,20);
(5164508560274734539,20);
(5145943738263589889,20);
(5127217752433306519,20);
(5108331394517288265,20);
(5089285460992350185,20);
(5070080753047587901,20);
(5050718076553058211,20);
(5031198242028282752,20);
(5011522064610827998,20)].
Definition mid_39 : list (Z * Z) := [
(4991690364024480020,20);
(4971703964547460192,20);
(4951563694980555541,20);
(4931270388614966693,20);
(4910824883200155810,20);
(4890228020911547430,20);
(4869480648318098848,20);
(4848583616349690789,20);
(4827537780264567341,20);
(4806343999616458085,20);
(4785003138221756436,20);
(4763516064126436383,20);
(4741883649572962989,20);
(4720106770967028714,20);
(4698186308844284204,20);
(4676123147836757504,20);
(4653918176639375986,20);
(4631572287976245400,20);
(4609086378566933789,20);
(4586461349092482709,20);
(4563698104161497543,20);
(4540797552276072679,20);
(4517760605797500190,20);
(4494588180912080511,20);
(4471281197596696511,20);
(4447840579584280002,20);
(4424267254329306009,20);
(4400562152973085811,20);
(4376726210308929527,20);
(4352760364747376015,20);
(4328665558281200032,20);
(4304442736450318774,20);
(4280092848306752545,20);
(4255616846379326607,20);
(4231015686638363998,20);
(4206290328460323552,20);
(4181441734592326182,20);
(4156470871116545174,20);
(4131378707414628398,20);
(4106166216131934554,20);
(4080834373141728477,20);
(4055384157509318854,20);
(4029816551456149448,20);
(4004132540323636358,20);
(3978333112537235650,20);
(3952419259570155718,20);
(3926391975907111975,20);
(3900252259008071126,20);
(3874001109271837245,20);
(3847639529999571234,20);
(3821168527358311667,20);
(3794589110344370742,20);
(3767902290746692751,20);
(3741109083110142480,20);
(3714210504698767235,20);
(3687207575458907594,20);
(3660101317982328295,20);
(3632892757469322748,20);
(3605582921691673215,20);
(3578172840955531897,20);
(3550663548064450503,20);
(3523056078282122555,20);
(3495351469295160385,20);
(3467550761175898499,20)].
Definition mid_40 : list (Z * Z) := [
(3439654996345063720,20);
(3411665219534355808,20);
(3383582477749137035,20);
(3355407820230967703,20);
(3327142298420013994,20);
(3298786965917676478,20);
(3270342878448915386,20);
(3241811093824626538,20);
(3213192671904098463,20);
(3184488674557200971,20);
(3155700165626729864,20);
(3126828210890678778,20);
(3097873878024409722,20);
(3068838236562784413,20);
(3039722357862456592,20);
(3010527315063872555,20);
(2981254183053381676,20);
(2951904038425356633,20);
(2922477959444228293,20);
(2892977026006430391,20);
(2863402319602474308,20);
(2833754923278945792,20);
(2804035921600333756,20);
(2774246400611119281,20);
(2744387447797607196,20);
(2714460152049846114,20);
(2684465603623512747,20);
(2654404894101841661,20);
(2624279116357395789,20);
(2594089364514005208,20);
(2563836733908565410,20);
(2533522321052872339,20);
(2503147223595478602,20);
(2472712540283522956,20);
(2442219370924449476,20);
(2411668816347972699,20);
(2381061978367808585,20);
(2350399959743439127,20);
(2319683864142038643,20);
(2288914796100240470,20);
(2258093860985876597,20);
(2227222164959932402,20);
(2196300814938328960,20);
(2165330918553663025,20);
(2134313584117212420,20);
(2103249920580676363,20);
(2072141037498076085,20);
(2040988044987618669,20);
(2009792053693617089,20);
(1978554174748349895,20);
(1947275519734028779,20);
(1915957200644721053,20);
(1884600329848249572,20);
(1853206020048260572,20);
(1821775384246182572,20);
(1790309535703187363,20);
(1758809587902336255,20);
(1727276654510595533,20);
(1695711849340873420,20);
(1664116286314245435,20);
(1632491079422064909,20);
(1600837342688059273,20);
(1569156190130669565,20);
(1537448735725228249,20)].
Definition mid_41 : list (Z * Z) := [
(1505716093366207993,20);
(1473959376829560471,20);
(1442179699735095418,20);
(1410378175508775721,20);
(1378555917345238545,20);
(1346714038170172129,20);
(1314853650602847319,20);
(1282975866918687098,20);
(1251081799011815807,20);
(1219172558357715756,20);
(1187249255975839773,20);
(1155313002392431912,20);
(1123364907603253797,20);
(1091406081036339765,20);
(1059437631514981160,20);
(1027460667220603252,20);
(9954762956556636663,21);
(9634856236068070276,21);
(9314897571078967903,21);
(8994898014030819344,21);
(8674868609101299421,21);
(8354820391836078122,21);
(8034764388781564029,21);
(7714711617119713802,21);
(7394673084301857206,21);
(7074659787683494454,21);
(6754682714160666068,21);
(6434752839805614986,21);
(6114881129504146084,21);
(5795078536593415049,21);
(5475356002500293175,21);
(5155724456379775535,21);
(4836194814755938320,21);
(4516777981161897854,21);
(4197484845780509455,21);
(3878326285087576025,21);
(3559313161494014922,21);
(3240456322988873126,21);
(2921766602784826514,21);
(2603254818962751505,21);
(2284931774117096841,21);
(1966808255003778955,21);
(1648895032187144708,21);
(1331202859688308468,21);
(1013742474634615233,21);
(6965245969101002471,22);
(3795599288058420953,22);
(6285915467254162275,23);
(-2535670594268588400,22);
(-5697080660641302280,22);
(-8855532367899752923,22);
(-1201091962479042697,21);
(-1516313653674007103,21);
(-1831207740926959170,21);
(-2145763675141579112,21);
(-2459970927914333604,21);
(-2773818991872943965,21);
(-3087297381015633238,21);
(-3400395631049311831,21);
(-3713103299725090383,21);
(-4025409967174431447,21);
(-4337305236244289389,21);
(-4648778732829520269,21);
(-4959820106206004262,21)].
Definition mid_42 : list (Z * Z) := [
(-5270419029362214194,21);
(-5580565199328917959,21);
(-5890248337509066540,21);
(-6199458190005678430,21);
(-6508184527948632919,21);
(-6816417147820781619,21);
(-7124145871783336623,21);
(-7431360547998411108,21);
(-7738051050952144544,21);
(-8044207281776545940,21);
(-8349819168568684696,21);
(-8654876666710175498,21);
(-8959369759185552978,21);
(-9263288456897925474,21);
(-9566622798984828271,21);
(-9869362853133048161,21);
(-1017149871589054233,20);
(-1047302051297883431,20);
(-1077391839960360233,20);
(-1107418256076376888,20);
(-1137380321155924238,20);
(-1167277059749829461,20);
(-1197107499480240533,20);
(-1226870671071055713,20);
(-1256565608378274086,20);
(-1286191348420051561,20);
(-1315746931406783747,20);
(-1345231400770978067,20);
(-1374643803197069143,20);
(-1403983188650943272,20);
(-1433248610409477292,20);
(-1462439125089949783,20);
(-1491553792679147297,20);
(-1520591676562495914,20);
(-1549551843553028871,20);
(-1578433363920156429,20);
(-1607235311418258802,20);
(-1635956763315388196,20);
(-1664596800421410186,20);
(-1693154507116420224,20);
(-1721628971378745890,20);
(-1750019284812929024,20);
(-1778324542677434811,20);
(-1806543843912499642,20);
(-1834676291167382581,20);
(-1862720990827931161,20);
(-1890677053043694072,20);
(-1918543591755002969,20);
(-1946319724719821134,20);
(-1974004573540671589,20);
(-2001597263691005241,20);
(-2029096924541853170,20);
(-2056502689388045590,20);
(-2083813695474322214,20);
(-2111029084021400978,20);
(-2138148000251775122,20);
(-2165169593415407212,20);
(-2192093016815180317,20);
(-2218917427832410930,20);
(-2245641987951886576,20);
(-2272265862787032145,20);
(-2298788222104748355,20);
(-2325208239850166600,20);
(-2351525094171103003,20)].
Definition mid_43 : list (Z * Z) := [
(-2377737967442692529,20);
(-2403846046291355926,20);
(-2429848521619067461,20);
(-2455744588627195232,20);
(-2481533446840275201,20);
(-2507214300129514961,20);
(-2532786356736328390,20);
(-2558248829295506344,20);
(-2583600934858316586,20);
(-2608841894915431975,20);
(-2633970935419615439,20);
(-2658987286808375122,20);
(-2683890184026338499,20);
(-2708678866547472447,20);
(-2733352578397119440,20);
(-2757910568174019514,20);
(-2782352089071823964,20);
(-2806676398900820671,20);
(-2830882760109225404,20);
(-2854970439804405125,20);
(-2878938709773831012,20);
(-2902786846506084234,20);
(-2926514131211338521,20);
(-2950119849841987760,20);
(-2973603293112926996,20);
(-2996963756521692571,20);
(-3020200540368389586,20);
(-3043312949775546852,20);
(-3066300294707679022,20);
(-3089161889990713755,20);
(-3111897055331265191,20);
(-3134505115335641662,20);
(-3156985399528784708,20);
(-3179337242372963501,20);
(-3201559983286290240,20);
(-3223652966661002400,20);
(-3245615541881754357,20);
(-3267447063343414948,20);
(-3289146890469003132,20);
(-3310714387727202446,20);
(-3332148924649831756,20);
(-3353449875849000283,20);
(-3374616621034268876,20);
(-3395648545029412296,20);
(-3416545037789159300,20);
(-3437305494415599655,20);
(-3457929315174609886,20);
(-3478415905511812733,20);
(-3498764676068633062,20);
(-3518975042697974898,20);
(-3539046426479728474,20);
(-3558978253736214820,20);
(-3578769956047301443,20);
(-3598420970265375080,20);
(-3617930738530115292,20);
(-3637298708283200066,20);
(-3656524332282515277,20);
(-3675607068616555673,20);
(-3694546380718333189,20);
(-3713341737379273477,20);
(-3731992612762760619,20);
(-3750498486417733895,20);
(-3768858843291756494,20);
(-3787073173744227861,20)].
Definition mid_44 : list (Z * Z) := [
(-3805140973559151957,20);
(-3823061743957868047,20);
(-3840834991611457444,20);
(-3858460228653117635,20);
(-3875936972690165877,20);
(-3893264746815981031,20);
(-3910443079621696294,20);
(-3927471505207656699,20);
(-3944349563194798902,20);
(-3961076798735697901,20);
(-3977652762525509672,20);
(-3994077010812675799,20);
(-4010349105409504594,20);
(-4026468613702371968,20);
(-4042435108661964621,20);
(-4058248168853173521,20);
(-4073907378444820149,20);
(-4089412327219155846,20);
(-4104762610581318139,20);
(-4119957829568306196,20);
(-4134997590858076333,20);
(-4149881506778189261,20);
(-4164609195314414314,20);
(-4179180280119016572,20);
(-4193594390518966958,20);
(-4207851161523871314,20);
(-4221950233833710736,20);
(-4235891253846401500,20);
(-4249673873665161389,20);
(-4263297751105663697,20);
(-4276762549702978894,20);
(-4290067938718337970,20);
(-4303213593145702176,20);
(-4316199193718126687,20);
(-4329024426913872375,20);
(-4341688984962442655,20);
(-4354192565850283775,20);
(-4366534873326371330,20);
(-4378715616907559449,20);
(-4390734511883770397,20);
(-4402591279322923268,20);
(-4414285646075716274,20);
(-4425817344780190454,20);
(-4437186113866109505,20);
(-4448391697559060665,20);
(-4459433845884520214,20);
(-4470312314671527620,20);
(-4481026865556295841,20);
(-4491577265985596812,20);
(-4501963289219865910,20);
(-4512184714336230779,20);
(-4522241326231255659,20);
(-4532132915623512254,20);
(-4541859279055930620,20);
(-4551420218898043907,20);
(-4560815543347856993,20);
(-4570045066433676972,20);
(-4579108608015700077,20);
(-4588005993787376557,20);
(-4596737055276535477,20);
(-4605301629846447059,20);
(-4613699560696565838,20);
(-4621930696863099652,20);
(-4629994893219394059,20)].
Definition mid_45 : list (Z * Z) := [
(-4637892010476165477,20);
(-4645621915181401274,20);
(-4653184479720262612,20);
(-4660579582314586244,20);
(-4667807107022313440,20);
(-4674866943736685765,20);
(-4681758988185266007,20);
(-4688483141928711379,20);
(-4695039312359397532,20);
(-4701427412699839964,20);
(-4707647362000887126,20);
(-4713699085139760880,20);
(-4719582512817859649,20);
(-4725297581558410981,20);
(-4730844233703894453,20);
(-4736222417413284147,20);
(-4741432086659043421,20);
(-4746473201224087057,20);
(-4751345726698293082,20);
(-4756049634475089521,20);
(-4760584901747635239,20);
(-4764951511504921661,20);
(-4769149452527685767,20);
(-4773178719384044838,20);
(-4777039312425021556,20);
(-4780731237779797804,20);
(-4784254507350924057,20);
(-4787609138809141573,20);
(-4790795155588148391,20);
(-4793812586879121762,20);
(-4796661467625110836,20);
(-4799341838515095576,20);
(-4801853745978074128,20);
(-4804197242176705407,20);
(-4806372385001020375,20);
(-4808379238061719074,20);
(-4810217870683440589,20);
(-4811888357897738111,20);
(-4813390780435974903,20);
(-4814725224721889962,20);
(-4815891782864113041,20);
(-4816890552648405571,20);
(-4817721637529769063,20);
(-4818385146624309251,20);
(-4818881194700976034,20);
(-4819209902173104271,20);
(-4819371395089716570,20);
(-4819365805126699792,20);
(-4819193269577821959,20);
(-4818853931345431357,20);
(-4818347938931162588,20);
(-4817675446426313013,20);
(-4816836613502095688,20);
(-4815831605399711890,20);
(-4814660592920209925,20);
(-4813323752414238460,20);
(-4811821265771498018,20);
(-4810153320410152228,20);
(-4808320109265933756,20);
(-4806321830781184329,20);
(-4804158688893610946,20);
(-4801830893024960911,20);
(-4799338658069447067,20);
(-4796682204382023140,20)].
Definition mid_46 : list (Z * Z) := [
(-4793861757766496728,20);
(-4790877549463466722,20);
(-4787729816138016486,20);
(-4784418799867379973,20);
(-4780944748128269223,20);
(-4777307913784129001,20);
(-4773508555072199927,20);
(-4769546935590419923,20);
(-4765423324284077944,20);
(-4761137995432414977,20);
(-4756691228634986335,20);
(-4752083308797826894,20);
(-4747314526119529587,20);
(-4742385176077097697,20);
(-4737295559411616036,20);
(-4732045982113838173,20);
(-4726636755409471119,20);
(-4721068195744436424,20);
(-4715340624769884942,20);
(-4709454369327053386,20);
(-4703409761431960601,20);
(-4697207138259974074,20);
(-4690846842130179384,20);
(-4684329220489558826,20);
(-4677654625897107593,20);
(-4670823416007649498,20);
(-4663835953555664493,20);
(-4656692606338756757,20);
(-4649393747201126942,20);
(-4641939754016849440,20);
(-4634331009672902624,20);
(-4626567902052154679,20);
(-4618650824016166251,20);
(-4610580173387752306,20);
(-4602356352933524575,20);
(-4593979770346184183,20);
(-4585450838226686615,20);
(-4576769974066238061,20);
(-4567937600228236250,20);
(-4558954143929872665,20);
(-4549820037223782643,20);
(-4540535716979402642,20);
(-4531101624864267846,20);
(-4521518207325108535,20);
(-4511785915568827798,20);
(-4501905205543316885,20);
(-4491876537918113726,20);
(-4481700378065004570,20);
(-4471377196038264779,20);
(-4460907466555085604,20);
(-4450291668975525639,20);
(-4439530287282546922,20);
(-4428623810061761701,20);
(-4417572730481238857,20);
(-4406377546270856538,20);
(-4395038759701863640,20);
(-4383556877566043702,20);
(-4371932411154887815,20);
(-4360165876238526056,20);
(-4348257793044650599,20);
(-4336208686237141147,20);
(-4324019084894727138,20);
(-4311689522489405013,20);
(-4299220536864727799,20)].
Definition mid_47 : list (Z * Z) := [
(-4286612670214035026,20);
(-4273866469058475170,20);
(-4260982484224946909,20);
(-4247961270823868291,20);
(-4234803388226898030,20);
(-4221509400044389654,20);
(-4208079874102885198,20);
(-4194515382422375066,20);
(-4180816501193435064,20);
(-4166983810754284340,20);
(-4153017895567748252,20);
(-4138919344197949934,20);
(-4124688749287076101,20);
(-4110326707531898605,20);
(-4095833819660176650,20);
(-4081210690407020836,20);
(-4066457928491069851,20);
(-4051576146590552679,20);
(-4036565961319268925,20);
(-4021427993202473378,20);
(-4006162866652517029,20);
(-3990771209944581760,20);
(-3975253655192109020,20);
(-3959610838322231291,20);
(-3943843399051047416,20);
(-3927951980858845893,20);
(-3911937230965078366,20);
(-3895799800303442056,20);
(-3879540343496618721,20);
(-3863159518831146833,20);
(-3846657988231934333,20);
(-3830036417236910157,20);
(-3813295474971411386,20);
(-3796435834122510733,20);
(-3779458170913279486,20);
(-3762363165076928334,20);
(-3745151499830794151,20);
(-3727823861850332321,20);
(-3710380941242927971,20);
(-3692823431521626704,20);
(-3675152029578850760,20);
(-3657367435659860527,20);
(-3639470353336279884,20);
(-3621461489479418927,20);
(-3603341554233650823,20);
(-3585111260989409798,20);
(-3566771326356503458,20);
(-3548322470136976159,20);
(-3529765415298060510,20);
(-3511100887945043519,20);
(-3492329617294022415,20);
(-3473452335644471728,20);
(-3454469778351952625,20);
(-3435382683800535658,20);
(-3416191793375215197,20);
(-3396897851434274584,20);
(-3377501605281544445,20);
(-3358003805138540937,20);
(-3338405204116585978,20);
(-3318706558188833783,20);
(-3298908626162218305,20);
(-3279012169649338226,20);
(-3259017953040219823,20);
(-3238926743474049991,20)].
Definition mid_48 : list (Z * Z) := [
(-3218739310810864174,20);
(-3198456427603126040,20);
(-3178078869067160750,20);
(-3157607413054729084,20);
(-3137042840024306667,20);
(-3116385933012424947,20);
(-3095637477604932727,20);
(-3074798261908187960,20);
(-3053869076520074333,20);
(-3032850714501227757,20);
(-3011743971345876361,20);
(-2990549644952865752,20);
(-2969268535596459799,20);
(-2947901445897259387,20);
(-2926449180792852628,20);
(-2904912547508570198,20);
(-2883292355528170245,20);
(-2861589416564302643,20);
(-2839804544529225122,20);
(-2817938555505131171,20);
(-2795992267714690269,20);
(-2773966501491360176,20);
(-2751862079249831755,20);
(-2729679825456143502,20);
(-2707420566598130532,20);
(-2685085131155455843,20);
(-2662674349569844195,20);
(-2640189054215152931,20);
(-2617630079367494825,20);
(-2594998261175176721,20);
(-2572294437628747446,20);
(-2549519448530907645,20);
(-2526674135466419960,20);
(-2503759341772020253,20);
(-2480775912506162639,20);
(-2457724694418877281,20);
(-2434606535921502238,20);
(-2411422287056476377,20);
(-2388172799466880408,20);
(-2364858926366300573,20);
(-2341481522508297164,20);
(-2318041444156099598,20);
(-2294539549052141553,20);
(-2270976696387663404,20);
(-2247353746772122116,20);
(-2223671562202844676,20);
(-2199931006034350905,20);
(-2176132942947965263,20);
(-2152278238921035911,20);
(-2128367761196581220,20);
(-2104402378252490449,20);
(-2080382959770994342,20);
(-2056310376607967810,20);
(-2032185500762339128,20);
(-2008009205345307607,20);
(-1983782364549729893,20);
(-1959505853619383786,20);
(-1935180548818230331,20);
(-1910807327399761946,20);
(-1886387067576157997,20);
(-1861920648487594074,20);
(-1837408950171459318,20);
(-1812852853531673331,20);
(-1788253240307727948,20)].
Definition mid_49 : list (Z * Z) := [
(-1763610993044150560,20);
(-1738926995059542069,20);
(-1714202130415855285,20);
(-1689437283887624056,20);
(-1664633340931207656,20);
(-1639791187653862406,20);
(-1614911710783160231,20);
(-1589995797636059929,20);
(-1565044336088179319,20);
(-1540058214543002166,20);
(-1515038321901172359,20);
(-1489985547529647236,20);
(-1464900781230964177,20);
(-1439784913212591513,20);
(-1414638834055993201,20);
(-1389463434686135160,20);
(-1364259606340595746,20);
(-1339028240538946146,20);
(-1313770229052024785,20);
(-1288486463871350851,20);
(-1263177837178292191,20);
(-1237845241313639301,20);
(-1212489568746820921,20);
(-1187111712045369090,20);
(-1161712563844312894,20);
(-1136293016815685328,20);
(-1110853963637818166,20);
(-1085396296965038948,20);
(-1059920909397008178,20);
(-1034428693448308408,20);
(-1008920541518053791,20);
(-9833973458593743902,21);
(-9578599985490971955,21);
(-9323093914573563762,21);
(-9067464162173310277,21);
(-8811719641947927950,21);
(-8555869264580420741,21);
(-8299921937475201669,21);
(-8043886564456753999,21);
(-7787772045467711290,21);
(-7531587276268427583,21);
(-7275341148134297636,21);
(-7019042547557440004,21);
(-6762700355944790964,21);
(-6506323449319266310,21);
(-6249920698019990721,21);
(-5993500966404121354,21);
(-5737073112547368646,21);
(-5480645987946627419,21);
(-5224228437222215062,21);
(-4967829297820585029,21);
(-4711457399718278066,21);
(-4455121565124857755,21);
(-4198830608187782872,21);
(-3942593334696933675,21);
(-3686418541790675157,21);
(-3430315017659999518,21);
(-3174291541257058796,21);
(-2918356882000325194,21);
(-2662519799482811027,21);
(-2406789043179776919,21);
(-2151173352158020774,21);
(-1895681454783338347,21);
(-1640322068432381337,21)].
Definition mid_50 : list (Z * Z) := [
(-1385103899201141223,21);
(-1130035641617361608,21);
(-8751259783502362546,22);
(-6203835799247027277,22);
(-3658171044325204090,22);
(-1114351972464500416,22);
(1427535092659879619,22);
(3967403960271835128,22);
(6505168575349715978,22);
(9040743021459496896,22);
(1157404152358894713,21);
(1410497845097456997,21);
(1663346831991413272,21);
(1915942579658723487,21);
(2168276569985339974,21);
(2420340300405178155,21);
(2672125284178331929,21);
(2923623050670949835,21);
(3174825145630515068,21);
(3425723131464205283,21);
(3676308587514073942,21);
(3926573110332396040,21);
(4176508313955305980,21);
(4426105830177932965,21);
(4675357308825033031,21);
(4924254418024512012,21);
(5172788844477903616,21);
(5420952293730155365,21);
(5668736490439921054,21);
(5916133178647458440,21);
(6163134122042608458,21);
(6409731104230886184,21);
(6655915929000998620,21);
(6901680420587838309,21);
(7147016423938205680,21);
(7391915804973368115,21);
(7636370450851612084,21);
(7880372270228933052,21);
(8123913193521218115,21);
(8366985173161568812,21);
(8609580183860635408,21);
(8851690222863483476,21);
(9093307310206582769,21);
(9334423488972936472,21);
(9575030825547659746,21);
(9815121409871190375,21);
(1005468735569220277,20);
(1029372080081947596,20);
(1053221390737212222,20);
(1077015886203006555,20);
(1100754787628239854,20);
(1124437318667508533,20);
(1148062705505716388,20);
(1171630176882771171,20);
(1195138964117840527,20);
(1218588301133870927,20);
(1241977424481747853,20);
(1265305573364454254,20);
(1288571989661032278,20);
(1311775917950654298,20);
(1334916605536229026,20);
(1357993302468250840,20);
(1381005261568314831,20);
(1403951738452622819,20)].
Definition mid_51 : list (Z * Z) := [
(1426831991555274973,20);
(1449645282151618662,20);
(1472390874381300507,20);
(1495068035271317035,20);
(1517676034758918061,20);
(1540214145714347872,20);
(1562681643963588496,20);
(1585077808310851599,20);
(1607401920561048539,20);
(1629653265542033505,20);
(1651831131126934443,20);
(1673934808256050122,20);
(1695963590958959877,20);
(1717916776376256921,20);
(1739793664781313573,20);
(1761593559601792869,20);
(1783315767441211175,20);
(1804959598100195489,20);
(1826524364597752886,20);
(1848009383192267263,20);
(1869413973402626536,20);
(1890737458028849544,20);
(1911979163172956853,20);
(1933138418259487679,20);
(1954214556055955745,20);
(1975206912693131325,20);
(1996114827685321891,20);
(2016937643950366885,20);
(2037674707829554774,20);
(2058325369107523797,20);
(2078888981031776911,20);
(2099364900332346962,20);
(2119752487241136421,20);
(2140051105511208904,20);
(2160260122435852387,20);
(2180378908867731946,20);
(2200406839237566484,20);
(2220343291572988986,20);
(2240187647517083089,20);
(2259939292346849898,20);
(2279597614991486082,20);
(2299162008050662301,20);
(2318631867812414107,20);
(2338006594271169886,20);
(2357285591145470358,20);
(2376468265895527107,20);
(2395554029740802962,20);
(2414542297677284982,20);
(2433432488494709570,20);
(2452224024793563800,20);
(2470916333002115550,20);
(2489508843393019658,20);
(2508000990100086453,20);
(2526392211134685650,20);
(2544681948402115201,20);
(2562869647717732485,20);
(2580954758823139628,20);
(2598936735401911197,20);
(2616815035095467271,20);
(2634589119518640846,20);
(2652258454275164753,20);
(2669822508972909819,20);
(2687280757239155632,20);
(2704632676735546984,20)].
Definition mid_52 : list (Z * Z) := [
(2721877749172962879,20);
(2739015460326264806,20);
(2756045300048807351,20);
(2772966762286941528,20);
(2789779345094221472,20);
(2806482550645560473,20);
(2823075885251150746,20);
(2839558859370369323,20);
(2855930987625323464,20);
(2872191788814460259,20);
(2888340785925901447,20);
(2904377506150637375,20);
(2920301480895552346,20);
(2936112245796436426,20);
(2951809340730592035,20);
(2967392309829521707,20);
(2982860701491337960,20);
(2998214068393063175,20);
(3013451967502715073,20);
(3028573960091325915,20);
(3043579611744749377,20);
(3058468492375314429,20);
(3073240176233360543,20);
(3087894241918508892,20);
(3102430272390957477,20);
(3116847854982460891,20);
(3131146581407209806,20);
(3145326047772543931,20);
(3159385854589585874,20);
(3173325606783530123,20);
(3187144913703984089,20);
(3200843389135021866,20);
(3214420651305129051,20);
(3227876322896932465,20);
(3241210031056863256,20);
(3254421407404577138,20);
(3267510088042289290,20);
(3280475713563807405,20);
(3293317929063656335,20);
(3306036384145739221,20);
(3318630732932101313,20);
(3331100634071352401,20);
(3343445750747046225,20);
(3355665750685804527,20);
(3367760306165377970,20);
(3379729094022449615,20);
(3391571795660333621,20);
(3403288097056535177,20);
(3414877688770053682,20);
(3426340265948638747,20);
(3437675528335786684,20);
(3448883180277667604,20);
(3459962930729763853,20);
(3470914493263538292,20);
(3481737586072709834,20);
(3492431931979551180,20);
(3502997258440931211,20);
(3513433297554234558,20);
(3523739786063057738,20);
(3533916465362867132,20);
(3543963081506344009,20);
(3553879385208651154,20);
(3563665131852564172,20);
(3573320081493307210,20)].
Definition mid_53 : list (Z * Z) := [
(3582843998863430995,20);
(3592236653377334915,20);
(3601497819135713457,20);
(3610627274929843755,20);
(3619624804245726718,20);
(3628490195267933260,20);
(3637223240883519920,20);
(3645823738685539939,20);
(3654291490976566137,20);
(3662626304771939012,20);
(3670827991802962098,20);
(3678896368519790627,20);
(3686831256094273701,20);
(3694632480422611887,20);
(3702299872127819136,20);
(3709833266561997356,20);
(3717232503808562405,20);
(3724497428684171718,20);
(3731627890740588788,20);
(3738623744266306864,20);
(3745484848288076901,20);
(3752211066572234965,20);
(3758802267625870747,20);
(3765258324697849657,20);
(3771579115779633701,20);
(3777764523606016306,20);
(3783814435655578901,20);
(3789728744151123208,20);
(3795507346059798920,20);
(3801150143093195294,20);
(3806657041707171840,20);
(3812027953101626565,20);
(3817262793219978328,20);
(3822361482748581896,20);
(3827323947116003516,20);
(3832150116491998132,20);
(3836839925786485889,20);
(3841393314648246932,20);
(3845810227463543340,20);
(3850090613354515551,20);
(3854234426177444162,20);
(3858241624520869495,20);
(3862112171703494662,20);
(3865846035772015771,20);
(3869443189498693314,20);
(3872903610378839595,20);
(3876227280628136845,20);
(3879414187179720114,20);
(3882464321681215053,20);
(3885377680491545332,20);
(3888154264677603361,20);
(3890794080010710754,20);
(3893297136963060068,20);
(3895663450703810982,20);
(3897893041095178840,20);
(3899985932688297685,20);
(3901942154718916755,20);
(3903761741103010247,20);
(3905444730432132416,20);
(3906991165968676238,20);
(3908401095641005074,20);
(3909674572038326912,20);
(3910811652405543626,20);
(3911812398637815741,20)].
Definition mid_54 : list (Z * Z) := [
(3912676877275057807,20);
(3913405159496266550,20);
(3913997321113658889,20);
(3914453442566696861,20);
(3914773608915943226,20);
(3914957909836734584,20);
(3915006439612759431,20);
(3914919297129441228,20);
(3914696585867177836,20);
(3914338413894432461,20);
(3913844893860665003,20);
(3913216142989146829,20);
(3912452283069554199,20);
(3911553440450481894,20);
(3910519746031777127,20);
(3909351335256698590,20);
(3908048348103985298,20);
(3906610929079719352,20);
(3905039227209091551,20);
(3903333396027936636,20);
(3901493593574209551,20);
(3899519982379302113,20);
(3897412729459116126,20);
(3895172006305153839,20);
(3892797988875280196,20);
(3890290857584489254,20);
(3887650797295454097,20);
(3884877997308908842,20);
(3881972651353962633,20);
(3878934957578208942,20);
(3875765118537688458,20);
(3872463341186761082,20);
(3869029836867765582,20);
(3865464821300632070,20);
(3861768514572199579,20);
(3857941141125584977,20);
(3853982929749250746,20);
(3849894113565995035,20);
(3845674930021829308,20);
(3841325620874662394,20);
(3836846432182876299,20);
(3832237614293747263,20);
(3827499421831773163,20);
(3822632113686743466,20);
(3817635953001870253,20);
(3812511207161575072,20);
(3807258147779273710,20);
(3801877050684965981,20);
(3796368195912738080,20);
(3790731867688070661,20);
(3784968354415032404,20);
(3779077948663394498,20);
(3773060947155543188,20);
(3766917650753256325,20);
(3760648364444421632,20);
(3754253397329565534,20);
(3747733062608224475,20);
(3741087677565298891,20);
(3734317563557109504,20);
(3727423045997497325,20);
(3720404454343683581,20);
(3713262122082020000,20);
(3705996386713648200,20);
(3698607589740000867,20)].
Definition mid_55 : list (Z * Z) := [
(3691096076648173185,20);
(3683462196896204743,20);
(3675706303898171323,20);
(3667828755009259339,20);
(3659829911510561334,20);
(3651710138593901311,20);
(3643469805346447737,20);
(3635109284735237728,20);
(3626628953591548576,20);
(3618029192595203364,20);
(3609310386258689218,20);
(3600472922911215207,20);
(3591517194682605774,20);
(3582443597487114384,20);
(3573252531007095611,20);
(3563944398676543307,20);
(3554519607664550357,20);
(3544978568858653256,20);
(3535321696848028883,20);
(3525549409906547638,20);
(3515662129975866135,20);
(3505660282648188214,20);
(3495544297149060647,20);
(3485314606320048109,20);
(3474971646601232589,20);
(3464515858013641342,20);
(3453947684141583929,20);
(3443267572114830366,20);
(3432475972590728203,20);
(3421573339736153768,20);
(3410560131209468965,20);
(3399436808142207445,20);
(3388203835120793400,20);
(3376861680168111168,20);
(3365410814724927729,20);
(3353851713631293696,20);
(3342184855107770830,20);
(3330410720736565189,20);
(3318529795442622110,20);
(3306542567474547722,20);
(3294449528385426373,20);
(3282251173013660955,20);
(3269947999463518329,20);
(3257540509085745523,20);
(3245029206458004134,20);
(3232414599365244362,20);
(3219697198779936792,20);
(3206877518842285446,20);
(3193956076840260422,20);
(3180933393189597919,20);
(3167809991413680221,20);
(3154586398123367108,20);
(3141263142996627428,20);
(3127840758758216461,20);
(3114319781159198899,20);
(3100700748956309108,20);
(3086984203891421363,20);
(3073170690670692581,20);
(3059260756943811901,20);
(3045254953283036900,20);
(3031153833162273867,20);
(3016957952935862136,20);
(3002667871817562770,20);
(2988284151859190926,20)].
Definition mid_56 : list (Z * Z) := [
(2973807357929347459,20);
(2959238057691976689,20);
(2944576821584931822,20);
(2929824222798289510,20);
(2914980837252825405,20);
(2900047243578204176,20);
(2885024023091202483,20);
(2869911759773830298,20);
(2854711040251367224,20);
(2839422453770320057,20);
(2824046592176318246,20);
(2808584049891964599,20);
(2793035423894522917,20);
(2777401313693676418,20);
(2761682321309034960,20);
(2745879051247763006,20);
(2729992110481971324,20);
(2714022108426198884,20);
(2697969656914598821,20);
(2681835370178397085,20);
(2665619864822913604,20);
(2649323759804825609,20);
(2632947676409113855,20);
(2616492238226189246,20);
(2599958071128747814,20);
(2583345803248688483,20);
(2566656064953919125,20);
(2549889488825139716,20);
(2533046709632500587,20);
(2516128364312291560,20);
(2499135091943482587,20);
(2482067533724264391,20);
(2464926332948581475,20);
(2447712134982420185,20);
(2430425587240298002,20);
(2413067339161478406,20);
(2395638042186325548,20);
(2378138349732370968,20);
(2360568917170620395,20);
(2342930401801543439,20);
(2325223462831186444,20);
(2307448761347139291,20);
(2289606960294561511,20);
(2271698724451986368,20);
(2253724720407314711,20);
(2235685616533534745,20);
(2217582082964546231,20);
(2199414791570874703,20);
(2181184415935418300,20);
(2162891631329006206,20);
(2144537114686094134,20);
(2126121544580271763,20);
(2107645601199834365,20);
(2089109966323285383,20);
(2070515323294745344,20);
(2051862356999407597,20);
(2033151753838897610,20);
(2014384201706698879,20);
(1995560389963323827,20);
(1976681009411762960,20);
(1957746752272627316,20);
(1938758312159392927,20);
(1919716384053600858,20);
(1900621664280056217,20)].
Definition mid_57 : list (Z * Z) := [
(1881474850481856809,20);
(1862276641595629265,20);
(1843027737826500798,20);
(1823728840623209391,20);
(1804380652653100880,20);
(1784983877777181899,20);
(1765539221025032995,20);
(1746047388569797049,20);
(1726509087703175307,20);
(1706925026810185431,20);
(1687295915344256061,20);
(1667622463801951213,20);
(1647905383697905249,20);
(1628145387539623248,20);
(1608343188802377824,20);
(1588499501903887015,20);
(1568615042179280147,20);
(1548690525855737042,20);
(1528726670027324291,20);
(1508724192629739939,20);
(1488683812415080368,20);
(1468606248926533631,20);
(1448492222473132980,20);
(1428342454104480387,20);
(1408157665585427036,20);
(1387938579370845242,20);
(1367685918580233834,20);
(1347400406972472375,20);
(1327082768920489174,20);
(1306733729385999888,20);
(1286354013894051677,20);
(1265944348507900934,20);
(1245505459803523084,20);
(1225038074844389188,20);
(1204542921156104979,20);
(1184020726701153631,20);
(1163472219853503228,20);
(1142898129373349364,20);
(1122299184381787135,20);
(1101676114335571263,20);
(1081029649001691295,20);
(1060360518432260958,20);
(1039669452939095962,20);
(1018957183068507945,20);
(9982244395760354536,21);
(9774719534012271324,21);
(9567004556423359257,21);
(9359106775311510154,21);
(9151033504077636660,21);
(8942792056953613455,21);
(8734389748750952254,21);
(8525833894608396066,21);
(8317131809740840528,21);
(8108290809187831960,21);
(7899318207562969207,21);
(7690221318801668780,21);
(7481007455912013458,21);
(7271683930722933759,21);
(7062258053634427706,21);
(6852737133367259315,21);
(6643128476713625920,21);
(6433439388286207872,21);
(6223677170270484720,21);
(6013849122174232467,21)].
Definition mid_58 : list (Z * Z) := [
(5803962540579294185,21);
(5594024718892734796,21);
(5384042947099001997,21);
(5174024511511204211,21);
(4963976694523694784,21);
(4753906774365251192,21);
(4543822024850515187,21);
(4333729715135012546,21);
(4123637109467314862,21);
(3913551466943596124,21);
(3703480041261589077,21);
(3493430080475851737,21);
(3283408826751327801,21);
(3073423516120447636,21);
(2863481378237488391,21);
(2653589636135308093,21);
(2443755505981569289,21);
(2233986196836339200,21);
(2024288910407985934,21);
(1814670840812705049,21);
(1605139174331314143,21);
(1395701089168377386,21);
(1186363755211621495,21);
(9771343337907146317,22);
(7680199774377314409,22);
(5590278296473556166,22);
(3501650246384149985,22);
(1414386871139108773,22);
(-6714406797532524471,23);
(-2755761356696215117,22);
(-4838504212369299103,22);
(-6919598404096564915,22);
(-8998973196200926337,22);
(-1107655796237313854,21);
(-1315228218800422108,21);
(-1522607547254347564,21);
(-1729786753183119906,21);
(-1936758820043437681,21);
(-2143516743396924572,21);
(-2350053531143047464,21);
(-2556362203750230187,21);
(-2762435794486947736,21);
(-2968267349652289888,21);
(-3173849928805214018,21);
(-3379176604994517819,21);
(-3584240464986861337,21);
(-3789034609494973740,21);
(-3993552153404298852,21);
(-4197786226001021942,21);
(-4401729971196341289,21);
(-4605376547753154901,21);
(-4808719129510105258,21);
(-5011750905605867785,21);
(-5214465080701932709,21);
(-5416854875205988872,21);
(-5618913525493401950,21);
(-5820634284128644101,21);
(-6022010420085259497,21);
(-6223035218966967846,21);
(-6423701983225124992,21);
(-6624004032378331096,21);
(-6823934703229525209,21);
(-7023487350083052090,21);
(-7222655344960342109,21)].
Definition mid_59 : list (Z * Z) := [
(-7421432077815970189,21);
(-7619810956751992166,21);
(-7817785408231142305,21);
(-8015348877291375226,21);
(-8212494827756386742,21);
(-8409216742448382895,21);
(-8605508123398268594,21);
(-8801362492055639364,21);
(-8996773389497357554,21);
(-9191734376637086118,21);
(-9386239034430995595,21);
(-9580280964085745310,21);
(-9773853787263610954,21);
(-9966951146287629515,21);
(-1015956670434512571,20);
(-1035169414569211098,20);
(-1054332717585409855,20);
(-1073445952182879200,20);
(-1092508493228623763,20);
(-1111519717776823964,20);
(-1130479005088781685,20);
(-1149385736652666808,20);
(-1168239296203250031,20);
(-1187039069741461193,20);
(-1205784445554020090,20);
(-1224474814232723481,20);
(-1243109568693899838,20);
(-1261688104197600940,20);
(-1280209818366766228,20);
(-1298674111206232600,20);
(-1317080385121814808,20);
(-1335428044939008380,20);
(-1353716497921899839,20);
(-1371945153791762941,20);
(-1390113424745671560,20);
(-1408220725474928006,20);
(-1426266473183509034,20);
(-1444250087606311662,20);
(-1462170991027329087,20);
(-1480028608297755469,20);
(-1497822366853926446,20);
(-1515551696735254784,20);
(-1533216030601970530,20);
(-1550814803752814490,20);
(-1568347454142571956,20);
(-1585813422399643888,20);
(-1603212151843270289,20);
(-1620543088500921505,20);
(-1637805681125380219,20);
(-1654999381211829518,20);
(-1672123643014758465,20);
(-1689177923564882597,20);
(-1706161682685768122,20);
(-1723074383010550492,20);
(-1739915489998408726,20);
(-1756684471950997056,20);
(-1773380800028697551,20);
(-1790003948266882111,20);
(-1806553393591952758,20);
(-1823028615837306646,20);
(-1839429097759243473,20);
(-1855754325052635240,20);
(-1872003786366661926,20);
(-1888176973320252611,20)].
Definition mid_60 : list (Z * Z) := [
(-1904273380517574471,20);
(-1920292505563232430,20);
(-1936233849077598559,20);
(-1952096914711735215,20);
(-1967881209162467004,20);
(-1983586242187164450,20);
(-1999211526618507179,20);
(-2014756578379050395,20);
(-2030220916495782332,20);
(-2045604063114460358,20);
(-2060905543513915847,20);
(-2076124886120123136,20);
(-2091261622520351401,20);
(-2106315287476944256,20);
(-2121285418941205869,20);
(-2136171558067034848,20);
(-2150973249224502268,20);
(-2165690040013229511,20);
(-2180321481275778600,20);
(-2194867127110818744,20);
(-2209326534886145096,20);
(-2223699265251750587,20);
(-2237984882152514732,20);
(-2252182952841035382,20);
(-2266293047890131918,20);
(-2280314741205369602,20);
(-2294247610037327897,20);
(-2308091234993929486,20);
(-2321845200052402927,20);
(-2335509092571364312,20);
(-2349082503302600891,20);
(-2362565026402827645,20);
(-2375956259445225274,20);
(-2389255803431026073,20);
(-2402463262800718508,20);
(-2415578245445383979,20);
(-2428600362717741115,20);
(-2441529229443087021,20);
(-2454364463930214582,20);
(-2467105687982060203,20);
(-2479752526906326901,20);
(-2492304609525907572,20);
(-2504761568189283263,20);
(-2517123038780650496,20);
(-2529388660730040247,20);
(-2541558077023262779,20);
(-2553630934211734843,20);
(-2565606882422114682,20);
(-2577485575365960971,20);
(-2589266670349036487,20);
(-2600949828280732512,20);
(-2612534713683156706,20);
(-2624020994700220627,20);
(-2635408343106486126,20);
(-2646696434316042970,20);
(-2657884947391070049,20);
(-2668973565050400745,20);
(-2679961973677885689,20);
(-2690849863330639982,20);
(-2701636927747217559,20);
(-2712322864355530203,20);
(-2722907374280770024,20);
(-2733390162353071737,20);
(-2743770937115195402,20)].
Definition mid_61 : list (Z * Z) := [
(-2754049410829891714,20);
(-2764225299487278742,20);
(-2774298322812055947,20);
(-2784268204270538144,20);
(-2794134671077564899,20);
(-2803897454203365183,20);
(-2813556288380150705,20);
(-2823110912108676984,20);
(-2832561067664642745,20);
(-2841906501104941515,20);
(-2851146962273781033,20);
(-2860282204808687473,20);
(-2869311986146369162,20);
(-2878236067528441508,20);
(-2887054214006988875,20);
(-2895766194450049777,20);
(-2904371781546937967,20);
(-2912870751813411915,20);
(-2921262885596732917,20);
(-2929547967080571927,20);
(-2937725784289823769,20);
(-2945796129095207966,20);
(-2953758797217819268,20);
(-2961613588233447808,20);
(-2969360305576914522,20);
(-2976998756546063093,20);
(-2984528752305824761,20);
(-2991950107891983013,20);
(-2999262642214932037,20);
(-3006466178063167682,20);
(-3013560542106804088,20);
(-3020545564900779453,20);
(-3027421080888069091,20);
(-3034186928402699684,20);
(-3040842949672599091,20);
(-3047388990822378491,20);
(-3053824901875952513,20);
(-3060150536758995260,20);
(-3066365753301263097,20);
(-3072470413238886228,20);
(-3078464382216340028,20);
(-3084347529788432352,20);
(-3090119729422105208,20);
(-3095780858498090385,20);
(-3101330798312432885,20);
(-3106769434077895700,20);
(-3112096654925215755,20);
(-3117312353904214822,20);
(-3122416427984811213,20);
(-3127408778057861466,20);
(-3132289308935849725,20);
(-3137057929353534447,20);
(-3141714551968324137,20);
(-3146259093360639220,20);
(-3150691474034070239,20);
(-3155011618415422964,20);
(-3159219454854636511,20);
(-3163314915624525908,20);
(-3167297936920464296,20);
(-3171168458859845857,20);
(-3174926425481500170,20);
(-3178571784744874812,20);
(-3182104488529178404,20);
(-3185524492632346022,20)].
Definition mid_62 : list (Z * Z) := [
(-3188831756769851256,20);
(-3192026244573401700,20);
(-3195107923589565746,20);
(-3198076765278123901,20);
(-3200932745010416636,20);
(-3203675842067514601,20);
(-3206306039638223693,20);
(-3208823324817009631,20);
(-3211227688601762942,20);
(-3213519125891409894,20);
(-3215697635483470707,20);
(-3217763220071370722,20);
(-3219715886241709957,20);
(-3221555644471373742,20);
(-3223282509124499040,20);
(-3224896498449319332,20);
(-3226397634574883905,20);
(-3227785943507630734,20);
(-3229061455127852504,20);
(-3230224203185996790,20);
(-3231274225298885749,20);
(-3232211562945740135,20);
(-3233036261464142941,20);
(-3233748370045810144,20);
(-3234347941732289983,20);
(-3234835033410499855,20);
(-3235209705808109182,20);
(-3235472023488864673,20);
(-3235622054847708817,20);
(-3235659872105840079,20);
(-3235585551305591306,20);
(-3235399172305213067,20);
(-3235100818773500170,20);
(-3234690578184324511,20);
(-3234168541811028447,20);
(-3233534804720666900,20);
(-3232789465768164811,20);
(-3231932627590312912,20);
(-3230964396599660116,20);
(-3229884882978276139,20);
(-3228694200671385767,20);
(-3227392467380860164,20);
(-3225979804558607583,20);
(-3224456337399872474,20);
(-3222822194836302140,20);
(-3221077509529027272,20);
(-3219222417861491992,20);
(-3217257059932268626,20);
(-3215181579547667784,20);
(-3212996124214287375,20);
(-3210700845131374964,20);
(-3208295897183143647,20);
(-3205781438930890848,20);
(-3203157632605083127,20);
(-3200424644097209920,20);
(-3197582642951619231,20);
(-3194631802357193739,20);
(-3191572299138863145,20);
(-3188404313749091529,20);
(-3185128030259157250,20);
(-3181743636350382182,20);
(-3178251323305173598,20);
(-3174651285998011246,20);
(-3170943722886302579,20)].
Definition mid_63 : list (Z * Z) := [
(-3167128836001074921,20);
(-3163206830937623920,20);
(-3159177916845995471,20);
(-3155042306421346893,20);
(-3150800215894252604,20);
(-3146451865020816890,20);
(-3141997477072722145,20);
(-3137437278827146653,20);
(-3132771500556590094,20);
(-3128000376018543610,20);
(-3123124142445093607,20);
(-3118143040532366655,20);
(-3113057314429898761,20);
(-3107867211729903670,20);
(-3102572983456357292,20);
(-3097174884054076927,20);
(-3091673171377604459,20);
(-3086068106680010456,20);
(-3080359954601598338,20);
(-3074548983158499962,20);
(-3068635463731118201,20);
(-3062619671052560499,20);
(-3056501883196831998,20);
(-3050282381567042192,20);
(-3043961450883426664,20);
(-3037539379171316778,20);
(-3031016457748949428,20);
(-3024392981215225790,20);
(-3017669247437310479,20);
(-3010845557538209191,20);
(-3003922215884124308,20);
(-2996899530071836862,20);
(-2989777810915871664,20);
(-2982557372435642659,20);
(-2975238531842462272,20);
(-2967821609526432799,20);
(-2960306929043293386,20);
(-2952694817101107067,20);
(-2944985603546875982,20);
(-2937179621353038644,20);
(-2929277206603954700,20);
(-2921278698482115965,20);
(-2913184439254465699,20);
(-2904994774258463919,20);
(-2896710051888121834,20);
(-2888330623579958914,20);
(-2879856843798815971,20);
(-2871289070023605103,20);
(-2862627662732963180,20);
(-2853872985390795008,20);
(-2845025404431733920,20);
(-2836085289246543031,20);
(-2827053012167349971,20);
(-2817928948452856630,20);
(-2808713476273430945,20);
(-2799406976696127217,20);
(-2790009833669554809,20);
(-2780522434008783975,20);
(-2770945167380007429,20);
(-2761278426285258478,20);
(-2751522606046888711,20);
(-2741678104792164353,20);
(-2731745323437563891,20);
(-2721724665673099300,20)].
Definition mid_64 : list (Z * Z) := [
(-2711616537946578628,20);
(-2701421349447717321,20);
(-2691139512092183966,20);
(-2680771440505578390,20);
(-2670317552007335851,20);
(-2659778266594506335,20);
(-2649154006925513380,20);
(-2638445198303774122,20);
(-2627652268661263141,20);
(-2616775648542009683,20);
(-2605815771085522037,20);
(-2594773072010065143,20);
(-2583647989595979147,20);
(-2572440964668787702,20);
(-2561152440582354500,20);
(-2549782863201859734,20);
(-2538332680886799808,20);
(-2526802344473786169,20);
(-2515192307259437807,20);
(-2503503024983027778,20);
(-2491734955809185581,20);
(-2479888560310459025,20);
(-2467964301449855277,20);
(-2455962644563235847,20);
(-2443884057341726146,20);
(-2431729009813999448,20);
(-2419497974328516793,20);
(-2407191425535708598,20);
(-2394809840370046641,20);
(-2382353698032086547,20);
(-2369823479970435340,20);
(-2357219669863688111,20);
(-2344542753602172833,20);
(-2331793219269839498,20);
(-2318971557125883154,20);
(-2306078259586426607,20);
(-2293113821206095235,20);
(-2280078738659578955,20);
(-2266973510723007193,20);
(-2253798638255474079,20);
(-2240554624180268739,20);
(-2227241973466238811,20);
(-2213861193108979109,20);
(-2200412792112037969,20);
(-2186897281467985177,20);
(-2173315174139509379,20);
(-2159666985040420775,20);
(-2145953231016553900,20);
(-2132174430826746375,20);
(-2118331105123606381,20);
(-2104423776434341531,20);
(-2090452969141478115,20);
(-2076419209463601853,20);
(-2062323025435881460,20);
(-2048164946890804194,20);
(-2033945505438608872,20);
(-2019665234447805616,20);
(-2005324669025632459,20);
(-1990924345998469625,20);
(-1976464803892110864,20);
(-1961946582912189180,20);
(-1947370224924338186,20);
(-1932736273434448523,20);
(-1918045273568861828,20)].
Definition mid_65 : list (Z * Z) := [
(-1903297772054459575,20);
(-1888494317198787312,20);
(-1873635458870081399,20);
(-1858721748477324201,20);
(-1843753738950107066,20);
(-1828731984718711193,20);
(-1813657041693867225,20);
(-1798529467246682764,20);
(-1783349820188425208,20);
(-1768118660750349000,20);
(-1752836550563380627,20);
(-1737504052637872318,20);
(-1722121731343255815,20);
(-1706690152387747503,20);
(-1691209882797834949,20);
(-1675681490898013951,20);
(-1660105546290210551,20);
(-1644482619833365772,20);
(-1628813283622896832,20);
(-1613098110970202781,20);
(-1597337676382026839,20);
(-1581532555539919699,20);
(-1565683325279592850,20);
(-1549790563570262007,20);
(-1533854849494023682,20);
(-1517876763225092622,20);
(-1501856886009115925,20);
(-1485795800142423670,20);
(-1469694088951293762,20);
(-1453552336771072109,20);
(-1437371128925485873,20);
(-1421151051705718364,20);
(-1404892692349614565,20);
(-1388596639020774591,20);
(-1372263480787732498,20);
(-1355893807602950515,20);
(-1339488210282020059,20);
(-1323047280482640177,20);
(-1306571610683699043,20);
(-1290061794164303055,20);
(-1273518424982831784,20);
(-1256942097955895087,20);
(-1240333408637363938,20);
(-1223692953297348361,20);
(-1207021328901167895,20);
(-1190319133088352591,20);
(-1173586964151535246,20);
(-1156825421015453791,20);
(-1140035103215857569,20);
(-1123216610878496717,20);
(-1106370544697938239,20);
(-1089497505916626682,20);
(-1072598096303693967,20);
(-1055672918133917539,20);
(-1038722574166609305,20);
(-1021747667624580726,20);
(-1004748802172921243,20);
(-9877265818980634701,21);
(-9706816112865510396,21);
(-9536144952040109812,21);
(-9365258388740322487,21);
(-9194162478571054828,21);
(-9022863280294793342,21);
(-8851366855620984922,21)].
Definition mid_66 : list (Z * Z) := [
(-8679679268995585395,21);
(-8507806587389124889,21);
(-8335754880087448138,21);
(-8163530218479833622,21);
(-7991138675848901210,21);
(-7818586327159883151,21);
(-7645879248850672230,21);
(-7473023518620261832,21);
(-7300025215219971969,21);
(-7126890418242071493,21);
(-6953625207910332784,21);
(-6780235664869733829,21);
(-6606727869977159495,21);
(-6433107904091067177,21);
(-6259381847862280010,21);
(-6085555781524558915,21);
(-5911635784685204120,21);
(-5737627936116367934,21);
(-5563538313545551318,21);
(-5389372993447197682,21);
(-5215138050833963146,21);
(-5040839559048849831,21);
(-4866483589555837749,21);
(-4692076211733416276,21);
(-4517623492665615893,21);
(-4343131496934970678,21);
(-4168606286414993332,21);
(-3994053920063510635,21);
(-3819480453715101177,21);
(-3644891939874956438,21);
(-3470294427512249195,21);
(-3295693961854606960,21);
(-3121096584181022853,21);
(-2946508331617845190,21);
(-2771935236932227854,21);
(-2597383328327730438,21);
(-2422858629239335506,21);
(-2248367158129460728,21);
(-2073914928283230718,21);
(-1899507947605078538,21);
(-1725152218415164406,21);
(-1550853737246128987,21);
(-1376618494640682172,21);
(-1202452474948495368,21);
(-1028361656124486979,21);
(-8543520095268402085,22);
(-6804294997161049489,22);
(-5066000842529871364,22);
(-3328697134991459019,22);
(-1592443304157407837,22);
(1427012963595713283,23);
(1876677390942900871,22);
(3609425783958070534,22);
(5340887361750209540,22);
(7071003094617644849,22);
(8799714038791712177,22);
(1052696133841647284,21);
(1225268622751578230,21);
(1397683003195592704,21);
(1569933417141219922,21);
(1742014016132769879,21);
(1913918961485100434,21);
(2085642424480469836,21);
(2257178586561334101,21)].
Definition mid_67 : list (Z * Z) := [
(2428521639524397306,21);
(2599665785714316227,21);
(2770605238216777670,21);
(2941334221049340166,21);
(3111846969355572517,21);
(3282137729593889719,21);
(3452200759730636361,21);
(3622030329428905637,21);
(3791620720238545340,21);
(3960966225785719774,21);
(4130061151961897901,21);
(4298899817110462748,21);
(4467476552216401685,21);
(4635785701091860687,21);
(4803821620562829207,21);
(4971578680655551821,21);
(5139051264781509601,21);
(5306233769921847240,21);
(5473120606812043910,21);
(5639706200125558025,21);
(5805984988655794529,21);
(5971951425499591806,21);
(6137599978238397064,21);
(6302925129119171972,21);
(6467921375235353813,21);
(6632583228706884215,21);
(6796905216858062544,21);
(6960881882398097659,21);
(7124507783597640309,21);
(7287777494466331218,21);
(7450685604929750683,21);
(7613226721005292644,21);
(7775395464976892976,21);
(7937186475570675442,21);
(8098594408128030261,21);
(8259613934778883490,21);
(8420239744614810284,21);
(8580466543860569562,21);
(8740289056044948240,21);
(8899702022171707833,21);
(9058700200889377441,21);
(9217278368659456017,21);
(9375431319925636373,21);
(9533153867280931906,21);
(9690440841634272509,21);
(9847287092377029344,21);
(1000368748754857165,20);
(1015963691399949208,20);
(1031513027755733003,20);
(1047016250318834156,20);
(1062472853515999092,20);
(1077882333720293732,20);
(1093244189267148468,20);
(1108557920470326121,20);
(1123823029637925110,20);
(1139039021088145143,20);
(1154205401165041278,20);
(1169321678254269838,20);
(1184387362798644365,20);
(1199401967313636248,20);
(1214365006402848626,20);
(1229275996773403386,20);
(1244134457251068124,20);
(1258939908795639849,20)].
Definition mid_68 : list (Z * Z) := [
(1273691874515923798,20);
(1288389879684765510,20);
(1303033451754032762,20);
(1317622120369482674,20);
(1332155417385399998,20);
(1346632876879472022,20);
(1361054035167236914,20);
(1375418430816635444,20);
(1389725604662457245,20);
(1403975099820661300,20);
(1418166461702592002,20);
(1432299238029171792,20);
(1446372978845002731,20);
(1460387236532248618,20);
(1474341565824609235,20);
(1488235523821109831,20);
(1502068669999757911,20);
(1515840566231226559,20);
(1529550776792384242,20);
(1543198868379625117,20);
(1556784410122366916,20);
(1570306973596197544,20);
(1583766132836047710,20);
(1597161464349286519,20);
(1610492547128709873,20);
(1623758962665301786,20);
(1636960294961189652,20);
(1650096130542204331,20);
(1663166058470503042,20);
(1676169670357096145,20);
(1689106560374238966,20);
(1701976325267692131,20);
(1714778564368987790,20);
(1727512879607541463,20);
(1740178875522601504,20);
(1752776159275231532,20);
(1765304340660108634,20);
(1777763032117215050,20);
(1790151848743505233,20);
(1802470408304427188,20);
(1814718331245259927,20);
(1826895240702566120,20);
(1839000762515331441,20);
(1851034525236080683,20);
(1862996160141953961,20);
(1874885301245588984,20);
(1886701585305926993,20);
(1898444651838999617,20);
(1910114143128463504,20);
(1921709704236146052,20);
(1933230983012480808,20);
(1944677630106780158,20);
(1956049298977436540,20);
(1967345645902069534,20);
(1978566329987502606,20);
(1989711013179604540,20);
(2000779360273171464,20);
(2011771038921536872,20);
(2022685719646185459,20);
(2033523075846227837,20);
(2044282783807782264,20);
(2054964522713178046,20);
(2065567974650213759,20);
(2076092824621122990,20)].
Definition mid_69 : list (Z * Z) := [
(2086538760551549451,20);
(2096905473299415582,20);
(2107192656663622182,20);
(2117400007392666525,20);
(2127527225193203558,20);
(2137574012738435031,20);
(2147540075676379959,20);
(2157425122638124276,20);
(2167228865245898056,20);
(2176951018121016032,20);
(2186591298891790366,20);
(2196149428201302906,20);
(2205625129714974125,20);
(2215018130128231649,20);
(2224328159173863742,20);
(2233554949629345740,20);
(2242698237324079399,20);
(2251757761146537876,20);
(2260733263051144248,20);
(2269624488065293336,20);
(2278431184296046685,20);
(2287153102936801546,20);
(2295789998273886981,20);
(2304341627692980607,20);
(2312807751685410501,20);
(2321188133854456409,20);
(2329482540921393521,20);
(2337690742731499821,20);
(2345812512259980859,20);
(2353847625617705094,20);
(2361795862056883730,20);
(2369657003976634660,20);
(2377430836928422567,20);
(2385117149621337335,20);
(2392715733927396754,20);
(2400226384886581729,20);
(2407648900711837139,20);
(2414983082793995331,20);
(2422228735706480687,20);
(2429385667210001362,20);
(2436453688257099806,20);
(2443432612996527392,20);
(2450322258777623552,20);
(2457122446154478071,20);
(2463832998890016709,20);
(2470453743960009108,20);
(2476984511556896626,20);
(2483425135093558778,20);
(2489775451206958923,20);
(2496035299761625165,20);
(2502204523853107654,20);
(2508282969811246113,20);
(2514270487203358953,20);
(2520166928837308529,20);
(2525972150764447741,20);
(2531686012282503839,20);
(2537308375938215205,20);
(2542839107530048617,20);
(2548278076110627871,20);
(2553625153989148508,20);
(2558880216733642673,20);
(2564043143173149256,20);
(2569113815399715409,20);
(2574092118770400853,20)].
Definition mid_70 : list (Z * Z) := [
(2578977941909024740,20);
(2583771176707915646,20);
(2588471718329470386,20);
(2593079465207653519,20);
(2597594319049341058,20);
(2602016184835584736,20);
(2606344970822745480,20);
(2610580588543500585,20);
(2614722952807754797,20);
(2618771981703453544,20);
(2622727596597243874,20);
(2626589722135054886,20);
(2630358286242547722,20);
(2634033220125447591,20);
(2637614458269786286,20);
(2641101938442010424,20);
(2644495601688977640,20);
(2647795392337858045,20);
(2651001257995891022,20);
(2654113149550076101,20);
(2657131021166683760,20);
(2660054830290738137,20);
(2662884537645306485,20);
(2665620107230712646,20);
(2668261506323670387,20);
(2670808705476243258,20);
(2673261678514701409,20);
(2675620402538339201,20);
(2677884857918074596,20);
(2680055028295023206,20);
(2682130900578901314,20);
(2684112464946362617,20);
(2685999714839181624,20);
(2687792646962372176,20);
(2689491261282142207,20);
(2691095561023793686,20);
(2692605552669453256,20);
(2694021245955745270,20);
(2695342653871309752,20);
(2696569792654264844,20);
(2697702681789478085,20);
(2698741344005808201,20);
(2699685805273200137,20);
(2700536094799652412,20);
(2701292245028120292,20);
(2701954291633272554,20);
(2702522273518143808,20);
(2702996232810703225,20);
(2703376214860291407,20);
(2703662268233945898,20);
(2703854444712614630,20);
(2703952799287312470,20);
(2703957390155075496,20);
(2703868278714928117,20);
(2703685529563602460,20);
(2703409210491271655,20);
(2703039392477123506,20);
(2702576149684807888,20);
(2702019559457825848,20);
(2701369702314778548,20);
(2700626661944505527,20);
(2699790525201160862,20);
(2698861382099120368,20);
(2697839325807823915,20)].
Definition mid_71 : list (Z * Z) := [
(2696724452646514711,20);
(2695516862078862694,20);
(2694216656707465116,20);
(2692823942268271140,20);
(2691338827624906171,20);
(2689761424762835557,20);
(2688091848783511623,20);
(2686330217898348985,20);
(2684476653422624565,20);
(2682531279769255830,20);
(2680494224442509996,20);
(2678365618031573747,20);
(2676145594204052541,20);
(2673834289699345695,20);
(2671431844321912538,20);
(2668938400934478192,20);
(2666354105451094678,20);
(2663679106830125348,20);
(2660913557067118990,20);
(2658057611187589903,20);
(2655111427239683838,20);
(2652075166286785649,20);
(2648948992399963176,20);
(2645733072650366738,20);
(2642427577101505790,20);
(2639032678801446138,20);
(2635548553774864911,20);
(2631975381015071863,20);
(2628313342475883593,20);
(2624562623063405806,20);
(2620723410627774294,20);
(2616795895954709267,20);
(2612780272757033936,20);
(2608676737666114701,20);
(2604485490223136870,20);
(2600206732870353685,20);
(2595840670942189607,20);
(2591387512656297479,20);
(2586847469104473773,20);
(2582220754243538460,20);
(2577507584886045561,20);
(2572708180690964908,20);
(2567822764154271270,20);
(2562851560599365905,20);
(2557794798167527250,20);
(2552652707808165597,20);
(2547425523269031267,20);
(2542113481086329813,20);
(2536716820574775808,20);
(2531235783817458937,20);
(2525670615655770460,20);
(2520021563679113522,20);
(2514288878214575307,20);
(2508472812316510717,20);
(2502573621756071925,20);
(2496591565010545730,20);
(2490526903252734958,20);
(2484379900340185146,20);
(2478150822804298103,20);
(2471839939839432648,20);
(2465447523291870030,20);
(2458973847648720373,20);
(2452419190026695200,20);
(2445783830160899383,20)].
Definition mid_72 : list (Z * Z) := [
(2439068050393422213,20);
(2432272135661921186,20);
(2425396373488106910,20);
(2418441053966127047,20);
(2411406469750883644,20);
(2404292916046315079,20);
(2397100690593455957,20);
(2389830093658639604,20);
(2382481428021375816,20);
(2375054998962340680,20);
(2367551114251207484,20);
(2359970084134392632,20);
(2352312221322724883,20);
(2344577840979123265,20);
(2336767260706032467,20);
(2328880800532946369,20);
(2320918782903755306,20);
(2312881532664080864,20);
(2304769377048459730,20);
(2296582645667543179,20);
(2288321670495141111,20);
(2279986785855253259,20);
(2271578328409030317,20);
(2263096637141572345,20);
(2254542053348768116,20);
(2245914920624014072,20);
(2237215584844855221,20);
(2228444394159532008,20);
(2219601698973591719,20);
(2210687851936197004,20);
(2201703207926593298,20);
(2192648124040389931,20);
(2183522959575783656,20);
(2174328076019725262,20);
(2165063837034060870,20);
(2155730608441520230,20);
(2146328758211712984,20);
(2136858656447056595,20);
(2127320675368563410,20);
(2117715189301673170,20);
(2108042574661944668,20);
(2098303209940706807,20);
(2088497475690637845,20);
(2078625754511327986,20);
(2068688431034723316,20);
(2058685891910513183,20);
(2048618525791521400,20);
(2038486723318956931,20);
(2028290877107639251,20);
(2018031381731211216,20);
(2007708633707185053,20);
(1997323031482039005,20);
(1986874975416220296,20);
(1976364867769043673,20);
(1965793112683598964,20);
(1955160116171619777,20);
(1944466286098165894,20);
(1933712032166413908,20);
(1922897765902326431,20);
(1912023900639222077,20);
(1901090851502363482,20);
(1890099035393466922,20);
(1879048870975164043,20);
(1867940778655364023,20)].
Definition mid_73 : list (Z * Z) := [
(1856775180571698311,20);
(1845552500575733598,20);
(1834273164217297553,20);
(1822937598728661610,20);
(1811546233008703988,20);
(1800099497607002969,20);
(1788597824707991932,20);
(1777041648114840652,20);
(1765431403233556559,20);
(1753767527056864992,20);
(1742050458148083555,20);
(1730280636624986768,20);
(1718458504143620391,20);
(1706584503882006137,20);
(1694659080523904654,20);
(1682682680242484838,20);
(1670655750683937638,20);
(1658578740951064182,20);
(1646452101586876049,20);
(1634276284558048783,20);
(1622051743238397958,20);
(1609778932392419426,20);
(1597458308158537094,20);
(1585090328032566845,20);
(1572675450851029541,20);
(1560214136774425511,20);
(1547706847270462552,20);
(1535154045097384887,20);
(1522556194287018674,20);
(1509913760128024293,20);
(1497227209149007247,20);
(1484497009101580153,20);
(1471723628943425247,20);
(1458907538821377359,20);
(1446049210054328564,20);
(1433149115116272819,20);
(1420207727619240100,20);
(1407225522296166008,20);
(1394202974983805438,20);
(1381140562605604957,20);
(1368038763154505975,20);
(1354898055675716508,20);
(1341718920249620681,20);
(1328501837974356732,20);
(1315247290948682625,20);
(1301955762254639742,20);
(1288627735940229245,20);
(1275263697002040029,20);
(1261864131368021190,20);
(1248429525879919157,20);
(1234960368276009218,20);
(1221457147173649754,20);
(1207920352051795529,20);
(1194350473233585057,20);
(1180748001868864999,20);
(1167113429916675355,20);
(1153447250127715915,20);
(1139749956026906222,20);
(1126022041895750891,20);
(1112264002754829312,20);
(1098476334346236948,20);
(1084659533115965406,20);
(1070814096196290137,20);
(1056940521388274878,20)].
Definition mid_74 : list (Z * Z) := [
(1043039307143982242,20);
(1029110952548958902,20);
(1015155957304581837,20);
(1001174821710356169,20);
(9871680466462499567,21);
(9731361335551406977,21);
(9590795844249579150,21);
(9449989017711180397,21);
(9308945886188217320,21);
(9167671484852981181,21);
(9026170853621350715,21);
(8884449036975935327,21);
(8742511083788422066,21);
(8600362047142311173,21);
(8458006984156623068,21);
(8315450955807572250,21);
(8172699026751788567,21);
(8029756265149227967,21);
(7886627742485496917,21);
(7743318533394381517,21);
(7599833715481738375,21);
(7456178369146524917,21);
(7312357577404790011,21);
(7168376425712182261,21);
(7024240001786364630,21);
(6879953395430116886,21);
(6735521698354520435,21);
(6590950004001026007,21);
(6446243407365244774,21);
(6301407004819813140,21);
(6156445893937156043,21);
(6011365173312808834,21);
(5866169942389056619,21);
(5720865301277692355,21);
(5575456350583458433,21);
(5429948191228325255,21);
(5284345924274186888,21);
(5138654650746986123,21);
(4992879471460830859,21);
(4847025486841466044,21);
(4701097796750216586,21);
(4555101500309456826,21);
(4409041695724982661,21);
(4262923480112671033,21);
(4116751949321147824,21);
(3970532197757900908,21);
(3824269318213967695,21);
(3677968401688795717,21);
(3531634537215375992,21);
(3385272811686903822,21);
(3238888309680765937,21);
(3092486113285572089,21);
(2946071301927081186,21);
(2799648952194017278,21);
(2653224137664800166,21);
(2506801928734503707,21);
(2360387392441326213,21);
(2213985592293632454,21);
(2067601588098103710,21);
(1921240435786485080,21);
(1774907187243770883,21);
(1628606890136575450,21);
(1482344587741034900,21);
(1336125318771251656,21)].
Definition mid_75 : list (Z * Z) := [
(1189954117209411242,21);
(1043836012133179903,21);
(8977760275463510286,22);
(7517791822084059694,22);
(6058504894640585935,22);
(4599949570738438159,22);
(3142175870450486302,22);
(1685233754617562079,22);
(2291731231684970379,23);
(-1225956186565327420,22);
(-2680104401535781397,22);
(-4133221814653443085,22);
(-5585258786459684115,22);
(-7036165746802448048,22);
(-8485893196504932113,22);
(-9934391709022197172,22);
(-1138161193211061463,21);
(-1282750458948161846,21);
(-1427202048245250487,21);
(-1571511049160075361,21);
(-1715672557841153812,21);
(-1859681678690775419,21);
(-2003533524530585683,21);
(-2147223216763767713,21);
(-2290745885538263658,21);
(-2434096669909839583,21);
(-2577270718004019950,21);
(-2720263187177549176,21);
(-2863069244180643791,21);
(-3005684065317124325,21);
(-3148102836605065017,21);
(-3290320753937273513,21);
(-3432333023240669891,21);
(-3574134860635235899,21);
(-3715721492593151987,21);
(-3857088156097276434,21);
(-3998230098797715855,21);
(-4139142579170927531,21);
(-4279820866675360103,21);
(-4420260241908030574,21);
(-4560455996760779535,21);
(-4700403434575827280,21);
(-4840097870299543172,21);
(-4979534630638556870,21);
(-5118709054212478189,21);
(-5257616491707528539,21);
(-5396252306029749972,21);
(-5534611872457287883,21);
(-5672690578791775989,21);
(-5810483825510545305,21);
(-5947987025916703745,21);
(-6085195606289405673,21);
(-6222105006034032125,21);
(-6358710677831066506,21);
(-6495008087784452482,21);
(-6630992715570114063,21);
(-6766660054583568430,21);
(-6902005612085633166,21);
(-7037024909350550819,21);
(-7171713481810510459,21);
(-7306066879201033974,21);
(-7440080665705905288,21);
(-7573750420101347559,21);
(-7707071735898306936,21)].
Definition mid_76 : list (Z * Z) := [
(-7840040221486904715,21);
(-7972651500277500719,21);
(-8104901210842443623,21);
(-8236785007057479541,21);
(-8368298558241969720,21);
(-8499437549298223538,21);
(-8630197680851192307,21);
(-8760574669386950522,21);
(-8890564247389896868,21);
(-9020162163480669945,21);
(-9149364182552525288,21);
(-9278166085906966454,21);
(-9406563671389389994,21);
(-9534552753523904689,21);
(-9662129163646185348,21);
(-9789288750038257353,21);
(-9916027378060134415,21);
(-1004234093028183797,20);
(-1016822530661502105,20);
(-1029367642444365544,20);
(-1041869021875293198,20);
(-1054326264225992522,20);
(-1066738966554110768,20);
(-1079106727716027010,20);
(-1091429148379606355,20);
(-1103705831036811726,20);
(-1115936380016254587,20);
(-1128120401495737862,20);
(-1140257503514678465,20);
(-1152347295986402669,20);
(-1164389390710497858,20);
(-1176383401384995149,20);
(-1188328943618488162,20);
(-1200225634942218497,20);
(-1212073094822093029,20);
(-1223870944670485232,20);
(-1235618807858226281,20);
(-1247316309726264651,20);
(-1258963077597365608,20);
(-1270558740787775150,20);
(-1282102930618706817,20);
(-1293595280427807352,20);
(-1305035425580582109,20);
(-1316423003481652886,20);
(-1327757653585985922,20);
(-1339039017410088156,20);
(-1350266738543038671,20);
(-1361440462657482163,20);
(-1372559837520571230,20);
(-1383624513004809604,20);
(-1394634141098707696,20);
(-1405588375917628426,20);
(-1416486873714232000,20);
(-1427329292889057723,20);
(-1438115294000960435,20);
(-1448844539777470117,20);
(-1459516695124992922,20);
(-1470131427139115959,20);
(-1480688405114629139,20);
(-1491187300555560369,20);
(-1501627787185164618,20);
(-1512009540955744358,20);
(-1522332240058422818,20);
(-1532595564932872668,20)].
Definition mid_77 : list (Z * Z) := [
(-1542799198276907820,20);
(-1552942825055975834,20);
(-1563026132512657790,20);
(-1573048810175993809,20);
(-1583010549870741968,20);
(-1592911045726590896,20);
(-1602749994187278870,20);
(-1612527094019517229,20);
(-1622242046322053613,20);
(-1631894554534410111,20);
(-1641484324445681778,20);
(-1651011064203211642,20);
(-1660474484321154687,20);
(-1669874297688987361,20);
(-1679210219579945970,20);
(-1688481967659248920,20);
(-1697689261992463283,20);
(-1706831825053561902,20);
(-1715909381732993316,20);
(-1724921659345668434,20);
(-1733868387638842767,20);
(-1742749298799872379,20);
(-1751564127463973303,20);
(-1760312610721784590,20);
(-1768994488126899092,20);
(-1777609501703314096,20);
(-1786157395952775104,20);
(-1794637917861995752,20);
(-1803050816909852402,20);
(-1811395845074471184,20);
(-1819672756840142250,20);
(-1827881309204278798,20);
(-1836021261684185266,20);
(-1844092376323755098,20);
(-1852094417700113696,20);
(-1860027152930137512,20);
(-1867890351676846153,20);
(-1875683786155812535,20);
(-1883407231141354110,20);
(-1891060463972702582,20);
(-1898643264560096952,20);
(-1906155415390711413,20);
(-1913596701534553066,20);
(-1920966910650268727,20);
(-1928265832990805340,20);
(-1935493261409006530,20);
(-1942648991363144992,20);
(-1949732820922337254,20);
(-1956744550771814112,20);
(-1963683984218203560,20);
(-1970550927194642671,20);
(-1977345188265776377,20);
(-1984066578632767697,20);
(-1990714912138112289,20);
(-1997290005270370775,20);
(-2003791677168861515,20);
(-2010219749628245831,20);
(-2016574047102922748,20);
(-2022854396711497998,20);
(-2029060628240994535,20);
(-2035192574151081443,20);
(-2041250069578154011,20);
(-2047232952339312489,20);
(-2053141062936294364,20)].
Definition mid_78 : list (Z * Z) := [
(-2058974244559272707,20);
(-2064732343090555297,20);
(-2070415207108192504,20);
(-2076022687889543181,20);
(-2081554639414654601,20);
(-2087010918369605617,20);
(-2092391384149750247,20);
(-2097695898862862729,20);
(-2102924327332133039,20);
(-2108076537099192599,20);
(-2113152398426891218,20);
(-2118151784302092430,20);
(-2123074570438338374,20);
(-2127920635278394285,20);
(-2132689859996710763,20);
(-2137382128501827752,20);
(-2141997327438635579,20);
(-2146535346190535029,20);
(-2150996076881553018,20);
(-2155379414378315317,20);
(-2159685256291946423,20);
(-2163913502979845915,20);
(-2168064057547436363,20);
(-2172136825849706881,20);
(-2176131716492767793,20);
(-2180048640835252627,20);
(-2183887512989617086,20);
(-2187648249823371388,20);
(-2191330770960237678,20);
(-2194934998781103777,20);
(-2198460858425039730,20);
(-2201908277790084675,20);
(-2205277187533984454,20);
(-2208567521074877513,20);
(-2211779214591815326,20);
(-2214912207025205443,20);
(-2217966440077214635,20);
(-2220941858211982617,20);
(-2223838408655824661,20);
(-2226656041397285721,20);
(-2229394709187123083,20);
(-2232054367538185979,20);
(-2234634974725192846,20);
(-2237136491784458281,20);
(-2239558882513429522,20);
(-2241902113470234381,20);
(-2244166153973074784,20);
(-2246350976099515881,20);
(-2248456554685739073,20);
(-2250482867325626080,20);
(-2252429894369804494,20);
(-2254297618924576765,20);
(-2256086026850767992,20);
(-2257795106762433210,20);
(-2259424850025546286,20);
(-2260975250756524710,20);
(-2262446305820708936,20);
(-2263838014830715437,20);
(-2265150380144716549,20);
(-2266383406864608957,20);
(-2267537102834113819,20);
(-2268611478636751652,20);
(-2269606547593752341,20);
(-2270522325761853422,20)].
Definition mid_79 : list (Z * Z) := [
(-2271358831931004699,20);
(-2272116087622008673,20);
(-2272794117084021848,20);
(-2273392947292002600,20);
(-2273912607944043873,20);
(-2274353131458628496,20);
(-2274714552971776257,20);
(-2274996910334114303,20);
(-2275200244107850739,20);
(-2275324597563636170,20);
(-2275370016677385338,20);
(-2275336550126943677,20);
(-2275224249288709116,20);
(-2275033168234133138,20);
(-2274763363726172230,20);
(-2274414895215584945,20);
(-2273987824837205018,20);
(-2273482217406064265,20);
(-2272898140413487714,20);
(-2272235664023035742,20);
(-2271494861066413948,20);
(-2270675807039231747,20);
(-2269778580096736345,20);
(-2268803261049419026,20);
(-2267749933358528466,20);
(-2266618683131520900,20);
(-2265409599117402389,20);
(-2264122772701984351,20);
(-2262758297903059643,20);
(-2261316271365491209,20);
(-2259796792356203940,20);
(-2258199962759077292,20);
(-2256525887069798716,20);
(-2254774672390566850,20);
(-2252946428424760367,20);
(-2251041267471491983,20);
(-2249059304420072611,20);
(-2247000656744422425,20);
(-2244865444497351828,20);
(-2242653790304795225,20);
(-2240365819359937949,20);
(-2238001659417252973,20);
(-2235561440786480378,20);
(-2233045296326504822,20);
(-2230453361439124066,20);
(-2227785774062796334,20);
(-2225042674666236758,20);
(-2222224206241973574,20);
(-2219330514299809945,20);
(-2216361746860196630,20);
(-2213318054447508884,20);
(-2210199590083307061,20);
(-2207006509279409515,20);
(-2203738970030971397,20);
(-2200397132809459727,20);
(-2196981160555513610,20);
(-2193491218671758669,20);
(-2189927475015553474,20);
(-2186290099891595798,20);
(-2182579266044511884,20);
(-2178795148651340233,20);
(-2174937925313927267,20);
(-2171007776051250837,20);
(-2167004883291693412,20)].
Definition mid_80 : list (Z * Z) := [
(-2162929431865179275,20);
(-2158781608995275977,20);
(-2154561604291231960,20);
(-2150269609739862905,20);
(-2145905819697458555,20);
(-2141470430881544859,20);
(-2136963642362592342,20);
(-2132385655555626286,20);
(-2127736674211827550,20);
(-2123016904409963032,20);
(-2118226554547809892,20);
(-2113365835333498241,20);
(-2108434959776728929,20);
(-2103434143179989946,20);
(-2098363603129648619,20);
(-2093223559486982743,20);
(-2088014234379131223,20);
(-2082735852190018347,20);
(-2077388639551124017,20);
(-2071972825332259877,20);
(-2066488640632232685,20);
(-2060936318769432396,20);
(-2055316095272367513,20);
(-2049628207870161228,20);
(-2043872896482880341,20);
(-2038050403211884992,20);
(-2032160972330105883,20);
(-2026204850272175784,20);
(-2020182285624563118,20);
(-2014093529115654202,20);
(-2007938833605663401,20);
(-2001718454076589424,20);
(-1995432647622053662,20);
(-1989081673437059772,20);
(-1982665792807720637,20);
(-1976185269100888542,20);
(-1969640367753764179,20);
(-1963031356263347099,20);
(-1956358504175966309,20);
(-1949622083076607212,20);
(-1942822366578255203,20);
(-1935959630311154256,20);
(-1929034151912006195,20);
(-1922046211013061362,20);
(-1914996089231281451,20);
(-1907884070157240403,20);
(-1900710439344140482,20);
(-1893475484296692005,20);
(-1886179494459913966,20);
(-1878822761207914194,20);
(-1871405577832618503,20);
(-1863928239532363501,20);
(-1856391043400536928,20);
(-1848794288414094128,20);
(-1841138275422012430,20);
(-1833423307133727476,20);
(-1825649688107483862,20);
(-1817817724738634427,20);
(-1809927725247868421,20);
(-1801979999669454935,20);
(-1793974859839314942,20);
(-1785912619383124567,20);
(-1777793593704372552,20);
(-1769618099972276523,20)].
Definition mid_81 : list (Z * Z) := [
(-1761386457109714518,20);
(-1753098985781153391,20);
(-1744756008380344767,20);
(-1736357849018189958,20);
(-1727904833510399141,20);
(-1719397289365155040,20);
(-1710835545770711050,20);
(-1702219933582982750,20);
(-1693550785313002391,20);
(-1684828435114404596,20);
(-1676053218770860720,20);
(-1667225473683374773,20);
(-1658345538857645615,20);
(-1649413754891326800,20);
(-1640430463961214946,20);
(-1631396009810423542,20);
(-1622310737735577213,20);
(-1613174994573776319,20);
(-1603989128689708651,20);
(-1594753489962638313,20);
(-1585468429773310983,20);
(-1576134300990859882,20);
(-1566751457959735666,20);
(-1557320256486404569,20);
(-1547841053826206140,20);
(-1538314208670076358,20);
(-1528740081131192523,20);
(-1519119032731666361,20);
(-1509451426389145715,20);
(-1499737626403355173,20);
(-1489977998442652482,20);
(-1480172909530525285,20);
(-1470322728032014484,20);
(-1460427823640148351,20);
(-1450488567362328597,20);
(-1440505331506649125,20);
(-1430478489668178532,20);
(-1420408416715326395,20);
(-1410295488775945884,20);
(-1400140083223608972,20);
(-1389942578663771848,20);
(-1379703354919874225,20);
(-1369422793019418536,20);
(-1359101275180127875,20);
(-1348739184795838195,20);
(-1338336906422606457,20);
(-1327894825764642378,20);
(-1317413329660224210,20);
(-1306892806067627352,20);
(-1296333644051009780,20);
(-1285736233766237614,20);
(-1275100966446686586,20);
(-1264428234389095365,20);
(-1253718430939260858,20);
(-1242971950477799771,20);
(-1232189188405869405,20);
(-1221370541130826527,20);
(-1210516406051866979,20);
(-1199627181545734680,20);
(-1188703266952217431,20);
(-1177745062559797801,20);
(-1166752969591214155,20);
(-1155727390188950737,20);
(-1144668727400779268,20)].
Definition mid_82 : list (Z * Z) := [
(-1133577385165260819,20);
(-1122453768297161127,20);
(-1111298282472945181,20);
(-1100111334216199652,20);
(-1088893330883010553,20);
(-1077644680647357744,20);
(-1066365792486514454,20);
(-1055057076166350527,20);
(-1043718942226662567,20);
(-1032351801966543102,20);
(-1020956067429608372,20);
(-1009532151389309559,20);
(-9980804673342068972,21);
(-9866014294531775045,21);
(-9750954526206979944,21);
(-9635629523820216091,21);
(-9520043449383654155,21);
(-9404200471322067892,21);
(-9288104764323130980,21);
(-9171760509190053992,21);
(-9055171892693024416,21);
(-8938343107420297987,21);
(-8821278351629404518,21);
(-8703981829099321707,21);
(-8586457748980202975,21);
(-8468710325645341375,21);
(-8350743778541955611,21);
(-8232562332041785252,21);
(-8114170215291913180,21);
(-7995571662065858662,21);
(-7876770910613678164,21);
(-7757772203512596117,21);
(-7638579787518150893,21);
(-7519197913413848931,21);
(-7399630835861967237,21);
(-7279882813254146857,21);
(-7159958107561304602,21);
(-7039860984183864828,21);
(-6919595711803034656,21);
(-6799166562229660982,21);
(-6678577810255433705,21);
(-6557833733503068939,21);
(-6436938612276165220,21);
(-6315896729409391057,21);
(-6194712370119691627,21);
(-6073389821855109359,21);
(-5951933374146112059,21);
(-5830347318455689383,21);
(-5708635948029338290,21);
(-5586803557745648706,21);
(-5464854443966910870,21);
(-5342792904389175382,21);
(-5220623237892694016,21);
(-5098349744393057027,21);
(-4975976724691116154,21);
(-4853508480323891205,21);
(-4730949313415542569,21);
(-4608303526527789476,21);
(-4485575422510628373,21);
(-4362769304354342792,21);
(-4239889475039071605,21);
(-4116940237386972415,21);
(-3993925893913327640,21);
(-3870850746677485365,21)].
Definition mid_83 : list (Z * Z) := [
(-3747719097134599893,21);
(-3624535245987407870,21);
(-3501303493037245460,21);
(-3378028137036475850,21);
(-3254713475540381602,21);
(-3131363804758847090,21);
(-3007983419408793817,21);
(-2884576612566757542,21);
(-2761147675521031727,21);
(-2637700897624235992,21);
(-2514240566146805269,21);
(-2390770966129234301,21);
(-2267296380235498277,21);
(-2143821088606640002,21);
(-2020349368713863537,21);
(-1896885495212083860,21);
(-1773433739794856925,21);
(-1649998371046929252,21);
(-1526583654299577385,21);
(-1403193851484911070,21);
(-1279833220990185321,21);
(-1156506017512916751,21);
(-1033216491916293719,21);
(-9099688910837541332,22);
(-7867674577752378122,22);
(-6636164304828861106,22);
(-5405200432867124935,22);
(-4174825257110998137,22);
(-2945081025815410466,22);
(-1716009938810469850,22);
(-4876541460702524413,23);
(7399442537038658876,23);
(1966743214522470714,22);
(3192700744519398094,22);
(4417774907372183537,22);
(5641923823721127409,22);
(6865105672584077660,22);
(8087278692756437329,22);
(9308401184233330416,22);
(1052843150960382137,21);
(1174732809545360164,21);
(1296504943376712441,21);
(1418155408332052135,21);
(1539680067107132436,21);
(1661074789355097359,21);
(1782335451825100897,21);
(1903457938499860834,21);
(2024438140734280932,21);
(2145271957392683171,21);
(2265955294985793223,21);
(2386484067807952743,21);
(2506854198073739902,21);
(2627061616053086562,21);
(2747102260208499243,21);
(2866972077329447716,21);
(2986667022667534224,21);
(3106183060071405957,21);
(3225516162121221716,21);
(3344662310261458001,21);
(3463617494935885676,21);
(3582377715719659191,21);
(3700938981452131342,21);
(3819297310369545312,21);
(3937448730236663315,21)].
Definition mid_84 : list (Z * Z) := [
(4055389278478044833,21);
(4173115002309503094,21);
(4290621958868744493,21);
(4407906215345009683,21);
(4524963849109518710,21);
(4641790947844548314,21);
(4758383609672180506,21);
(4874737943283089306,21);
(4990850068064676959,21);
(5106716114227768596,21);
(5222332222935020807,21);
(5337694546426706432,21);
(5452799248146997235,21);
(5567642502870082631,21);
(5682220496825196414,21);
(5796529427821185514,21);
(5910565505371439578,21);
(6024324950817197717,21);
(6137803997450883876,21);
(6250998890639326844,21);
(6363905887945945500,21);
(6476521259252390229,21);
(6588841286880223365,21);
(6700862265711889261,21);
(6812580503310372917,21);
(6923992320039829181,21);
(7035094049184498037,21);
(7145882037067385721,21);
(7256352643168840870,21);
(7366502240244394289,21);
(7476327214441089511,21);
(7585823965415458732,21);
(7694988906448703252,21);
(7803818464562471517,21);
(7912309080634149713,21);
(8020457209511236418,21);
(8128259320124913215,21);
(8235711895604218985,21);
(8342811433388119119,21);
(8449554445337934677,21);
(8555937457849266750,21);
(8661957011963006617,21);
(8767609663475579157,21);
(8872891983049285142,21);
(8977800556321715447,21);
(9082331984013739326,21);
(9186482882038946376,21);
(9290249881610300811,21);
(9393629629347328286,21);
(9496618787382900273,21);
(9599214033468504020,21);
(9701412061079843843,21);
(9803209579521523012,21);
(9904603314030183472,21);
(1000559000587908885,20);
(1010616641247996834,20);
(1020632930748534284,20);
(1030607548089013635,20);
(1040540173913275489,20);
(1050430490519447049,20);
(1060278181870017919,20);
(1070082933601651520,20);
(1079844433035032428,20);
(1089562369184667555,20)].
Definition mid_85 : list (Z * Z) := [
(1099236432768559667,20);
(1108866316217835789,20);
(1118451713686353412,20);
(1127992321060189602,20);
(1137487835967062287,20);
(1146937957785748065,20);
(1156342387655382060,20);
(1165700828484619693,20);
(1175012984960944161,20);
(1184278563559693423,20);
(1193497272553099148,20);
(1202668822019265643,20);
(1211792923851129876,20);
(1220869291765190427,20);
(1229897641310395175,20);
(1238877689876734592,20);
(1247809156703925948,20);
(1256691762889990821,20);
(1265525231399690712,20);
(1274309287072975666,20);
(1283043656633353798,20);
(1291728068696155855,20);
(1300362253776720690,20);
(1308945944298555569,20);
(1317478874601430219,20);
(1325960780949325853,20);
(1334391401538365281,20);
(1342770476504728631,20);
(1351097747932332449,20);
(1359372959860644624,20);
(1367595858292232000,20);
(1375766191200363149,20);
(1383883708536518334,20);
(1391948162237794870,20);
(1399959306234187240,20);
(1407916896455966259,20);
(1415820690840819719,20);
(1423670449340956948,20);
(1431465933930179367,20);
(1439206908610891032,20);
(1446893139420930841,20);
(1454524394440433015,20);
(1462100443798604321,20);
(1469621059680334407,20);
(1477086016332868242,20);
(1484495090072272469,20);
(1491848059289905583,20);
(1499144704458813503,20);
(1506384808140014651,20);
(1513568154988661173,20);
(1520694531760288966,20);
(1527763727316827636,20);
(1534775532632576441,20);
(1541729740800147630,20);
(1548626147036315064,20);
(1555464548687730819,20);
(1562244745236675628,20);
(1568966538306579978,20);
(1575629731667621547,20);
(1582234131242160960,20);
(1588779545110093755,20);
(1595265783514151353,20);
(1601692658865138189,20);
(1608059985747074816,20)].
Definition mid_86 : list (Z * Z) := [
(1614367580922199119,20);
(1620615263336012621,20);
(1626802854122168240,20);
(1632930176607275824,20);
(1638997056315654940,20);
(1645003320974021063,20);
(1650948800516041995,20);
(1656833327086880067,20);
(1662656735047578910,20);
(1668418860979449525,20);
(1674119543688341524,20);
(1679758624208790158,20);
(1685335945808172364,20);
(1690851353990724740,20);
(1696304696501492459,20);
(1701695823330185917,20);
(1707024586714987052,20);
(1712290841146273807,20);
(1717494443370218629,20);
(1722635252392349173,20);
(1727713129481052781,20);
(1732727938170896057,20);
(1737679544266008611,20);
(1742567815843261078,20);
(1747392623255423008,20);
(1752153839134243732,20);
(1756851338393440945,20);
(1761484998231563001,20);
(1766054698134867165,20);
(1770560319880053191,20);
(1775001747536888649,20);
(1779378867470824202,20);
(1783691568345490558,20);
(1787939741125114945,20);
(1792123279076842171,20);
(1796242077773028273,20);
(1800296035093375269,20);
(1804285051227065562,20);
(1808209028674747157,20);
(1812067872250464062,20);
(1815861489083537769,20);
(1819589788620319323,20);
(1823252682625850843,20);
(1826850085185518016,20);
(1830381912706565903,20);
(1833848083919515162,20);
(1837248519879548792,20);
(1840583143967802066,20);
(1843851881892536598,20);
(1847054661690291852,20);
(1850191413726888501,20);
(1853262070698417918,20);
(1856266567632097741,20);
(1859204841887079560,20);
(1862076833155142108,20);
(1864882483461351159,20);
(1867621737164594509,20);
(1870294540958048271,20);
(1872900843869576906,20);
(1875440597262031939,20);
(1877913754833488574,20);
(1880320272617378580,20);
(1882660108982582570,20);
(1884933224633368598,20)].
Definition mid_87 : list (Z * Z) := [
(1887139582609340810,20);
(1889279148285237867,20);
(1891351889370680023,20);
(1893357775909837795,20);
(1895296780280989954,20);
(1897168877196058964,20);
(1898974043700002098,20);
(1900712259170158486,20);
(1902383505315527121,20);
(1903987766175902971,20);
(1905525028121022452,20);
(1906995279849559369,20);
(1908398512388055288,20);
(1909734719089801330,20);
(1911003895633593685,20);
(1912206040022464831,20);
(1913341152582260368,20);
(1914409235960211342,20);
(1915410295123387216,20);
(1916344337357066621,20);
(1917211372263061611,20);
(1918011411757922571,20);
(1918744470071081717,20);
(1919410563742927553,20);
(1920009711622791895,20);
(1920541934866842534,20);
(1921007256935930094,20);
(1921405703593342604,20);
(1921737302902446626,20);
(1922002085224315884,20);
(1922200083215233266,20);
(1922331331824129672,20);
(1922395868289938567,20);
(1922393732138893627,20);
(1922324965181723341,20);
(1922189611510789764,20);
(1921987717497119705,20);
(1921719331787400536,20);
(1921384505300866366,20);
(1920983291226120715,20);
(1920515745017882525,20);
(1919981924393643694,20);
(1919381889330281504,20);
(1918715702060544773,20);
(1917983427069525071,20);
(1917185131090988481,20);
(1916320883103691045,20);
(1915390754327575204,20);
(1914394818219909353,20);
(1913333150471354174,20);
(1912205829001954738,20);
(1911012933957028856,20);
(1909754547703048158,20);
(1908430754823357833,20);
(1907041642113888741,20);
(1905587298578782784,20);
(1904067815425910734,20);
(1902483286062357781,20);
(1900833806089816114,20);
(1899119473299908795,20);
(1897340387669427947,20);
(1895496651355524365,20);
(1893588368690819063,20);
(1891615646178405191,20)].
Definition mid_88 : list (Z * Z) := [
(1889578592486838848,20);
(1887477318445011584,20);
(1885311937036975374,20);
(1883082563396679468,20);
(1880789314802645482,20);
(1878432310672585245,20);
(1876011672557915261,20);
(1873527524138219116,20);
(1870979991215654045,20);
(1868369201709266930,20);
(1865695285649236063,20);
(1862958375171064329,20);
(1860158604509687397,20);
(1857296109993531591,20);
(1854371030038461099,20);
(1851383505141721356,20);
(1848333677875734285,20);
(1845221692881920256,20);
(1842047696864362177,20);
(1838811838583445657,20);
(1835514268849442257,20);
(1832155140516013650,20);
(1828734608473618281,20);
(1825252829642902072,20);
(1821709962968008287,20);
(1818106169409788170,20);
(1814441611938988688,20);
(1810716455529356311,20);
(1806930867150667586,20);
(1803085015761718771,20);
(1799179072303231514,20);
(1795213209690686360,20);
(1791187602807130588,20);
(1787102428495874681,20);
(1782957865553158258,20);
(1778754094720736215,20);
(1774491298678437107,20);
(1770169662036587613,20);
(1765789371328437690,20);
(1761350615002507669,20);
(1756853583414880876,20);
(1752298468821389052,20);
(1747685465369816504,20);
(1743014769091950217,20);
(1738286577895672980,20);
(1733501091556901089,20);
(1728658511711513024,20);
(1723759041847225046,20);
(1718802887295380402,20);
(1713790255222680248,20);
(1708721354622873279,20);
(1703596396308417610,20);
(1698415592901989304,20);
(1693179158828022821,20);
(1687887310304175825,20);
(1682540265332712476,20);
(1677138243691824598,20);
(1671681466926954254,20);
(1666170158341985508,20);
(1660604542990444521,20);
(1654984847666611178,20);
(1649311300896565483,20);
(1643584132929191283,20);
(1637803575727200117,20)].
Definition mid_89 : list (Z * Z) := [
(1631969862957930589,20);
(1626083229984251130,20);
(1620143913855357984,20);
(1614152153297516989,20);
(1608108188704705441,20);
(1602012262129319173,20);
(1595864617272719707,20);
(1589665499475750171,20);
(1583415155709276545,20);
(1577113834564553355,20);
(1570761786243669508,20);
(1564359262549840091,20);
(1557906516877692951,20);
(1551403804203508284,20);
(1544851381075452827,20);
(1538249505603620122,20);
(1531598437450189254,20);
(1524898437819462681,20);
(1518149769447843522,20);
(1511352696593780062,20);
(1504507485027690994,20);
(1497614402021787104,20);
(1490673716339916376,20);
(1483685698227316802,20);
(1476650619400304322,20);
(1469568753035998925,20);
(1462440373761927752,20);
(1455265757645607741,20);
(1448045182184086108,20);
(1440778926293477362,20);
(1433467270298388087,20);
(1426110495921315002,20);
(1418708886272073040,20);
(1411262725837097130,20);
(1403772300468706172,20);
(1396237897374420951,20);
(1388659805106094020,20);
(1381038313549157875,20);
(1373373713911713034,20);
(1365666298713603607,20);
(1357916361775516820,20);
(1350124198207987292,20);
(1342290104400330891,20);
(1334414378009625424,20);
(1326497317949619156,20);
(1318539224379586955,20);
(1310540398693122582,20);
(1302501143506995529,20);
(1294421762649881902,20);
(1286302561151059405,20);
(1278143845229153842,20);
(1269945922280738167,20);
(1261709100869000053,20);
(1253433690712308160,20);
(1245120002672745092,20);
(1236768348744680078,20);
(1228379042043228203,20);
(1219952396792690560,20);
(1211488728315037421,20);
(1202988353018238574,20);
(1194451588384689948,20);
(1185878752959517758,20);
(1177270166338870681,20);
(1168626149158237711,20)].
Definition mid_90 : list (Z * Z) := [
(1159947023080680657,20);
(1151233110785025195,20);
(1142484735954087116,20);
(1133702223262840481,20);
(1124885898366548807,20);
(1116036087888837465,20);
(1107153119409851061,20);
(1098237321454267716,20);
(1089289023479312474,20);
(1080308555862839574,20);
(1071296249891229117,20);
(1062252437747425449,20);
(1053177452498839373,20);
(1044071628085248629,20);
(1034935299306685708,20);
(1025768801811399733,20);
(1016572472083561961,20);
(1007346647431169549,20);
(9980916659738693630,21);
(9888078666307097836,21);
(9794955891078819393,21);
(9701551738865299770,21);
(9607869622104001778,21);
(9513912960736174013,21);
(9419685182083433958,21);
(9325189720724135975,21);
(9230430018370516451,21);
(9135409523744803320,21);
(9040131692455122617,21);
(8944599986871668712,21);
(8848817876003325575,21);
(8752788835372109222,21);
(8656516346889436830,21);
(8560003898731726249,21);
(8463254985215442130,21);
(8366273106671916551,21);
(8269061769323144545,21);
(8171624485155785933,21);
(8073964771796700648,21);
(7976086152387346084,21);
(7877992155457846576,21);
(7779686314802221683,21);
(7681172169352324698,21);
(7582453263051854020,21);
(7483533144730685448,21);
(7384415367979182791,21);
(7285103491021882247,21);
(7185601076591062279,21);
(7085911691801206891,21);
(6986038908022328305,21);
(6885986300753385927,21);
(6785757449496574410,21);
(6685355937629942034,21);
(6584785352281750763,21);
(6484049284203445042,21);
(6383151327642865198,21);
(6282095080217611760,21);
(6180884142789266726,21);
(6079522119335117707,21);
(5978012616822295060,21);
(5876359245081048607,21);
(5774565616677745060,21);
(5672635346787597427,21);
(5570572053068606130,21)].
Definition mid_91 : list (Z * Z) := [
(5468379355534291886,21);
(5366060876426498837,21);
(5263620240089391181,21);
(5161061072841650887,21);
(5058387002850427486,21);
(4955601660004180231,21);
(4852708675785660786,21);
(4749711683145209015,21);
(4646614316374858902,21);
(4543420210980151155,21);
(4440133003554318919,21);
(4336756331651733624,21);
(4233293833661081959,21);
(4129749148678431812,21);
(4026125916381596663,21);
(3922427776902741824,21);
(3818658370702809977,21);
(3714821338444885494,21);
(3610920320867558320,21);
(3506958958659539896,21);
(3402940892333166257,21);
(3298869762098176946,21);
(3194749207736021727,21);
(3090582868474330350,21);
(2986374382860920024,21);
(2882127388637794208,21);
(2777845522616391710,21);
(2673532420551809254,21);
(2569191717017110365,21);
(2464827045279071888,21);
(2360442037172083476,21);
(2256040322974148683,21);
(2151625531281681301,21);
(2047201288884499884,21);
(1942771220642053711,21);
(1838338949358669493,21);
(1733908095659088440,21);
(1629482277864633451,21);
(1525065111869564755,21);
(1420660211017043704,21);
(1316271185975206740,21);
(1211901644614462974,21);
(1107555191883890372,21);
(1003235429687791315,21);
(8989459567636706293,22);
(7946903685585427575,22);
(6904722571072911038,22);
(5862952109099781994,22);
(4821628148094715314,22);
(3780786498696533785,22);
(2740462932545903820,22);
(1700693181055207260,22);
(6615129342045394695,23);
(-3770421606677580958,23);
(-1414936500076040520,22);
(-2452134525597306691,22);
(-3488600725066301933,22);
(-4524299633787056546,22);
(-5559195835723291200,22);
(-6593253964698814413,22);
(-7626438705595621785,22);
(-8658714795538029630,22);
(-9690047025085711530,22);
(-1072040023942268756,21)].
Definition mid_92 : list (Z * Z) := [
(-1174973933954016935,21);
(-1277802928340907159,21);
(-1380523508717356471,21);
(-1483132182631826399,21);
(-1585625463684000062,21);
(-1687999871642072462,21);
(-1790251932559834992,21);
(-1892378178892288251,21);
(-1994375149612764072,21);
(-2096239390327925105,21);
(-2197967453393707884,21);
(-2299555898030920028,21);
(-2401001290439449664,21);
(-2502300203913285833,21);
(-2603449218955047537,21);
(-2704444923389746902,21);
(-2805283912478201067,21);
(-2905962789030639652,21);
(-3006478163520059400,21);
(-3106826654194166752,21);
(-3207004887188090632,21);
(-3307009496636714903,21);
(-3406837124785505946,21);
(-3506484422102764450,21);
(-3605948047389703585,21);
(-3705224667891401057,21);
(-3804310959407415475,21);
(-3903203606400888759,21);
(-4001899302108397061,21);
(-4100394748649457792,21);
(-4198686657134403401,21);
(-4296771747773732268,21);
(-4394646749985233088,21);
(-4492308402501929768,21);
(-4589753453479691533,21);
(-4686978660603294787,21);
(-4783980791193223094,21);
(-4880756622311885166,21);
(-4977302940869038350,21);
(-5073616543726759340,21);
(-5169694237804412298,21);
(-5265532840183511157,21);
(-5361129178210854128,21);
(-5456480089602535125,21);
(-5551582422547319401,21);
(-5646433035808625343,21);
(-5741028798827675465,21);
(-5835366591824510223,21);
(-5929443305899749495,21);
(-6023255843135806760,21);
(-6116801116697255861,21);
(-6210076050930149992,21);
(-6303077581462931435,21);
(-6395802655304913542,21);
(-6488248230944782674,21);
(-6580411278449150442,21);
(-6672288779560638441,21);
(-6763877727794473729,21);
(-6855175128536194519,21);
(-6946177999137275946,21);
(-7036883369011399415,21);
(-7127288279730179844,21);
(-7217389785117512072,21);
(-7307184951344372625,21)].
Definition mid_93 : list (Z * Z) := [
(-7396670857022979648,21);
(-7485844593300210355,21);
(-7574703263949853632,21);
(-7663243985466459442,21);
(-7751463887156488132,21);
(-7839360111229863939,21);
(-7926929812891069654,21);
(-8014170160430055673,21);
(-8101078335311441211,21);
(-8187651532264892534,21);
(-8273886959373276395,21);
(-8359781838161519513,21);
(-8445333403684772422,21);
(-8530538904615249732,21);
(-8615395603329398244,21);
(-8699900775994435370,21);
(-8784051712653980284,21);
(-8867845717313183745,21);
(-8951280108023566481,21);
(-9034352216967685839,21);
(-9117059390542067709,21);
(-9199398989440702237,21);
(-9281368388737946257,21);
(-9362964977969755187,21);
(-9444186161216075459,21);
(-9525029357180981801,21);
(-9605491999273423412,21);
(-9685571535687232878,21);
(-9765265429479868739,21);
(-9844571158651350615,21);
(-9923486216222545536,21);
(-1000200811031260947,20);
(-1008013436421564303,20);
(-1015786251647746163,20);
(-1023519012097144805,20);
(-1031211474697353754,20);
(-1038863397923694108,20);
(-1046474541806664306,20);
(-1054044667939213475,20);
(-1061573539484119040,20);
(-1069060921181149391,20);
(-1076506579354261431,20);
(-1083910281918742079,20);
(-1091271798388242058,20);
(-1098590899881721206,20);
(-1105867359130480176,20);
(-1113100950484971832,20);
(-1120291449921624258,20);
(-1127438635049585886,20);
(-1134542285117465937,20);
(-1141602181019905210,20);
(-1148618105304193872,20);
(-1155589842176749614,20);
(-1162517177509573077,20);
(-1169399898846669797,20);
(-1176237795410316374,20);
(-1183030658107355783,20);
(-1189778279535406297,20);
(-1196480453988999458,20);
(-1203136977465590375,20);
(-1209747647671677653,20);
(-1216312264028689832,20);
(-1222830627678854476,20);
(-1229302541491060149,20)].
Definition mid_94 : list (Z * Z) := [
(-1235727810066625937,20);
(-1242106239744936343,20);
(-1248437638609156165,20);
(-1254721816491722285,20);
(-1260958584979889920,20);
(-1267147757421183997,20);
(-1273289148928736375,20);
(-1279382576386618557,20);
(-1285427858455096342,20);
(-1291424815575812832,20);
(-1297373269976871343,20);
(-1303273045677920926,20);
(-1309123968495149934,20);
(-1314925866046177082,20);
(-1320678567754913352,20);
(-1326381904856393373,20);
(-1332035710401433329,20);
(-1337639819261355993,20);
(-1343194068132532414,20);
(-1348698295540926712,20);
(-1354152341846578782,20);
(-1359556049247979959,20);
(-1364909261786366283,20);
(-1370211825350049067,20);
(-1375463587678569383,20);
(-1380664398366820110,20);
(-1385814108869117683,20);
(-1390912572503214505,20);
(-1395959644454196000,20);
(-1400955181778349573,20);
(-1405899043406978917,20);
(-1410791090150091513,20);
(-1415631184700099146,20);
(-1420419191635368707,20);
(-1425154977423769530,20);
(-1429838410426125840,20);
(-1434469360899618198,20);
(-1439047701001039056,20);
(-1443573304790142509,20);
(-1448046048232757080,20);
(-1452465809203922625,20);
(-1456832467490938414,20);
(-1461145904796355526,20);
(-1465406004740853023,20);
(-1469612652866135634,20);
(-1473765736637651022,20);
(-1477865145447332385,20);
(-1481910770616236446,20);
(-1485902505397088472,20);
(-1489840244976809239,20);
(-1493723886478938098,20);
(-1497553328965996015,20);
(-1501328473441776619,20);
(-1505049222853576882,20);
(-1508715482094367781,20);
(-1512327158004862261,20);
(-1515884159375542606,20);
(-1519386396948612869,20);
(-1522833783419900999,20);
(-1526226233440640574,20);
(-1529563663619222524,20);
(-1532845992522890999,20);
(-1536073140679345556,20);
(-1539245030578255923,20)].
Definition mid_95 : list (Z * Z) := [
(-1542361586672746226,20);
(-1545422735380815558,20);
(-1548428405086628781,20);
(-1551378526141820174,20);
(-1554273030866654658,20);
(-1557111853551162994,20);
(-1559894930456207605,20);
(-1562622199814462862,20);
(-1565293601831317660,20);
(-1567909078685747123,20);
(-1570468574531082295,20);
(-1572972035495718429,20);
(-1575419409683759264,20);
(-1577810647175590525,20);
(-1580145700028390277,20);
(-1582424522276544565,20);
(-1584647069932046404,20);
(-1586813300984758410,20);
(-1588923175402669197,20);
(-1590976655132043255,20);
(-1592973704097502829,20);
(-1594914288202073371,20);
(-1596798375327124209,20);
(-1598625935332243647,20);
(-1600396940055088049,20);
(-1602111363311100461,20);
(-1603769180893207733,20);
(-1605370370571422220,20);
(-1606914912092401518,20);
(-1608402787178913121,20);
(-1609833979529236639,20);
(-1611208474816519867,20);
(-1612526260688037019,20);
(-1613787326764397692,20);
(-1614991664638687832,20);
(-1616139267875515637,20);
(-1617230132010046353,20);
(-1618264254546906630,20);
(-1619241634959064924,20);
(-1620162274686613030,20);
(-1621026177135519164,20);
(-1621833347676268633,20);
(-1622583793642466687,20);
(-1623277524329374069,20);
(-1623914550992363801,20);
(-1624494886845310668,20);
(-1625018547058913743,20);
(-1625485548758974844,20);
(-1625895911024582974,20);
(-1626249654886236309,20);
(-1626546803323902432,20);
(-1626787381265029642,20);
(-1626971415582451064,20);
(-1627098935092266205,20);
(-1627169970551623976,20);
(-1627184554656465817,20);
(-1627142722039167863,20);
(-1627044509266169919,20);
(-1626889954835478505,20);
(-1626679099174156359,20);
(-1626411984635712724,20);
(-1626088655497445398,20);
(-1625709157957712023,20);
(-1625273540133129191,20)].
Definition mid_96 : list (Z * Z) := [
(-1624781852055739648,20);
(-1624234145670051116,20);
(-1623630474830084838,20);
(-1622970895296310320,20);
(-1622255464732529767,20);
(-1621484242702695214,20);
(-1620657290667673958,20);
(-1619774671981933853,20);
(-1618836451890188002,20);
(-1617842697523936765,20);
(-1616793477897988593,20);
(-1615688863906890316,20);
(-1614528928321313714,20);
(-1613313745784364026,20);
(-1612043392807823577,20);
(-1610717947768356903,20);
(-1609337490903618717,20);
(-1607902104308343502,20);
(-1606411871930311930,20);
(-1604866879566329424,20);
(-1603267214858079825,20);
(-1601612967287956851,20);
(-1599904228174808818,20);
(-1598141090669648670,20);
(-1596323649751276580,20);
(-1594452002221859871,20);
(-1592526246702436268,20);
(-1590546483628391128,20);
(-1588512815244834050,20);
(-1586425345601918252,20);
(-1584284180550137727,20);
(-1582089427735547393,20);
(-1579841196594878802,20);
(-1577539598350683955,20);
(-1575184746006334097,20);
(-1572776754341019545,20);
(-1570315739904669383,20);
(-1567801821012795513,20);
(-1565235117741309648,20);
(-1562615751921279592,20);
(-1559943847133595830,20);
(-1557219528703605339,20);
(-1554442923695702888,20);
(-1551614160907834050,20);
(-1548733370865956749,20);
(-1545800685818437409,20);
(-1542816239730421257,20);
(-1539780168278103746,20);
(-1536692608842961383,20);
(-1533553700505954111,20);
(-1530363584041638352,20);
(-1527122401912222281,20);
(-1523830298261611392,20);
(-1520487418909334358,20);
(-1517093911344477401,20);
(-1513649924719524635,20);
(-1510155609844145326,20);
(-1506611119178956175,20);
(-1503016606829210566,20);
(-1499372228538421205,20);
(-1495678141681948403,20);
(-1491934505260548820,20);
(-1488141479893850642,20);
(-1484299227813752967,20)].
Definition mid_97 : list (Z * Z) := [
(-1480407912857848070,20);
(-1476467700462711675,20);
(-1472478757657176389,20);
(-1468441253055590562,20);
(-1464355356850928838,20);
(-1460221240807978507,20);
(-1456039078256366262,20);
(-1451809044083586346,20);
(-1447531314727971627,20);
(-1443206068171653568,20);
(-1438833483933363820,20);
(-1434413743061304682,20);
(-1429947028125928311,20);
(-1425433523212640829,20);
(-1420873413914482825,20);
(-1416266887324782627,20);
(-1411614132029707057,20);
(-1406915338100829700,20);
(-1402170697087604979,20);
(-1397380402009797129,20);
(-1392544647349904484,20);
(-1387663629045500328,20);
(-1382737544481520489,20);
(-1377766592482535489,20);
(-1372750973304993211,20);
(-1367690888629323996,20);
(-1362586541552132657,20);
(-1357438136578225339,20);
(-1352245879612682354,20);
(-1347009977952845147,20);
(-1341730640280247924,20);
(-1336408076652520829,20);
(-1331042498495320706,20);
(-1325634118594055597,20);
(-1320183151085717495,20);
(-1314689811450625752,20);
(-1309154316504113416,20);
(-1303576884388157539,20);
(-1297957734563045216,20);
(-1292297087798894260,20);
(-1286595166167219667,20);
(-1280852193032431738,20);
(-1275068393043249544,20);
(-1269243992124167476,20);
(-1263379217466806953,20);
(-1257474297521239334,20);
(-1251529461987301549,20);
(-1245544941805870262,20);
(-1239520969150068735,20);
(-1233457777416442462,20);
(-1227355601216133067,20);
(-1221214676365988717,20);
(-1215035239879602019,20);
(-1208817529958418867,20);
(-1202561785982670522,20);
(-1196268248502397116,20);
(-1189937159228364634,20);
(-1183568761022943915,20);
(-1177163297891013760,20);
(-1170721014970772279,20);
(-1164242158524528455,20);
(-1157726975929466127,20);
(-1151175715668404514,20);
(-1144588627320481354,20)].
Definition mid_98 : list (Z * Z) := [
(-1137965961551783492,20);
(-1131307970106048590,20);
(-1124614905795225453,20);
(-1117887022490037831,20);
(-1111124575110573193,20);
(-1104327819616731862,20);
(-1097497012998760631,20);
(-1090632413267689747,20);
(-1083734279445721163,20);
(-1076802871556650082,20);
(-1069838450616260837,20);
(-1062841278622586941,20);
(-1055811618546261335,20);
(-1048749734320805933,20);
(-1041655890832871890,20);
(-1034530353912434253,20);
(-1027373390323051139,20);
(-1020185267751970784,20);
(-1012966254800327058,20);
(-1005716620973243040,20);
(-9984366366699030243,21);
(-9911265731736607770,21);
(-9837867026420765021,21);
(-9764172980969043625,21);
(-9690186334141153920,21);
(-9615909833139141619,21);
(-9541346233506057400,21);
(-9466498299025639593,21);
(-9391368801621658574,21);
(-9315960521256490962,21);
(-9240276245829443999,21);
(-9164318771075860570,21);
(-9088090900464562347,21);
(-9011595445096541937,21);
(-8934835223602374810,21);
(-8857813062039695401,21);
(-8780531793790995881,21);
(-8702994259460694604,21);
(-8625203306771899239,21);
(-8547161790463494307,21);
(-8468872572186926864,21);
(-8390338520402541161,21);
(-8311562510275666976,21);
(-8232547423573250908,21);
(-8153296148559580417,21);
(-8073811579891891632,21);
(-7994096618516560032,21);
(-7914154171564033446,21);
(-7833987152244703545,21);
(-7753598479743899555,21);
(-7672991079116803920,21);
(-7592167881183427801,21);
(-7511131822424126948,21);
(-7429885844873071465,21);
(-7348432896013512745,21);
(-7266775928672270651,21);
(-7184917900913851199,21);
(-7102861775934335258,21);
(-7020610521955991494,21);
(-6938167112121049716,21);
(-6855534524385129003,21);
(-6772715741411793403,21);
(-6689713750465358169,21);
(-6606531543305180915,21)].
Definition mid_99 : list (Z * Z) := [
(-6523172116078787032,21);
(-6439638469215128690,21);
(-6355933607317943573,21);
(-6272060539059686086,21);
(-6188022277073482701,21);
(-6103821837846914837,21);
(-6019462241615114798,21);
(-5934946512253571130,21);
(-5850277677170630415,21);
(-5765458767201120556,21);
(-5680492816498221992,21);
(-5595382862427049353,21);
(-5510131945456873959,21);
(-5424743109053587441,21);
(-5339219399572860125,21);
(-5253563866152425113,21);
(-5167779560604406595,21);
(-5081869537308088790,21);
(-4995836853102523546,21);
(-4909684567178897695,21);
(-4823415740972634112,21);
(-4737033438056455562,21);
(-4650540724032582035,21);
(-4563940666424741617,21);
(-4477236334571446826,21);
(-4390430799517563119,21);
(-4303527133907454269,21);
(-4216528411877203987,21);
(-4129437708946700515,21);
(-4042258101912808016,21);
(-3954992668741562183,21);
(-3867644488460480773,21);
(-3780216641051363773,21);
(-3692712207343115671,21);
(-3605134268904144033,21);
(-3517485907934766315,21);
(-3429770207160556458,21);
(-3341990249724780763,21);
(-3254149119080950846,21);
(-3166249898886402698,21);
(-3078295672894431571,21);
(-2990289524848022823,21);
(-2902234538372582256,21);
(-2814133796868923624,21);
(-2725990383406524595,21);
(-2637807380617601932,21);
(-2549587870589224703,21);
(-2461334934757474033,21);
(-2373051653801136647,21);
(-2284741107535107410,21);
(-2196406374803828304,21);
(-2108050533375849765,21);
(-2019676659836925313,21);
(-1931287829484806644,21);
(-1842887116223071615,21);
(-1754477592455084937,21);
(-1666062328979006635,21);
(-1577644394882002105,21);
(-1489226857434644948,21);
(-1400812781985787949,21);
(-1312405231858214697,21);
(-1224007268242254627,21);
(-1135621950092263396,21);
(-1047252334020938114,21)].
Definition mid_100 : list (Z * Z) := [
(-9589014741955454195,22);
(-8705724222331929748,22);
(-7822682270963814393,22);
(-6939919349890169044,22);
(-6057465892532377808,22);
(-5175352302643749071,22);
(-4293608953280970844,22);
(-3412266185770983186,22);
(-2531354308676335451,22);
(-1650903596761246382,22);
(-7709442899701688312,23);
(1084934076078174458,23);
(9873793287567347876,23);
(1865683344160195818,22);
(2743375363425893591,22);
(3620425336098599938,22);
(4496803252680676250,22);
(5372479145649475653,22);
(6247423090468417909,22);
(7121605206595957175,22);
(7994995658496585351,22);
(8867564656650857476,22);
(9739282458553426931,22);
(1061011936971860935,21);
(1148004574468343116,21);
(1234903198799802660,21);
(1321704855522920453,21);
(1408406595394625597,21);
(1495005474471442809,21);
(1581498554208609969,21);
(1667882901558024938,21);
(1754155589066851801,21);
(1840313694975782973,21);
(1926354303316628888,21);
(2012274504009623193,21);
(2098071392960927217,21);
(2183742072159911961,21);
(2269283649775279132,21);
(2354693240251814253,21);
(2439967964406884130,21);
(2525104949525616791,21);
(2610101329457301805,21);
(2694954244710039398,21);
(2779660842546052661,21);
(2864218277076647622,21);
(2948623709356558344,21);
(3032874307477366558,21);
(3116967246662576217,21);
(3200899709360450259,21);
(3284668885337120592,21);
(3368271971769712381,21);
(3451706173339270586,21);
(3534968702322395431,21);
(3618056778683586064,21);
(3700967630167094607,21);
(3783698492387607953,21);
(3866246608922008134,21);
(3948609231399311664,21);
(4030783619591324016,21);
(4112767041502787130,21);
(4194556773460918035,21);
(4276150100204033702,21);
(4357544314971672529,21);
(4438736719592482373,21)].
Definition mid_101 : list (Z * Z) := [
(4519724624572392206,21);
(4600505349182682294,21);
(4681076221547825385,21);
(4761434578731930586,21);
(4841577766826405012,21);
(4921503141035617895,21);
(5001208065763321046,21);
(5080689914698616541,21);
(5159946070900697096,21);
(5238973926884092983,21);
(5317770884703398523,21);
(5396334356037289087,21);
(5474661762272099198,21);
(5552750534585431871,21);
(5630598114029463502,21);
(5708201951612938176,21);
(5785559508383787339,21);
(5862668255511091150,21);
(5939525674366003330,21);
(6016129256603351683,21);
(6092476504241727681,21);
(6168564929743899569,21);
(6244392056096888070,21);
(6319955416890802626,21);
(6395252556398078360,21);
(6470281029652157068,21);
(6545038402525452624,21);
(6619522251806895727,21);
(6693730165279313839,21);
(6767659741796532707,21);
(6841308591359330366,21);
(6914674335191608838,21);
(6987754605816167731,21);
(7060547047129256577,21);
(7133049314475884382,21);
(7205259074723411802,21);
(7277174006335595212,21);
(7348791799446125102,21);
(7420110155931267625,21);
(7491126789481819190,21);
(7561839425676039443,21);
(7632245802050555486,21);
(7702343668171306862,21);
(7772130785704297988,21);
(7841604928486036602,21);
(7910763882592488153,21);
(7979605446409019850,21);
(8048127430698517187,21);
(8116327658669793624,21);
(8184203966045732262,21);
(8251754201130034536,21);
(8318976224874201353,21);
(8385867910944212397,21);
(8452427145786077858,21);
(8518651828690841990,21);
(8584539871860284027,21);
(8650089200470825399,21);
(8715297752737365816,21);
(8780163479976794971,21);
(8844684346671193714,21);
(8908858330529675212,21);
(8972683422551013671,21);
(9036157627084373534,21);
(9099278961890664916,21)].
Definition mid_102 : list (Z * Z) := [
(9162045458202995249,21);
(9224455160786283053,21);
(9286506127996850893,21);
(9348196431841405973,21);
(9409524158035389302,21);
(9470487406060615343,21);
(9531084289222890860,21);
(9591312934708976293,21);
(9651171483642561819,21);
(9710658091140243406,21);
(9769770926367125907,21);
(9828508172590949901,21);
(9886868027237049467,21);
(9944848701941561356,21);
(1000244842260475560,20);
(1005966542944389946,20);
(1011649797704539284,20);
(1017294433441578994,20);
(1022900278503374207,20);
(1028467162690010865,20);
(1033994917258787387,20);
(1039483374929168341,20);
(1044932369887713840,20);
(1050341737792864251,20);
(1055711315779756139,20);
(1061040942464965865,20);
(1066330457951144249,20);
(1071579703831699627,20);
(1076788523195298594,20);
(1081956760630425722,20);
(1087084262229842321,20);
(1092170875594954821,20);
(1097216449840195465,20);
(1102220835597313500,20);
(1107183885019589684,20);
(1112105451786053224,20);
(1116985391105575036,20);
(1121823559720956653,20);
(1126619815912948894,20);
(1131374019504221250,20);
(1136086031863211589,20);
(1140755715908051485,20);
(1145382936110309578,20);
(1149967558498732334,20);
(1154509450662928420,20);
(1159008481757003994,20);
(1163464522503099979,20);
(1167877445194937490,20);
(1172247123701234545,20);
(1176573433469126247,20);
(1180856251527502912,20);
(1185095456490280891,20);
(1189290928559623775,20);
(1193442549529141923,20);
(1197550202786974542,20);
(1201613773318829445,20);
(1205633147711027489,20);
(1209608214153413269,20);
(1213538862442223309,20);
(1217424983982931704,20);
(1221266471793015264,20);
(1225063220504644251,20);
(1228815126367364084,20);
(1232522087250658913,20)].
Definition mid_103 : list (Z * Z) := [
(1236184002646494896,20);
(1239800773671819595,20);
(1243372303070944609,20);
(1246898495217938461,20);
(1250379256118913998,20);
(1253814493414286135,20);
(1257204116380946680,20);
(1260548035934391103,20);
(1263846164630818593,20);
(1267098416669107039,20);
(1270304707892787321,20);
(1273464955791951854,20);
(1276579079505061123,20);
(1279646999820757171,20);
(1282668639179556161,20);
(1285643921675534186,20);
(1288572773057917835,20);
(1291455120732649953,20);
(1294290893763830677,20);
(1297080022875211035,20);
(1299822440451523647,20);
(1302518080539797826,20);
(1305166878850619501,20);
(1307768772759337547,20);
(1310323701307180601,20);
(1312831605202342475,20);
(1315292426821015187,20);
(1317706110208333344,20);
(1320072601079285736,20);
(1322391846819554080,20);
(1324663796486309775,20);
(1326888400808922883,20);
(1329065612189665908,20);
(1331195384704267348,20);
(1333277674102521099,20);
(1335312437808758475,20);
(1337299634922267492,20);
(1339239226217688560,20);
(1341131174145338174,20);
(1342975442831441379,20);
(1344771998078369245,20);
(1346520807364751972,20);
(1348221839845578987,20);
(1349875066352229994,20);
(1351480459392435766,20);
(1353037993150186039,20);
(1354547643485589856,20);
(1356009387934675042,20);
(1357423205709100585,20);
(1358789077695863462,20);
(1360106986456907120,20);
(1361376916228681545,20);
(1362598852921650255,20);
(1363772784119742995,20);
(1364898699079735052,20);
(1365976588730592398,20);
(1367006445672726105,20);
(1367988264177234271,20);
(1368922040185034314,20);
(1369807771305992482,20);
(1370645456817937147,20);
(1371435097665675215,20);
(1372176696459906885,20);
(1372870257476097207,20)].
Definition mid_104 : list (Z * Z) := [
(1373515786653293873,20);
(1374113291592891570,20);
(1374662781557328683,20);
(1375164267468727795,20);
(1375617761907488475,20);
(1376023279110826988,20);
(1376380834971238469,20);
(1376690447034916928,20);
(1376952134500117851,20);
(1377165918215474821,20);
(1377331820678236694,20);
(1377449866032460363,20);
(1377520080067156857,20);
(1377542490214365110,20);
(1377517125547179748,20);
(1377444016777726842,20);
(1377323196255066627,20);
(1377154697963060663,20);
(1376938557518171853,20);
(1376674812167216246,20);
(1376363500785047350,20);
(1376004663872207323,20);
(1375598343552492976,20);
(1375144583570496806,20);
(1374643429289080197,20);
(1374094927686778794,20);
(1373499127355187407,20);
(1372856078496246905,20);
(1372165832919517922,20);
(1371428444039374250,20);
(1370643966872154250,20);
(1369812458033247034,20);
(1368933975734142917,20);
(1368008579779412225,20);
(1367036331563646276,20);
(1366017294068320662,20);
(1364951531858647066,20);
(1363839111080323782,20);
(1362680099456272526,20);
(1361474566283294406,20);
(1360222582428697452,20);
(1358924220326845726,20);
(1357579553975688490,20);
(1356188658933204713,20);
(1354751612313808730,20);
(1353268492784721194,20);
(1351739380562255732,20);
(1350164357408079226,20);
(1348543506625414154,20);
(1346876913055175540,20);
(1345164663072093841,20);
(1343406844580737752,20);
(1341603547011526766,20);
(1339754861316668107,20);
(1337860879966069026,20);
(1335921696943156295,20);
(1333937407740697773,20);
(1331908109356545744,20);
(1329833900289317458,20);
(1327714880534061094,20);
(1325551151577839676,20);
(1323342816395288446,20);
(1321089979444124186,20);
(1318792746660570406,20)].
Definition mid_105 : list (Z * Z) := [
(1316451225454789119,20);
(1314065524706223287,20);
(1311635754758896932,20);
(1309162027416688710,20);
(1306644455938535225,20);
(1304083155033590284,20);
(1301478240856353621,20);
(1298829831001727109,20);
(1296138044500045640,20);
(1293403001812058403,20);
(1290624824823835559,20);
(1287803636841668674,20);
(1284939562586919631,20);
(1282032728190777779,20);
(1279083261189029389,20);
(1276091290516751658,20);
(1273056946502972020,20);
(1269980360865257188,20);
(1266861666704307589,20);
(1263700998498463145,20);
(1260498492098158230,20);
(1257254284720398484,20);
(1253968514943094165,20);
(1250641322699451961,20);
(1247272849272253875,20);
(1243863237288101234,20);
(1240412630711642747,20);
(1236921174839764048,20);
(1233389016295676974,20);
(1229816303023019072,20);
(1226203184279922587,20);
(1222549810632985075,20);
(1218856333951232919,20);
(1215122907400066968,20);
(1211349685435097849,20);
(1207536823796017712,20);
(1203684479500385582,20);
(1199792810837369862,20);
(1195861977361477139,20);
(1191892139886227379,20);
(1187883460477782635,20);
(1183836102448534468,20);
(1179750230350684083,20);
(1175626009969746658,20);
(1171463608318017852,20);
(1167263193628032686,20);
(1163024935345964052,20);
(1158749004124970221,20);
(1154435571818543393,20);
(1150084811473781055,20);
(1145696897324647093,20);
(1141272004785186256,20);
(1136810310442685698,20);
(1132311992050838954,20);
(1127777228522843130,20);
(1123206199924450983,20);
(1118599087467021282,20);
(1113956073500515544,20);
(1109277341506467902,20);
(1104563076090878983,20);
(1099813462977149159,20);
(1095028688998920738,20);
(1090208942092887358,20);
(1085354411291617263,20)].
Definition mid_106 : list (Z * Z) := [
(1080465286716275272,20);
(1075541759569374582,20);
(1070584022127459359,20);
(1065592267733752284,20);
(1060566690790775216,20);
(1055507486752993093,20);
(1050414852119305534,20);
(1045288984425612154,20);
(1040130082237319259,20);
(1034938345141796917,20);
(1029713973740796311,20);
(1024457169642900047,20);
(1019168135455847737,20);
(1013847074778922996,20);
(1008494192195255081,20);
(1003109693264086534,20);
(9976937845130687613,21);
(9922466734304658323,21);
(9867685684573565541,21);
(9812596789797962960,21);
(9757202153210223564,21);
(9701503887334787454,21);
(9645504113909623978,21);
(9589204963806855983,21);
(9532608576953021523,21);
(9475717102248964324,21);
(9418532697490072936,21);
(9361057529285430473,21);
(9303293772977457021,21);
(9245243612560884172,21);
(9186909240601313226,21);
(9128292858154217482,21);
(9069396674683000842,21);
(9010222907977032125,21);
(8950773784069523259,21);
(8891051537155341550,21);
(8831058409508223475,21);
(8770796651397756022,21);
(8710268521006621703,21);
(8649476284347154889,21);
(8588422215177611910,21);
(8527108594918893919,21);
(8465537712570032902,21);
(8403711864624565861,21);
(8341633354985856022,21);
(8279304494882492108,21);
(8216727602783474235,21);
(8153905004313804009,21);
(8090839032168435294,21);
(8027532026027387260,21);
(7963986332470307516,21);
(7900204304890558193,21);
(7836188303409076517,21);
(7771940694788673394,21);
(7707463852347639852,21);
(7642760155872944071,21);
(7577831991534224668,21);
(7512681751796333740,21);
(7447311835332892128,21);
(7381724646939077060,21);
(7315922597444000398,21);
(7249908103623524912,21);
(7183683588113070999,21);
(7117251479319094618,21)].
Definition mid_107 : list (Z * Z) := [
(7050614211331647681,21);
(6983774223836457934,21);
(6916733962026669694,21);
(6849495876514232438,21);
(6782062423242072625,21);
(6714436063394874261,21);
(6646619263310956684,21);
(6578614494393243348,21);
(6510424233020035457,21);
(6442050960456524589,21);
(6373497162765302641,21);
(6304765330717023580,21);
(6235857959701086861,21);
(6166777549636329528,21);
(6097526604881391317,21);
(6028107634144600109,21);
(5958523150394828827,21);
(5888775670771299355,21);
(5818867716493412480,21);
(5748801812771252642,21);
(5678580488714787301,21);
(5608206277244285817,21);
(5537681714999733926,21);
(5467009342250256886,21);
(5396191702804154985,21);
(5325231343918205261,21);
(5254130816206915508,21);
(5182892673552050647,21);
(5111519473012162557,21);
(5040013774731693166,21);
(4968378141849874585,21);
(4896615140410511338,21);
(4824727339270694880,21);
(4752717310010077557,21);
(4680587626839689472,21);
(4608340866511101419,21);
(4535979608225580023,21);
(4463506433542909803,21);
(4390923926289986255,21);
(4318234672470317066,21);
(4245441260172636011,21);
(4172546279479466547,21);
(4099552322376659452,21);
(4026461982661497588,21);
(3953277855852197105,21);
(3880002539096428105,21);
(3806638631079976680,21);
(3733188731936024941,21);
(3659655443153816533,21);
(3586041367487296117,21);
(3512349108864200754,21);
(3438581272295084500,21);
(3364740463782081494,21);
(3290829290227577537,21);
(3216850359343675740,21);
(3142806279560935324,21);
(3068699659937129069,21);
(2994533110066895879,21);
(2920309239990162564,21);
(2846030660101848877,21);
(2771699981060818819,21);
(2697319813698906103,21);
(2622892768930282659,21);
(2548421457661428219,21)].
Definition mid_108 : list (Z * Z) := [
(2473908490699426328,21);
(2399356478662039317,21);
(2324768031887311862,21);
(2250145760342964641,21);
(2175492273535773683,21);
(2100810180421906412,21);
(2026102089316008260,21);
(1951370607801693538,21);
(1876618342641225975,21);
(1801847899685298784,21);
(1727061883783685995,21);
(1652262898695184721,21);
(1577453546997768189,21);
(1502636429999059048,21);
(1427814147647470762,21);
(1352989298441743512,21);
(1278164479342286603,21);
(1203342285682085450,21);
(1128525311077476726,21);
(1053716147338906598,21);
(9789173843827499600,22);
(9041316101418683110,22);
(8293614104776662107,22);
(7546093690913539950,22);
(6798780674353603268,22);
(6051700846256634998,22);
(5304879973534834970,22);
(4558343797971634590,22);
(3812118035345843088,22);
(3066228374557106195,22);
(2320700476749260922,22);
(1575559974434305899,22);
(8308324706260158227,23);
(8654353796701388379,24);
(-6572812821425376699,23);
(-1400616480405653553,22);
(-2143436580501050523,22);
(-2885716139940516182,22);
(-3627429750933549549,22);
(-4368552041249363456,22);
(-5109057675074390884,22);
(-5848921353862669183,22);
(-6588117817201385226,22);
(-7326621843657555450,22);
(-8064408251628123843,22);
(-8801451900191028122,22);
(-9537727689954961620,22);
(-1027321056389929712,21);
(-1100787550821998896,21);
(-1174169755317343907,21);
(-1247465177390946452,21);
(-1320671329131541290,21);
(-1393785727284493512,21);
(-1466805893335346514,21);
(-1539729353593065949,21);
(-1612553639272791897,21);
(-1685276286577856589,21);
(-1757894836783225039,21);
(-1830406836317062611,21);
(-1902809836842590547,21);
(-1975101395339952989,21);
(-2047279074187973412,21);
(-2119340441244770695,21);
(-2191283069929440309,21)].
Definition mid_109 : list (Z * Z) := [
(-2263104539302206782,21);
(-2334802434145183750,21);
(-2406374345042894183,21);
(-2477817868461732864,21);
(-2549130606830016937,21);
(-2620310168617607984,21);
(-2691354168414987653,21);
(-2762260227012067453,21);
(-2833025971477055351,21);
(-2903649035235150201,21);
(-2974127058146209222,21);
(-3044457686582880806,21);
(-3114638573508505311,21);
(-3184667378553859667,21);
(-3254541768094878183,21);
(-3324259415328889317,21);
(-3393818000351311696,21);
(-3463215210232161931,21);
(-3532448739091453068,21);
(-3601516288175060990,21);
(-3670415565930259475,21);
(-3739144288080574387,21);
(-3807700177700332114,21);
(-3876080965289281730,21);
(-3944284388847004233,21);
(-4012308193946169908,21);
(-4080150133806381176,21);
(-4147807969367549655,21);
(-4215279469362277938,21);
(-4282562410389018949,21);
(-4349654576983841454,21);
(-4416553761692518232,21);
(-4483257765142386990,21);
(-4549764396113498317,21);
(-4616071471609033312,21);
(-4682176816926869600,21);
(-4748078265729367524,21);
(-4813773660113206641,21);
(-4879260850679185794,21);
(-4944537696601749091,21);
(-5009602065697390388,21);
(-5074451834493866158,21);
(-5139084888297909548,21);
(-5203499121263349507,21);
(-5267692436458998317,21);
(-5331662745935269315,21);
(-5395407970791326301,21);
(-5458926041241761104,21);
(-5522214896682599815,21);
(-5585272485756570017,21);
(-5648096766419458299,21);
(-5710685706004608141,21);
(-5773037281287514075,21);
(-5835149478550334320,21);
(-5897020293646010498,21);
(-5958647732061412433,21);
(-6020029808981010311,21);
(-6081164549349276152,21);
(-6142049987933317738,21);
(-6202684169385174265,21);
(-6263065148303072899,21);
(-6323190989292905642,21);
(-6383059767029361856,21);
(-6442669566316225511,21)].
Definition mid_110 : list (Z * Z) := [
(-6502018482146416575,21);
(-6561104619761931774,21);
(-6619926094713288363,21);
(-6678481032918178600,21);
(-6736767570720247379,21);
(-6794783854947092708,21);
(-6852528042968320833,21);
(-6909998302752707981,21);
(-6967192812925016021,21);
(-7024109762822705778,21);
(-7080747352552266109,21);
(-7137103793044574131,21);
(-7193177306110322237,21);
(-7248966124495315015,21);
(-7304468491934277760,21);
(-7359682663205658129,21);
(-7414606904184672248,21);
(-7469239491896902464,21);
(-7523578714571176919,21);
(-7577622871691658962,21);
(-7631370274049992068,21);
(-7684819243797008474,21);
(-7737968114493700561,21);
(-7790815231161806256,21);
(-7843358950334163721,21);
(-7895597640104825773,21);
(-7947529680178005984,21);
(-7999153461917271959,21);
(-8050467388394242502,21);
(-8101469874436308116,21);
(-8152159346674714077,21);
(-8202534243591359797,21);
(-8252593015565858406,21);
(-8302334124921859071,21);
(-8351756045972949516,21);
(-8400857265067675564,21);
(-8449636280635275387,21);
(-8498091603229741484,21);
(-8546221755573998879,21);
(-8594025272603523016,21);
(-8641500701509837942,21);
(-8688646601782822748,21);
(-8735461545253422194,21);
(-8781944116135158643,21);
(-8828092911065631848,21);
(-8873906539147670067,21);
(-8919383621989398700,21);
(-8964522793744475471,21);
(-9009322701151671609,21);
(-9053782003574003742,21);
(-9097899373036913429,21);
(-9141673494267100672,21);
(-9185103064729789255,21);
(-9228186794666000739,21);
(-9270923407129287239,21);
(-9313311638022356634,21);
(-9355350236132367256,21);
(-9397037963166772478,21);
(-9438373593787838245,21);
(-9479355915647228251,21);
(-9519983729420087790,21);
(-9560255848838130135,21);
(-9600171100722884251,21);
(-9639728325018255550,21)].
Definition mid_111 : list (Z * Z) := [
(-9678926374822502052,21);
(-9717764116419665837,21);
(-9756240429310726950,21);
(-9794354206244436367,21);
(-9832104353247115083,21);
(-9869489789652421963,21);
(-9906509448130687914,21);
(-9943162274717273416,21);
(-9979447228841137676,21);
(-1001536328335225073,20);
(-1005090942454888413,20);
(-1008608465220469166,20);
(-1012088797959445272,20);
(-1015531843352023185,20);
(-1018937505433654966,20);
(-1022305689597528301,20);
(-1025636302596980194,20);
(-1028929252547891235,20);
(-1032184448931031812,20);
(-1035401802594324537,20);
(-1038581225755096267,20);
(-1041722632002271311,20);
(-1044825936298487100,20);
(-1047891054982214888,20);
(-1050917905769773765,20);
(-1053906407757330098,20);
(-1056856481422855688,20);
(-1059768048628009600,20);
(-1062641032619955454,20);
(-1065475358033208218,20);
(-1068270950891349151,20);
(-1071027738608713344,20);
(-1073745649992057134,20);
(-1076424615242149545,20);
(-1079064565955311153,20);
(-1081665435124923823,20);
(-1084227157142876596,20);
(-1086749667800953646,20);
(-1089232904292206788,20);
(-1091676805212238484,20);
(-1094081310560448411,20);
(-1096446361741261998,20);
(-1098771901565256080,20);
(-1101057874250258896,20);
(-1103304225422431159,20);
(-1105510902117242192,20);
(-1107677852780434603,20);
(-1109805027268920274,20);
(-1111892376851654485,20);
(-1113939854210411508,20);
(-1115947413440571308,20);
(-1117915010051793827,20);
(-1119842600968698650,20);
(-1121730144531466085,20);
(-1123577600496388287,20);
(-1125384930036374756,20);
(-1127152095741421403,20);
(-1128879061619015960,20);
(-1130565793094487695,20);
(-1132212257011319667,20);
(-1133818421631428187,20);
(-1135384256635335598,20);
(-1136909733122368552,20);
(-1138394823610747349,20)].
Definition mid_112 : list (Z * Z) := [
(-1139839502037658103,20);
(-1141243743759264885,20);
(-1142607525550666005,20);
(-1143930825605816645,20);
(-1145213623537389910,20);
(-1146455900376601791,20);
(-1147657638572957550,20);
(-1148818821993993593,20);
(-1149939435924934687,20);
(-1151019467068307989,20);
(-1152058903543524970,20);
(-1153057734886398823,20);
(-1154015952048610509,20);
(-1154933547397145495,20);
(-1155810514713660926,20);
(-1156646849193808391,20);
(-1157442547446523376,20);
(-1158197607493247940,20);
(-1158912028767102032,20);
(-1159585812112031919,20);
(-1160218959781889395,20);
(-1160811475439454954,20);
(-1161363364155435646,20);
(-1161874632407407411,20);
(-1162345288078693063,20);
(-1162775340457211821,20);
(-1163164800234273329,20);
(-1163513679503321886,20);
(-1163821991758636452,20);
(-1164089751893977905,20);
(-1164316976201196056,20);
(-1164503682368778388,20);
(-1164649889480369981,20);
(-1164755618013210703,20);
(-1164820889836572920,20);
(-1164845728210111946,20);
(-1164830157782179541,20);
(-1164774204588110013,20);
(-1164677896048432748,20);
(-1164541260967046771,20);
(-1164364329529360247,20);
(-1164147133300361993,20);
(-1163889705222662801,20);
(-1163592079614490793,20);
(-1163254292167617381,20);
(-1162876379945276990,20);
(-1162458381379992758,20);
(-1162000336271395116,20);
(-1161502285783979835,20);
(-1160964272444816453,20);
(-1160386340141206056,20);
(-1159768534118315979,20);
(-1159110900976745989,20);
(-1158413488670055266,20);
(-1157676346502252603,20);
(-1156899525125228492,20);
(-1156083076536149404,20);
(-1155227054074807296,20);
(-1154331512420918651,20);
(-1153396507591388301,20);
(-1152422096937515475,20);
(-1151408339142167420,20);
(-1150355294216902531,20);
(-1149263023499047000,20)].
Definition mid_113 : list (Z * Z) := [
(-1148131589648733290,20);
(-1146961056645891437,20);
(-1145751489787194891,20);
(-1144502955682964382,20);
(-1143215522254032758,20);
(-1141889258728549794,20);
(-1140524235638764108,20);
(-1139120524817759626,20);
(-1137678199396120575,20);
(-1136197333798594569,20);
(-1134678003740684053,20);
(-1133120286225208773,20);
(-1131524259538818807,20);
(-1129890003248466314,20);
(-1128217598197839115,20);
(-1126507126503746743,20);
(-1124758671552466942,20);
(-1122972317996055736,20);
(-1121148151748602509,20);
(-1119286259982459585,20);
(-1117386731124415250,20);
(-1115449654851832610,20);
(-1113475122088766756,20);
(-1111463225001990338,20);
(-1109414056997033889,20);
(-1107327712714152416,20);
(-1105204288024270141,20);
(-1103043880024859140,20);
(-1100846587035811050,20);
(-1098612508595242336,20);
(-1096341745455280299,20);
(-1094034399577788717,20);
(-1091690574130067294,20);
(-1089310373480518145,20);
(-1086893903194256772,20);
(-1084441270028689910,20);
(-1081952581929059541,20);
(-1079427948023951520,20);
(-1076867478620758406,20);
(-1074271285201090602,20);
(-1071639480416194251,20);
(-1068972178082272691,20);
(-1066269493175810851,20);
(-1063531541828867215,20);
(-1060758441324283381,20);
(-1057950310090906808,20);
(-1055107267698754923,20);
(-1052229434854122340,20);
(-1049316933394705588,20);
(-1046369886284636945,20);
(-1043388417609504917,20);
(-1040372652571340886,20);
(-1037322717483575747,20);
(-1034238739765949884,20);
(-1031120847939366592,20);
(-1027969171620779325,20);
(-1024783841517961161,20);
(-1021564989424290221,20);
(-1018312748213500568,20);
(-1015027251834360600,20);
(-1011708635305369301,20);
(-1008357034709387624,20);
(-1004972587188220079,20);
(-1001555430937203263,20)].
Definition mid_114 : list (Z * Z) := [
(-9981057051997576160,21);
(-9946235502618510499,21);
(-9911091074464965789,21);
(-9875625191081895821,21);
(-9839839286273121058,21);
(-9803734804044887674,21);
(-9767313198549615674,21);
(-9730575934028607918,21);
(-9693524484755217108,21);
(-9656160334977105519,21);
(-9618484978858326054,21);
(-9580499920421451862,21);
(-9542206673488940957,21);
(-9503606761624306537,21);
(-9464701718073172815,21);
(-9425493085704157378,21);
(-9385982416948667612,21);
(-9346171273741351107,21);
(-9306061227459833107,21);
(-9265653858864082715,21);
(-9224950758035550119,21);
(-9183953524316310763,21);
(-9142663766247291837,21);
(-9101083101506961953,21);
(-9059213156849321713,21);
(-9017055568041327032,21);
(-8974611979800952571,21);
(-8931884045734068620,21);
(-8888873428271343996,21);
(-8845581798605148954,21);
(-8802010836625953280,21);
(-8758162230858474590,21);
(-8714037678397412029,21);
(-8669638884843396814,21);
(-8624967564238252352,21);
(-8580025438999923024,21);
(-8534814239857850537,21);
(-8489335705787096065,21);
(-8443591583943121578,21);
(-8397583629595851279,21);
(-8351313606063358319,21);
(-8304783284645905414,21);
(-8257994444559246458,21);
(-8210948872867633239,21);
(-8163648364417012970,21);
(-8116094721767851128,21);
(-8068289755127522334,21);
(-8020235282282465322,21);
(-7971933128530610257,21);
(-7923385126613067056,21);
(-7874593116645588198,21);
(-7825558946050427053,21);
(-7776284469487053895,21);
(-7726771548783680291,21);
(-7677022052867775621,21);
(-7627037857696629571,21);
(-7576820846187794917,21);
(-7526372908149692523,21);
(-7475695940210969059,21);
(-7424791845750682191,21);
(-7373662534827987898,21);
(-7322309924111516412,21);
(-7270735936808390802,21);
(-7218942502593746029,21)].
Definition mid_115 : list (Z * Z) := [
(-7166931557539162924,21);
(-7114705044041747493,21);
(-7062264910752570103,21);
(-7009613112504795886,21);
(-6956751610242266175,21);
(-6903682370947366968,21);
(-6850407367568658867,21);
(-6796928578949034370,21);
(-6743247989753013878,21);
(-6689367590393994860,21);
(-6635289376961860976,21);
(-6581015351149664856,21);
(-6526547520180898086,21);
(-6471887896736185260,21);
(-6417038498879749919,21);
(-6362001349985991518,21);
(-6306778478666309577,21);
(-6251371918694581704,21);
(-6195783708933684172,21);
(-6140015893261548466,21);
(-6084070520496857870,21);
(-6027949644324580997,21);
(-5971655323221999705,21);
(-5915189620383731750,21);
(-5858554603647451661,21);
(-5801752345418986247,21);
(-5744784922597273059,21);
(-5687654416499737797,21);
(-5630362912787031590,21);
(-5572912501387698031,21);
(-5515305276423063986,21);
(-5457543336131907494,21);
(-5399628782794937444,21);
(-5341563722658955807,21);
(-5283350265861584509,21);
(-5224990526355404244,21);
(-5166486621831771486,21);
(-5107840673645542770,21);
(-5049054806738368685,21);
(-4990131149563236876,21);
(-4931071834008021043,21);
(-4871878995319098467,21);
(-4812554772025473201,21);
(-4753101305862226199,21);
(-4693520741693899510,21);
(-4633815227438242181,21);
(-4573986913989756646,21);
(-4514037955142986662,21);
(-4453970507515669919,21);
(-4393786730472448374,21);
(-4333488786047921121,21);
(-4273078838869686855,21);
(-4212559056081938841,21);
(-4151931607268115332,21);
(-4091198664374426017,21);
(-4030362401632753971,21);
(-3969424995483510771,21);
(-3908388624498746605,21);
(-3847255469305609077,21);
(-3786027712508435034,21);
(-3724707538612243192,21);
(-3663297133945640858,21);
(-3601798686583667763,21);
(-3540214386270423494,21)].
Definition mid_116 : list (Z * Z) := [
(-3478546424342479886,21);
(-3416796993651161074,21);
(-3354968288485956750,21);
(-3293062504497140924,21);
(-3231081838618463532,21);
(-3169028488990416250,21);
(-3106904654882967909,21);
(-3044712536618240060,21);
(-2982454335493545539,21);
(-2920132253704793481,21);
(-2857748494268537356,21);
(-2795305260945486238,21);
(-2732804758163528622,21);
(-2670249190940591870,21);
(-2607640764807488652,21);
(-2544981685731459008,21);
(-2482274160038702802,21);
(-2419520394338039310,21);
(-2356722595443827822,21);
(-2293882970299008367,21);
(-2231003725898760004,21);
(-2168087069213613972,21);
(-2105135207112651848,21);
(-2042150346287067118,21);
(-1979134693173770568,21);
(-1916090453878758213,21);
(-1853019834100487484,21);
(-1789925039053932984,21);
(-1726808273394105347,21);
(-1663671741139575956,21);
(-1600517645596858394,21);
(-1537348189283727811,21);
(-1474165573853725110,21);
(-1410972000020032074,21);
(-1347769667479437354,21);
(-1284560774836677370,21);
(-1221347519529267277,21);
(-1158132097751012231,21);
(-1094916704377040017,21);
(-1031703532888466127,21);
(-9684947752969288439,22);
(-9052926220691658509,22);
(-8420992620523414310,22);
(-7789168823988288585,22);
(-7157476684910744295,22);
(-6525938038673398042,22);
(-5894574701464155506,22);
(-5263408469535913858,22);
(-4632461118459744879,22);
(-4001754402380083842,22);
(-3371310053273465367,22);
(-2741149780212911763,22);
(-2111295268619290343,22);
(-1481768179528349658,22);
(-8525901488544691093,23);
(-2237827866535364188,23);
(4046323236136215479,23);
(1032633625808792108,22);
(1660199591853928124,22);
(2287308722455853708,22);
(2913939547837128465,22);
(3540070628465379109,22);
(4165680555774341209,22);
(4790747952890165684,22)].
Definition mid_117 : list (Z * Z) := [
(5415251475355384227,22);
(6039169811848338169,22);
(6662481684900863933,22);
(7285165851617564142,22);
(7907201104393997773,22);
(8528566271626482386,22);
(9149240218426940054,22);
(9769201847336138680,22);
(1038843009902744871,21);
(1100690395302029697,21);
(1162460242838037798,21);
(1224150458442581227,21);
(1285758952143110359,21);
(1347283638132279774,21);
(1408722434837982301,21);
(1470073264993120021,21);
(1531334055704890434,21);
(1592502738523860319,21);
(1653577249513157790,21);
(1714555529317514067,21);
(1775435523231478230,21);
(1836215181268034636,21);
(1896892458227065949,21);
(1957465313762832802,21);
(2017931712452353775,21);
(2078289623862501247,21);
(2138537022617561720,21);
(2198671888466552198,21);
(2258692206350047370,21);
(2318595966466396180,21);
(2378381164339084600,21);
(2438045800882449564,21);
(2497587882467646164,21);
(2557005420988598798,21);
(2616296433927745024,21);
(2675458944420889065,21);
(2734490981322824227,21);
(2793390579271708488,21);
(2852155778753865528,21);
(2910784626168364583,21);
(2969275173890681754,21);
(3027625480336824503,21);
(3085833610027120897,21);
(3143897633649158415,21);
(3201815628121101789,21);
(3259585676654786195,21);
(3317205868817775689,21);
(3374674300596267745,21);
(3431989074456692854,21);
(3489148299407688388,21);
(3546150091061818325,21);
(3602992571696721387,21);
(3659673870315688880,21);
(3716192122709150673,21);
(3772545471514705730,21);
(3828732066277179547,21);
(3884750063508678533,21);
(3940597626748425404,21);
(3996272926621569771,21);
(4051774140898863931,21);
(4107099454554861973,21);
(4162247059826647971,21);
(4217215156272244130,21);
(4272001950828037929,21)].
Definition mid_118 : list (Z * Z) := [
(4326605657866649905,21);
(4381024499254372075,21);
(4435256704408034774,21);
(4489300510351376498,21);
(4543154161772123244,21);
(4596815911077757263,21);
(4650284018451154855,21);
(4703556751906285728,21);
(4756632387343561960,21);
(4809509208604297904,21);
(4862185507525776385,21);
(4914659583995067624,21);
(4966929746003165627,21);
(5018994309698832264,21);
(5070851599441469036,21);
(5122499947854363550,21);
(5173937695877473680,21);
(5225163192819631472,21);
(5276174796410456475,21);
(5326970872852158922,21);
(5377549796871144289,21);
(5427909951768681955,21);
(5478049729471706590,21);
(5527967530583552738,21);
(5577661764433403113,21);
(5627130849126638079,21);
(5676373211593643830,21);
(5725387287639173081,21);
(5774171521991049161,21);
(5822724368348519697,21);
(5871044289429851355,21);
(5919129757020716483,21);
(5966979252021086151,21);
(6014591264492144020,21);
(6061964293703055347,21);
(6109096848177438498,21);
(6155987445738881486,21);
(6202634613556771634,21);
(6249036888191630834,21);
(6295192815639622484,21);
(6341100951377481691,21);
(6386759860406317907,21);
(6432168117295548534,21);
(6477324306226421406,21);
(6522227021035088834,21);
(6566874865254905373,21);
(6611266452159409064,21);
(6655400404803977349,21);
(6699275356067286961,21);
(6742889948692776421,21);
(6786242835329623670,21);
(6829332678572868492,21);
(6872158151004048414,21);
(6914717935230468501,21);
(6957010723924821581,21);
(6999035219864431154,21);
(7040790135969372809,21);
(7082274195341109989,21);
(7123486131300334374,21);
(7164424687424417702,21);
(7205088617584422088,21);
(7245476685981949889,21);
(7285587667185660504,21);
(7325420346166925875,21)].
Definition mid_119 : list (Z * Z) := [
(7364973518335538906,21);
(7404245989575152127,21);
(7443236576277710223,21);
(7481944105378206082,21);
(7520367414388478416,21);
(7558505351430971214,21);
(7596356775272163596,21);
(7633920555355059451,21);
(7671195571831971975,21);
(7708180715596558812,21);
(7744874888315485956,21);
(7781277002459632830,21);
(7817385981335063169,21);
(7853200759113724422,21);
(7888720280863176573,21);
(7923943502576583781,21);
(7958869391201984361,21);
(7993496924671108020,21);
(8027825091928033480,21);
(8061852892957108857,21);
(8095579338810776626,21);
(8129003451636966637,21);
(8162124264705925350,21);
(8194940822436469138,21);
(8227452180422529029,21);
(8259657405458619914,21);
(8291555575565026995,21);
(8323145780012780603,21);
(8354427119348242434,21);
(8385398705416954521,21);
(8416059661387509036,21);
(8446409121774588885,21);
(8476446232461911159,21);
(8506170150724795889,21);
(8535580045251869169,21);
(8564675096166865162,21);
(8593454495049905953,21);
(8621917444958179452,21);
(8650063160446136781,21);
(8677890867585785067,21);
(8705399803986064305,21);
(8732589218811970949,21);
(8759458372803240883,21);
(8786006538292831167,21);
(8812232999224577784,21);
(8838137051170872477,21);
(8863718001349584971,21);
(8888975168640740609,21);
(8913907883602856241,21);
(8938515488488570082,21);
(8962797337260085956,21);
(8986752795604353861,21);
(9010381240947355416,21);
(9033682062468375434,21);
(9056654661113675009,21);
(9079298449609952970,21);
(9101612852477024979,21);
(9123597306040348229,21);
(9145251258443285944,21);
(9166574169658422977,21);
(9187565511498997639,21);
(9208224767629606677,21);
(9228551433576610147,21);
(9248545016738121682,21)].
Definition mid_120 : list (Z * Z) := [
(9268205036393580704,21);
(9287531023712589096,21);
(9306522521764061875,21);
(9325179085524226003,21);
(9343500281884497757,21);
(9361485689658987155,21);
(9379134899591514904,21);
(9396447514362218228,21);
(9413423148593712611,21);
(9430061428856890970,21);
(9446361993676240590,21);
(9462324493534814834,21);
(9477948590878682716,21);
(9493233960121064477,21);
(9508180287646042159,21);
(9522787271811697721,21);
(9537054622953036048,21);
(9550982063384415299,21);
(9564569327401477652,21);
(9577816161282812907,21);
(9590722323291039214,21);
(9603287583673557684,21);
(9615511724663008616,21);
(9627394540477073742,21);
(9638935837317830907,21);
(9650135433371226715,21);
(9660993158805331396,21);
(9671508855768836538,21);
(9681682378388756574,21);
(9691513592767949867,21);
(9701002376982053449,21);
(9710148621076114192,21);
(9718952227060654453,21);
(9727413108907593739,21);
(9735531192545502505,21);
(9743306415854529820,21);
(9750738728660961543,21);
(9757828092731313588,21);
(9764574481766047018,21);
(9770977881392806097,21);
(9777038289159387455,21);
(9782755714526129853,21);
(9788130178857972624,21);
(9793161715416139404,21);
(9797850369349403801,21);
(9802196197684855464,21);
(9806199269318329609,21);
(9809859665004532978,21);
(9813177477346527941,21);
(9816152810785004970,21);
(9818785781587067649,21);
(9821076517834646455,21);
(9823025159412487536,21);
(9824631857995752907,21);
(9825896777037183491,21);
(9826820091753953393,21);
(9827401989113969047,21);
(9827642667821915104,21);
(9827542338304901329,21);
(9827101222697502345,21);
(9826319554826693295,21);
(9825197580196143657,21);
(9823735555970358399,21);
(9821933750958099230,21)].
Definition mid_121 : list (Z * Z) := [
(9819792445595746863,21);
(9817311931930052665,21);
(9814492513600586721,21);
(9811334505821693239,21);
(9807838235364334939,21);
(9804004040537082215,21);
(9799832271167157813,21);
(9795323288580855270,21);
(9790477465583657252,21);
(9785295186439854284,21);
(9779776846851962260,21);
(9773922853939583100,21);
(9767733626217999995,21);
(9761209593576309490,21);
(9754351197255189260,21);
(9747158889824341504,21);
(9739633135159513067,21);
(9731774408419144318,21);
(9723583196020596509,21);
(9715059995616033908,21);
(9706205316068056144,21);
(9697019677424712977,21);
(9687503610894284897,21);
(9677657658819753192,21);
(9667482374652813792,21);
(9656978322927438352,21);
(9646146079233260118,21);
(9634986230188479286,21);
(9623499373412362431,21);
(9611686117497537235,21);
(9599547081981660984,21);
(9587082897319040495,21);
(9574294204851655291,21);
(9561181656779885879,21);
(9547745916132934982,21);
(9533987656738854982,21);
(9519907563194185060,21);
(9505506330833230974,21);
(9490784665697171371,21);
(9475743284502470207,21);
(9460382914609283961,21);
(9444704293989344968,21);
(9428708171193353818,21);
(9412395305318468908,21);
(9395766465974961582,21);
(9378822433252786278,21);
(9361563997687763830,21);
(9343991960227473331,21);
(9326107132196691241,21);
(9307910335262485277,21);
(9289402401399192086,21);
(9270584172852770408,21);
(9251456502104984242,21);
(9232020251837258148,21);
(9212276294894100603,21);
(9192225514246287962,21);
(9171868802953717092,21);
(9151207064127869426,21);
(9130241210893905515,21);
(9108972166352787350,21);
(9087400863542453508,21);
(9065528245399223292,21);
(9043355264718663106,21);
(9020882884116211697,21)].
Definition mid_122 : list (Z * Z) := [
(8998112075987213868,21);
(8975043822467099891,21);
(8951679115390962990,21);
(8928018956252675373,21);
(8904064356164189883,21);
(8879816335813965622,21);
(8855275925425544481,21);
(8830444164715588184,21);
(8805322102851556240,21);
(8779910798409278072,21);
(8754211319330211169,21);
(8728224742878114631,21);
(8701952155595788635,21);
(8675394653261336853,21);
(8648553340844114881,21);
(8621429332460467040,21);
(8594023751329150917,21);
(8566337729726420172,21);
(8538372408940925196,21);
(8510128939228263356,21);
(8481608479765104236,21);
(8452812198603455382,21);
(8423741272624157839,21);
(8394396887490343517,21);
(8364780237600632357,21);
(8334892526042121316,21);
(8304734964542846015,21);
(8274308773424093183,21);
(8243615181552676682,21);
(8212655426292642807,21);
(8181430753456628638,21);
(8149942417257556929,21);
(8118191680259154858,21);
(8086179813327196153,21);
(8053908095579691978,21);
(8021377814337168552,21);
(7988590265072873647,21);
(7955546751362280525,21);
(7922248584832662990,21);
(7888697085112342591,21);
(7854893579779788360,21);
(7820839404312256854,21);
(7786535902034231842,21);
(7751984424065929032,21);
(7717186329271187584,21);
(7682142984205298300,21);
(7646855763062511760,21);
(7611326047623397269,21);
(7575555227202082978,21);
(7539544698593054518,21);
(7503295866017596280,21);
(7466810141070586576,21);
(7430088942666458404,21);
(7393133696985184494,21);
(7355945837418199906,21);
(7318526804513745231,21);
(7280878045922417087,21);
(7243001016342202544,21);
(7204897177463267209,21);
(7166567997912753722,21);
(7128014953199578521,21);
(7089239525658173890,21);
(7050243204392903952,21);
(7011027485222023556,21)].
Definition mid_123 : list (Z * Z) := [
(6971593870621277216,21);
(6931943869667249979,21);
(6892078997980994118,21);
(6852000777670948922,21);
(6811710737275768549,21);
(6771210411707393600,21);
(6730501342193257082,21);
(6689585076218892805,21);
(6648463167470081495,21);
(6607137175774767911,21);
(6565608667044845262,21);
(6523879213218322128,21);
(6481950392200105070,21);
(6439823787803672893,21);
(6397500989692334571,21);
(6354983593320104665,21);
(6312273199872342824,21);
(6269371416206797470,21);
(6226279854793739625,21);
(6183000133656570314,21);
(6139533876311959598,21);
(6095882711709671616,21);
(6052048274172813769,21);
(6008032203337359059,21);
(5963836144091688371,21);
(5919461746516141432,21);
(5874910665822384755,21);
(5830184562292559276,21);
(5785285101218067168,21);
(5740213952838857381,21);
(5694972792281972201,21);
(5649563299500067783,21);
(5603987159210296366,21);
(5558246060832187571,21);
(5512341698426369285,21);
(5466275770632519210,21);
(5420049980607138593,21);
(5373666035961876739,21);
(5327125648701110452,21);
(5280430535159485322,21);
(5233582415939605319,21);
(5186583015849574076,21);
(5139434063840279433,21);
(5092137292942376138,21);
(5044694440203852277,21);
(4997107246626865396,21);
(4949377457104471925,21);
(4901506820357946423,21);
(4853497088873032217,21);
(4805350018836997833,21);
(4757067370075092338,21);
(4708650905986890532,21);
(4660102393482724002,21);
(4611423602920474742,21);
(4562616308041092875,21);
(4513682285905160421,21);
(4464623316829089035,21);
(4415441184320982072,21);
(4366137675016432476,21);
(4316714578614817659,21);
(4267173687814651561,21);
(4217516798249744230,21);
(4167745708424761171,21);
(4117862219650605775,21)].
Definition mid_124 : list (Z * Z) := [
(4067868135980432301,21);
(4017765264144984930,21);
(3967555413487884770,21);
(3917240395901216976,21);
(3866822025761264010,21);
(3816302119863129554,21);
(3765682497356482618,21);
(3714964979680825466,21);
(3664151390500620595,21);
(3613243555640274600,21);
(3562243303019714449,21);
(3511152462588991007,21);
(3459972866263840135,21);
(3408706347860499582,21);
(3357354743030586605,21);
(3305919889196498596,21);
(3254403625486182710,21);
(3202807792668003941,21);
(3151134233085833500,21);
(3099384790594104239,21);
(3047561310492645330,21);
(2995665639461397682,21);
(2943699625495717863,21);
(2891665117841119102,21);
(2839563966927989742,21);
(2787398024306930559,21);
(2735169142583204326,21);
(2682879175352089179,21);
(2630529977133602704,21);
(2578123403307348328,21);
(2525661310047499618,21);
(2473145554258229101,21);
(2420577993507942293,21);
(2367960485964699154,21);
(2315294890331318078,21);
(2262583065780284300,21);
(2209826871888658298,21);
(2157028168573510690,21);
(2104188816026917371,21);
(2051310674650875729,21);
(1998395604992992802,21);
(1945445467681188121,21);
(1892462123359403559,21);
(1839447432622744400,21);
(1786403255952702168,21);
(1733331453652612068,21);
(1680233885783556039,21);
(1627112412099111565,21);
(1573968891981315657,21);
(1520805184376375352,21);
(1467623147730174596,21);
(1414424639923819726,21);
(1361211518209859981,21);
(1307985639147634565,21);
(1254748858539622616,21);
(1201503031367237399,21);
(1148250011726672550,21);
(1094991652765424416,21);
(1041729806618279467,21);
(9884663243434699612,22);
(9352030558591477218,22);
(8819418498799381449,22);
(8286845538533339599,22);
(7754330138960990751,22)].
Definition mid_125 : list (Z * Z) := [
(7221890747313393149,22);
(6689545796250819052,22);
(6157313703229568740,22);
(5625212869875974948,22);
(5093261681351904987,22);
(4561478505730758482,22);
(4029881693368073375,22);
(3498489576273183604,22);
(2967320467487643827,22);
(2436392660458966332,22);
(1905724428416119499,22);
(1375334023748625545,22);
(8452396773868434382,23);
(3154595981807963354,23);
(-2139880277204428150,23);
(-7430850374824364709,23);
(-1271813292204252278,22);
(-1800154677532257773,22);
(-2328091104275871318,22);
(-2855604509018841051,22);
(-3382676854729227867,22);
(-3909290131370648787,22);
(-4435426356512794997,22);
(-4961067575934901761,22);
(-5486195864233519084,22);
(-6010793325428956954,22);
(-6534842093563903711,22);
(-7058324333310175402,22);
(-7581222240564444758,22);
(-8103518043048941241,22);
(-8625194000910486837,22);
(-9146232407312527906,22);
(-9666615589031128707,22);
(-1018632590704893204,21);
(-1070534575714492077,21);
(-1122365757048264740,21);
(-1174124381419940468,21);
(-1225808699199420039,21);
(-1277416964470876829,21);
(-1328947435091215904,21);
(-1380398372748392393,21);
(-1431768043018942504,21);
(-1483054715426220579,21);
(-1534256663497612656,21);
(-1585372164822118233,21);
(-1636399501107736005,21);
(-1687336958238476198,21);
(-1738182826330797849,21);
(-1788935399791078676,21);
(-1839592977371667026,21);
(-1890153862227182333,21);
(-1940616361970752025,21);
(-1990978788730162798,21);
(-2041239459203183105,21);
(-2091396694713596252,21);
(-2141448821266162070,21);
(-2191394169601946790,21);
(-2241231075253473370,21);
(-2290957878599133267,21);
(-2340572924917901348,21);
(-2390074564443828761,21);
(-2439461152420123805,21);
(-2488731049152662512,21);
(-2537882620064437714,21)].
Definition mid_126 : list (Z * Z) := [
(-2586914235748656761,21);
(-2635824272021959798,21);
(-2684611109977651493,21);
(-2733273136038706381,21);
(-2781808742010044317,21);
(-2830216325131368425,21);
(-2878494288129014676,21);
(-2926641039268057781,21);
(-2974654992404242304,21);
(-3022534567035187799,21);
(-3070278188351798637,21);
(-3117884287289503838,21);
(-3165351300578907959,21);
(-3212677670796319686,21);
(-3259861846414184149,21);
(-3306902281851403780,21);
(-3353797437522858162,21);
(-3400545779889219220,21);
(-3447145781506518770,21);
(-3493595921074912469,21);
(-3539894683488022283,21);
(-3586040559881204740,21);
(-3632032047680157014,21);
(-3677867650649139196,21);
(-3723545878938901241,21);
(-3769065249133877853,21);
(-3814424284300290194,21);
(-3859621514032918373,21);
(-3904655474501891269,21);
(-3949524708499478100,21);
(-3994227765486566863,21);
(-4038763201638482722,21);
(-4083129579890998513,21);
(-4127325469986025189,21);
(-4171349448516623558,21);
(-4215200098972382049,21);
(-4258876011783914971,21);
(-4302375784367460515,21);
(-4345698021169248047,21);
(-4388841333709396150,21);
(-4431804340625226935,21);
(-4474585667715319341,21);
(-4517183947982252729,21);
(-4559597821675418980,21);
(-4601825936333727926,21);
(-4643866946827995314,21);
(-4685719515402646425,21);
(-4727382311717818683,21);
(-4768854012890457253,21);
(-4810133303535644826,21);
(-4851218875807574056,21);
(-4892109429439858194,21);
(-4932803671785957085,21);
(-4973300317859285710,21);
(-5013598090372811851,21);
(-5053695719778360587,21);
(-5093591944305869354,21);
(-5133285510002273504,21);
(-5172775170769823745,21);
(-5212059688404416594,21);
(-5251137832633667214,21);
(-5290008381154213783,21);
(-5328670119669382671,21);
(-5367121841925938559,21)].
Definition mid_127 : list (Z * Z) := [
(-5405362349750883130,21);
(-5443390453088061201,21);
(-5481204970033951539,21);
(-5518804726873620739,21);
(-5556188558116275517,21);
(-5593355306530422080,21);
(-5630303823178582287,21);
(-5667032967451949080,21);
(-5703541607104829422,21);
(-5739828618288236352,21);
(-5775892885583674453,21);
(-5811733302036615686,21);
(-5847348769189117390,21);
(-5882738197112881776,21);
(-5917900504441320556,21);
(-5952834618401647328,21);
(-5987539474846804294,21);
(-6022014018286686414,21);
(-6056257201919003873,21);
(-6090267987660512305,21);
(-6124045346177131068,21);
(-6157588256914045891,21);
(-6190895708125529646,21);
(-6223966696904554077,21);
(-6256800229211594011,21);
(-6289395319903801941,21);
(-6321750992763126159,21);
(-6353866280524658738,21);
(-6385740224904490857,21);
(-6417371876627006935,21);
(-6448760295452132807,21);
(-6479904550202232605,21);
(-6510803718788542478,21);
(-6541456888237116851,21);
(-6571863154715021013,21);
(-6602021623555607774,21);
(-6631931409283598096,21);
(-6661591635639950958,21);
(-6691001435606536325,21);
(-6720159951429930355,21);
(-6749066334645476874,21);
(-6777719746100658443,21);
(-6806119355978151701,21);
(-6834264343818763007,21);
(-6862153898543738723,21);
(-6889787218476892475,21);
(-6917163511366409764,21);
(-6944281994406318638,21);
(-6971141894257327186,21);
(-6997742447067827574,21);
(-7024082898494089962,21);
(-7050162503720494578,21);
(-7075980527479031751,21);
(-7101536244068723004,21);
(-7126828937374781944,21);
(-7151857900887070851,21);
(-7176622437718472268,21);
(-7201121860622881551,21);
(-7225355492012937482,21);
(-7249322663977078932,21);
(-7273022718296585053,21);
(-7296455006462264185,21);
(-7319618889690427191,21);
(-7342513738939051605,21)].
Definition mid_128 : list (Z * Z) := [
(-7365138934923109656,21);
(-7387493868129770512,21);
(-7409577938833420384,21);
(-7431390557109923689,21);
(-7452931142850768853,21);
(-7474199125777057987,21);
(-7495193945452767112,21);
(-7515915051297784345,21);
(-7536361902600756391,21);
(-7556533968531464057,21);
(-7576430728152719861,21);
(-7596051670432153735,21);
(-7615396294253566796,21);
(-7634464108427718720,21);
(-7653254631703155890,21);
(-7671767392776334370,21);
(-7690001930301545996,21);
(-7707957792900550428,21);
(-7725634539171729286,21);
(-7743031737698866449,21);
(-7760148967059764431,21);
(-7776985815834371561,21);
(-7793541882612486753,21);
(-7809816776001235299,21);
(-7825810114632203787,21);
(-7841521527168129196,21);
(-7856950652309268798,21);
(-7872097138799450874,21);
(-7886960645431664862,21);
(-7901540841053546552,21);
(-7915837404572127756,21);
(-7929850024958629354,21);
(-7943578401252591667,21);
(-7957022242565919834,21);
(-7970181268086183254,21);
(-7983055207080130139,21);
(-7995643798896279186,21);
(-8007946792967589322,21);
(-8019963948813433816,21);
(-8031695036041525820,21);
(-8043139834349257583,21);
(-8054298133524899136,21);
(-8065169733448195044,21);
(-8075754444090784204,21);
(-8086052085516338625,21);
(-8096062487880075972,21);
(-8105785491428155881,21);
(-8115220946496685961,21);
(-8124368713510363507,21);
(-8133228662980647103,21);
(-8141800675503707910,21);
(-8150084641758138099,21);
(-8158080462501987942,21);
(-8165788048569768212,21);
(-8173207320868961651,21);
(-8180338210376118108,21);
(-8187180658132816105,21);
(-8193734615241067554,21);
(-8200000042858432772,21);
(-8205976912192877032,21);
(-8211665204497207299,21);
(-8217064911063064886,21);
(-8222176033214883412,21);
(-8226998582303078275,21)].
Definition mid_129 : list (Z * Z) := [
(-8231532579697262153,21);
(-8235778056778851608,21);
(-8239735054933581757,21);
(-8243403625543368682,21);
(-8246783829978147559,21);
(-8249875739587145262,21);
(-8252679435689870210,21);
(-8255195009566842004,21);
(-8257422562449866568,21);
(-8259362205512025060,21);
(-8261014059857326244,21);
(-8262378256510050090,21);
(-8263454936403622983,21);
(-8264244250369314274,21);
(-8264746359124563319,21);
(-8264961433260812132,21);
(-8264889653231254768,21);
(-8264531209338087103,21);
(-8263886301719387123,21);
(-8262955140335807858,21);
(-8261737944956878271,21);
(-8260234945146839244,21);
(-8258446380250422311,21);
(-8256372499378014304,21);
(-8254013561390643322,21);
(-8251369834884629897,21);
(-8248441598175939790,21);
(-8245229139284018099,21);
(-8241732755915571335,21);
(-8237952755447777026,21);
(-8233889454911364966,21);
(-8229543180973237018,21);
(-8224914269918840587,21);
(-8220003067634115354,21);
(-8214809929587301232,21);
(-8209335220810239780,21);
(-8203579315879462250,21);
(-8197542598896925478,21);
(-8191225463470360943,21);
(-8184628312693521465,21);
(-8177751559125794739,21);
(-8170595624771782167,21);
(-8163160941060438811,21);
(-8155447948823845578,21);
(-8147457098275801002,21);
(-8139188848989988012,21);
(-8130643669877930801,21);
(-8121822039166469442,21);
(-8112724444375168584,21);
(-8103351382293191851,21);
(-8093703358956044411,21);
(-8083780889621883584,21);
(-8073584498747501600,21);
(-8063114719964209476,21);
(-8052372096053216077,21);
(-8041357178920738313,21);
(-8030070529572871929,21);
(-8018512718090130970,21);
(-8006684323601673259,21);
(-7994585934259204954,21);
(-7982218147210796630,21);
(-7969581568573969044,21);
(-7956676813408933291,21);
(-7943504505691303605,21)].
Definition mid_130 : list (Z * Z) := [
(-7930065278284558622,21);
(-7916359772912209478,21);
(-7902388640129695552,21);
(-7888152539295990515,21);
(-7873652138544852755,21);
(-7858888114756001214,21);
(-7843861153525638966,21);
(-7828571949137034039,21);
(-7813021204530744626,21);
(-7797209631274335147,21);
(-7781137949532133079,21);
(-7764806888034528690,21);
(-7748217184046874914,21);
(-7731369583338530346,21);
(-7714264840151144158,21);
(-7696903717166927138,21);
(-7679286985476664260,21);
(-7661415424547342139,21);
(-7643289822189525823,21);
(-7624910974524575988,21);
(-7606279685951427248,21);
(-7587396769113329172,21);
(-7568263044864044324,21);
(-7548879342233975193,21);
(-7529246498396003143,21);
(-7509365358631042014,21);
(-7489236776293269060,21);
(-7468861612775175469,21);
(-7448240737472515416,21);
(-7427375027748503097,21);
(-7406265368898326366,21);
(-7384912654113139942,21);
(-7363317784443742034,21);
(-7341481668764099182,21);
(-7319405223734733179,21);
(-7297089373765536409,21);
(-7274535050978740702,21);
(-7251743195171365779,21);
(-7228714753777398805,21);
(-7205450681830074568,21);
(-7181951941923503391,21);
(-7158219504174272163,21);
(-7134254346182732250,21);
(-7110057452994258780,21);
(-7085629817059972170,21);
(-7060972438197343423,21);
(-7036086323550706616,21);
(-7010972487551391484,21);
(-6985631951877554167,21);
(-6960065745414088616,21);
(-6934274904211936916,21);
(-6908260471447484619,21);
(-6882023497381561418,21);
(-6855565039318264886,21);
(-6828886161563469358,21);
(-6801987935383554257,21);
(-6774871438963152304,21);
(-6747537757363346149,21);
(-6719987982479443470,21);
(-6692223212998457162,21);
(-6664244554356384305,21);
(-6636053118695479057,21);
(-6607650024821048497,21);
(-6579036398158182551,21)].
Definition mid_131 : list (Z * Z) := [
(-6550213370708371161,21);
(-6521182081005665217,21);
(-6491943674072945050,21);
(-6462499301377766514,21);
(-6432850120788078697,21);
(-6402997296527635461,21);
(-6372941999131759121,21);
(-6342685405401934061,21);
(-6312228698361075155,21);
(-6281573067208350361,21);
(-6250719707273597395,21);
(-6219669819971759481,21);
(-6188424612757230034,21);
(-6156985299077714219,21);
(-6125353098328261379,21);
(-6093529235804864656,21);
(-6061514942657885395,21);
(-6029311455845621538,21);
(-5996920018087273201,21);
(-5964341877815992378,21);
(-5931578289131684591,21);
(-5898630511753797517,21);
(-5865499810973720182,21);
(-5832187457606990456,21);
(-5798694727945759297,21);
(-5765022903710618346,21);
(-5731173272002380685,21);
(-5697147125254025529,21);
(-5662945761181951629,21);
(-5628570482737661751,21);
(-5594022598058855621,21);
(-5559303420420428320,21);
(-5524414268185646494,21);
(-5489356464756827564,21);
(-5454131338525939135,21);
(-5418740222825205351,21);
(-5383184455877518954,21);
(-5347465380746665130,21);
(-5311584345287254788,21);
(-5275542702094978761,21);
(-5239341808456299959,21);
(-5202983026298047507,21);
(-5166467722137317066,21);
(-5129797267030509859,21);
(-5092973036523065593,21);
(-5055996410598454643,21);
(-5018868773627240508,21);
(-4981591514316032962,21);
(-4944166025656675408,21);
(-4906593704874445162,21);
(-4868875953376990140,21);
(-4831014176702883023,21);
(-4793009784469877063,21);
(-4754864190323154077,21);
(-4716578811883732902,21);
(-4678155070696266363,21);
(-4639594392177254570,21);
(-4600898205562835817,21);
(-4562067943856446504,21);
(-4523105043776710042,21);
(-4484010945704936316,21);
(-4444787093632503183,21);
(-4405434935108289152,21);
(-4365955921186367994,21)].
Definition mid_132 : list (Z * Z) := [
(-4326351506372581000,21);
(-4286623148572106697,21);
(-4246772309036463307,21);
(-4206800452310467849,21);
(-4166709046178954969,21);
(-4126499561613912979,21);
(-4086173472720864425,21);
(-4045732256685839918,21);
(-4005177393721881876,21);
(-3964510367015356557,21);
(-3923732662672737952,21);
(-3882845769666851739,21);
(-3841851179783077174,21);
(-3800750387565728083,21);
(-3759544890264346264,21);
(-3718236187779754183,21);
(-3676825782609951555,21);
(-3635315179796496775,21);
(-3593705886870298544,21);
(-3551999413797409660,21);
(-3510197272925242359,21);
(-3468300978927987832,21);
(-3426312048752790367,21);
(-3384232001565296109,21);
(-3342062358695204859,21);
(-3299804643582263802,21);
(-3257460381721701340,21);
(-3215031100609725984,21);
(-3172518329689179208,21);
(-3129923600295167908,21);
(-3087248445600417144,21);
(-3044494400560634161,21);
(-3001663001860180747,21);
(-2958755787857402994,21);
(-2915774298529815334,21);
(-2872720075419841427,21);
(-2829594661579767478,21);
(-2786399601517409834,21);
(-2743136441141296421,21);
(-2699806727705881572,21);
(-2656412009756850198,21);
(-2612953837076816607,21);
(-2569433760629941717,21);
(-2525853332507581577,21);
(-2482214105873634460,21);
(-2438517634909659858,21);
(-2394765474760032157,21);
(-2350959181477550557,21);
(-2307100311968326035,21);
(-2263190423937401670,21);
(-2219231075833899818,21);
(-2175223826796167121,21);
(-2131170236597403067,21);
(-2087071865590822348,21);
(-2042930274654848870,21);
(-1998747025138782486,21);
(-1954523678808036367,21);
(-1910261797789365073,21);
(-1865962944516660286,21);
(-1821628681675996732,21);
(-1777260572151452859,21);
(-1732860178970473770,21);
(-1688429065249311785,21);
(-1643968794138628330,21)].
Definition mid_133 : list (Z * Z) := [
(-1599480928769480507,21);
(-1554967032198334691,21);
(-1510428667353100156,21);
(-1465867396978913105,21);
(-1421284783583796245,21);
(-1376682389384289301,21);
(-1332061776251691450,21);
(-1287424505657525087,21);
(-1242772138619859575,21);
(-1198106235649155568,21);
(-1153428356694151174,21);
(-1108740061088301938,21);
(-1064042907495777813,21);
(-1019338453857582651,21);
(-9746282573379494050,22);
(-9299138742707950675,22);
(-8851968601060221983,22);
(-8404787693558401834,22);
(-7957611555416282696,22);
(-7510455711403962514,22);
(-7063335675313077173,22);
(-6616266949428156524,22);
(-6169265023990716263,22);
(-5722345376672119920,22);
(-5275523472041916467,22);
(-4828814761036936878,22);
(-4382234680436028528,22);
(-3935798652330907074,22);
(-3489522083598248117,22);
(-3043420365374958285,22);
(-2597508872534213392,22);
(-2151802963160355747,22);
(-1706317978024115092,22);
(-1261069240063661466,22);
(-8160720538617621258,23);
(-3713417051239320700,23);
(7310653983705088637,24);
(5172574346236636760,23);
(9610957532670665602,23);
(1404606290744316998,22);
(1847773863497182052,22);
(2290583309940219601,22);
(2733019490974734011,22);
(3175067290506943863,22);
(3616711615950029906,22);
(4057937398737899428,22);
(4498729594834496468,22);
(4939073185237722718,22);
(5378953176486954727,22);
(5818354601169213993,22);
(6257262518419496981,22);
(6695662014424009741,22);
(7133538202925205534,22);
(7570876225713017325,22);
(8007661253129485590,22);
(8443878484566738878,22);
(8879513148957390379,22);
(9314550505269920738,22);
(9748975843007780771,22);
(1018277448269265615,21);
(1061593177635863266,21);
(1104843310804208426,21);
(1148026389426561652,21);
(1191140958452559977,21)].
Definition mid_134 : list (Z * Z) := [
(1234185566177799795,21);
(1277158764291809988,21);
(1320059107926288512,21);
(1362885155703510076,21);
(1405635469783307655,21);
(1448308615911498599,21);
(1490903163466976520,21);
(1533417685509523738,21);
(1575850758826466890,21);
(1618200963979818689,21);
(1660466885353755785,21);
(1702647111200529745,21);
(1744740233687412352,21);
(1786744848943194654,21);
(1828659557104074301,21);
(1870482962359864675,21);
(1912213673000015589,21);
(1953850301459000589,21);
(1995391464361956878,21);
(2036835782570415448,21);
(2078181881226687667,21);
(2119428389799437977,21);
(2160573942128611504,21);
(2201617176469553711,21);
(2242556735537552023,21);
(2283391266552714863,21);
(2324119421283227412,21);
(2364739856089650809,21);
(2405251231968704839,21);
(2445652214596499840,21);
(2485941474371975487,21);
(2526117686460202950,21);
(2566179530834985373,21);
(2606125692321721588,21);
(2645954860640292814,21);
(2685665730446669570,21);
(2725257001375590207,21);
(2764727378082610602,21);
(2804075570285303846,21);
(2843300292805138203,21);
(2882400265608877146,21);
(2921374213849412156,21);
(2960220867906847905,21);
(2998938963429289509,21);
(3037527241373109803,21);
(3075984448043331525,21);
(3114309335133829976,21);
(3152500659766927643,21);
(3190557184533110262,21);
(3228477677530780174,21);
(3266260912404953670,21);
(3303905668386299208,21);
(3341410730330489180,21);
(3378774888756009946,21);
(3415996939882809304,21);
(3453075685670534568,21);
(3490009933856074147,21);
(3526798497991368454,21);
(3563440197480956251,21);
(3599933857618892175,21);
(3636278309625829482,21);
(3672472390685894202,21);
(3708514943982909196,21);
(3744404818736712763,21)].
Definition mid_135 : list (Z * Z) := [
(3780140870239560944,21);
(3815721959891366262,21);
(3851146955235381416,21);
(3886414729994040838,21);
(3921524164103316890,21);
(3956474143747935185,21);
(3991263561396040868,21);
(4025891315833313687,21);
(4060356312197196255,21);
(4094657462010889426,21);
(4128793683216757000,21);
(4162763900209755577,21);
(4196567043870915587,21);
(4230202051599536023,21);
(4263667867346368837,21);
(4296963441646063468,21);
(4330087731648829888,21);
(4363039701152633329,21);
(4395818320634907635,21);
(4428422567283673596,21);
(4460851425028817749,21);
(4493103884573028568,21);
(4525178943422227852,21);
(4557075605915989966,21);
(4588792883257804094,21);
(4620329793544647803,21);
(4651685361796645615,21);
(4682858619986702414,21);
(4713848607068965926,21);
(4744654369008005634,21);
(4775274958807516380,21);
(4805709436538106033,21);
(4835956869365551532,21);
(4866016331578675892,21);
(4895886904616514844,21);
(4925567677095672552,21);
(4955057744837382434,21);
(4984356210893888840,21);
(5013462185575010867,21);
(5042374786474377452,21);
(5071093138495033625,21);
(5099616373875087531,21);
(5127943632213308005,21);
(5156074060493741167,21);
(5184006813110581154,21);
(5211741051893022635,21);
(5239275946128976215,21);
(5266610672589243543,21);
(5293744415551263939,21);
(5320676366822277292,21);
(5347405725762565017,21);
(5373931699308358810,21);
(5400253501994163943,21);
(5426370355975174489,21);
(5452281491049349414,21);
(5477986144678897995,21);
(5503483562011805136,21);
(5528772995903173670,21);
(5553853706935773030,21);
(5578724963440631276,21);
(5603386041517751173,21);
(5627836225055627556,21);
(5652074805751183643,21);
(5676101083129289279,21)].
Definition mid_136 : list (Z * Z) := [
(5699914364561757020,21);
(5723513965286300062,21);
(5746899208425205671,21);
(5770069425003398859,21);
(5793023953966610143,21);
(5815762142199262276,21);
(5838283344541454929,21);
(5860586923806479324,21);
(5882672250797681482,21);
(5904538704324800713,21);
(5926185671220367962,21);
(5947612546355769345,21);
(5968818732656783199,21);
(5989803641119087647,21);
(6010566690823426414,21);
(6031107308950281118,21);
(6051424930794470705,21);
(6071518999779508888,21);
(6091388967471352694,21);
(6111034293592108521,21);
(6130454446033634097,21);
(6149648900870147324,21);
(6168617142371372007,21);
(6187358663014968889,21);
(6205872963498559880,21);
(6224159552751679439,21);
(6242217947947528191,21);
(6260047674514048269,21);
(6277648266145029014,21);
(6295019264810897824,21);
(6312160220768997521,21);
(6329070692573737084,21);
(6345750247086559374,21);
(6362198459485234048,21);
(6378414913273239804,21);
(6394399200288775412,21);
(6410150920713220818,21);
(6425669683079451681,21);
(6440955104280241504,21);
(6456006809575557011,21);
(6470824432600300220,21);
(6485407615371427750,21);
(6499756008294696290,21);
(6513869270171348223,21);
(6527747068204360972,21);
(6541389078004332044,21);
(6554794983595226172,21);
(6567964477419838826,21);
(6580897260344645630,21);
(6593593041664774952,21);
(6606051539108486956,21);
(6618272478841292703,21);
(6630255595469773146,21);
(6642000632045462309,21);
(6653507340067833613,21);
(6664775479487444060,21);
(6675804818708704590,21);
(6686595134592149964,21);
(6697146212456646201,21);
(6707457846081225049,21);
(6717529837706530740,21);
(6727361998036060324,21);
(6736954146237270416,21);
(6746306109941899859,21)].
Definition mid_137 : list (Z * Z) := [
(6755417725246546518,21);
(6764288836712718453,21);
(6772919297366427130,21);
(6781308968697770216,21);
(6789457720660085904,21);
(6797365431668761157,21);
(6805031988599864745,21);
(6812457286788422932,21);
(6819641230026336071,21);
(6826583730560172904,21);
(6833284709088562406,21);
(6839744094759197916,21);
(6845961825165754536,21);
(6851937846344421414,21);
(6857672112770065408,21);
(6863164587352167494,21);
(6868415241430599581,21);
(6873424054770853157,21);
(6878191015559132621,21);
(6882716120397189274,21);
(6886999374296765876,21);
(6891040790673802659,21);
(6894840391342384016,21);
(6898398206508320890,21);
(6901714274762464282,21);
(6904788643073838349,21);
(6907621366782335480,21);
(6910212509591190204,21);
(6912562143559207624,21);
(6914670349092657056,21);
(6916537214936804845,21);
(6918162838167385593,21);
(6919547324181552113,21);
(6920690786688650162,21);
(6921593347700764204,21);
(6922255137522799993,21);
(6922676294742526396,21);
(6922856966220088983,21);
(6922797307077469854,21);
(6922497480687494695,21);
(6921957658662647277,21);
(6921178020843555233,21);
(6920158755287243377,21);
(6918900058255136355,21);
(6917402134200631957,21);
(6915665195756572070,21);
(6913689463722363232,21);
(6911475167050803135,21);
(6909022542834677288,21);
(6906331836293051231,21);
(6903403300757206262,21);
(6900237197656595121,21);
(6896833796504112449,21);
(6893193374881395608,21);
(6889316218423775090,21);
(6885202620804891857,21);
(6880852883721138603,21);
(6876267316875729792,21);
(6871446237962625103,21);
(6866389972650062574,21);
(6861098854563938212,21);
(6855573225270810041,21);
(6849813434260680969,21);
(6843819838929652427,21)].
Definition mid_138 : list (Z * Z) := [
(6837592804562022883,21);
(6831132704312368152,21);
(6824439919187302514,21);
(6817514838026905895,21);
(6810357857486005334,21);
(6802969382015039250,21);
(6795349823840840173,21);
(6787499602947032369,21);
(6779419147054295026,21);
(6771108891600118897,21);
(6762569279718645340,21);
(6753800762220058679,21);
(6744803797569659358,21);
(6735578851866829558,21);
(6726126398823781098,21);
(6716446919743777715,21);
(6706540903499473572,21);
(6696408846510721810,21);
(6686051252722231310,21);
(6675468633581092479,21);
(6664661508013801708,21);
(6653630402403252868,21);
(6642375850565436501,21);
(6630898393725916974,21);
(6619198580495818697,21);
(6607276966848027455,21);
(6595134116092807135,21);
(6582770598853190068,21);
(6570186993040347430,21);
(6557383883828532024,21);
(6544361863629765200,21);
(6531121532068494273,21);
(6517663495955828418,21);
(6503988369263496126,21);
(6490096773097868595,21);
(6475989335673465290,21);
(6461666692286146402,21);
(6447129485286573307,21);
(6432378364052904023,21);
(6417413984963501669,21);
(6402237011369443440,21);
(6386848113566725993,21);
(6371247968768246200,21);
(6355437261075630104,21);
(6339416681450814675,21);
(6323186927687332072,21);
(6306748704381460319,21);
(6290102722903216127,21);
(6273249701366842915,21);
(6256190364601539947,21);
(6238925444121603409,21);
(6221455678096378394,21);
(6203781811320301098,21);
(6185904595182402377,21);
(6167824787635738451,21);
(6149543153166621250,21);
(6131060462763654462,21);
(6112377493886431319,21);
(6093495030434251461,21);
(6074413862714446617,21);
(6055134787410531086,21);
(6035658607550299301,21);
(6015986132473565180,21);
(5996118177799611773,21)].
Definition mid_139 : list (Z * Z) := [
(5976055565394830862,21);
(5955799123339871638,21);
(5935349685896335742,21);
(5914708093474063851,21);
(5893875192597413520,21);
(5872851835871784228,21);
(5851638881949887405,21);
(5830237195497769281,21);
(5808647647160703614,21);
(5786871113528757431,21);
(5764908477102479931,21);
(5742760626258068372,21);
(5720428455212475845,21);
(5697912863988505161,21);
(5675214758379520247,21);
(5652335049913827063,21);
(5629274655819525505,21);
(5606034498988434964,21);
(5582615507940102278,21);
(5559018616786007456,21);
(5535244765193075497,21);
(5511294898347202965,21);
(5487169966916853082,21);
(5462870927016082699,21);
(5438398740167652533,21);
(5413754373265985617,21);
(5388938798539878554,21);
(5363952993514991587,21);
(5338797940976386380,21);
(5313474628930733336,21);
(5287984050568284716,21);
(5262327204225020379,21);
(5236505093344458704,21);
(5210518726438943642,21);
(5184369117051558853,21);
(5158057283717254297,21);
(5131584249923997962,21);
(5104951044073938009,21);
(5078158699444293434,21);
(5051208254147947219,21);
(5024100751094270206,21);
(4996837237949561597,21);
(4969418767097050563,21);
(4941846395597707976,21);
(4914121185149825620,21);
(4886244202048923256,21);
(4858216517147876876,21);
(4830039205816460610,21);
(4801713347900548635,21);
(4773240027681999696,21);
(4744620333837661248,21);
(4715855359398496774,21);
(4686946201708766004,21);
(4657893962384831305,21);
(4628699747273872997,21);
(4599364666412680998,21);
(4569889833986226155,21);
(4540276368285730245,21);
(4510525391667553896,21);
(4480638030510998571,21);
(4450615415176297635,21);
(4420458679962983861,21);
(4390168963067502331,21);
(4359747406540913535,21)].
Definition mid_140 : list (Z * Z) := [
(4329195156246743934,21);
(4298513361818440993,21);
(4267703176616687716,21);
(4236765757686999923,21);
(4205702265716817004,21);
(4174513864992584859,21);
(4143201723356988025,21);
(4111767012165847002,21);
(4080210906244747561,21);
(4048534583846148845,21);
(4016739226606062980,21);
(3984826019500159640,21);
(3952796150800858520,21);
(3920650812033510228,21);
(3888391197932561990,21);
(3856018506398098053,21);
(3823533938451900444,21);
(3790938698193385692,21);
(3758233992755888059,21);
(3725421032262469633,21);
(3692501029781640638,21);
(3659475201283434505,21);
(3626344765595013262,21);
(3593110944356045673,21);
(3559774961974752384,21);
(3526338045583284498,21);
(3492801424992763443,21);
(3459166332649254126,21);
(3425434003588802637,21);
(3391605675392603183,21);
(3357682588142465140,21);
(3323665984375805214,21);
(3289557109040659125,21);
(3255357209450969978,21);
(3221067535241439045,21);
(3186689338322209585,21);
(3152223872834365986,21);
(3117672395104289281,21);
(3083036163598390413,21);
(3048316438878282807,21);
(3013514483555253254,21);
(2978631562244791336,21);
(2943668941521508740,21);
(2908627889873591481,21);
(2873509677657236534,21);
(2838315577051415874,21);
(2803046862012236774,21);
(2767704808227306433,21);
(2732290693070368523,21);
(2696805795555646135,21);
(2661251396291865103,21);
(2625628777437285198,21);
(2589939222653528730,21);
(2554184017059778645,21);
(2518364447187545607,21);
(2482481800934628873,21);
(2446537367519292707,21);
(2410532437434731619,21);
(2374468302403188666,21);
(2338346255330031251,21);
(2302167590258195982,21);
(2265933602322244955,21);
(2229645587702456296,21);
(2193304843579210479,21)].
Definition mid_141 : list (Z * Z) := [
(2156912668087114255,21);
(2120470360268848775,21);
(2083979220029832588,21);
(2047440548092295705,21);
(2010855645948924318,21);
(1974225815817752788,21);
(1937552360595998311,21);
(1900836583814144746,21);
(1864079789590423900,21);
(1827283282584888074,21);
(1790448367953500174,21);
(1753576351302636900,21);
(1716668538643245211,21);
(1679726236344770019,21);
(1642750751090128790,21);
(1605743389829516077,21);
(1568705459734606169,21);
(1531638268153382625,21);
(1494543122564397954,21);
(1457421330530673988,21);
(1420274199654805941,21);
(1383103037533093931,21);
(1345909151709942953,21);
(1308693849632633225,21);
(1271458438605769592,21);
(1234204225745722493,21);
(1196932517935541621,21);
(1159644621779514851,21);
(1122341843557540884,21);
(1085025489180590878,21);
(1047696864144956634,21);
(1010357273487016375,21);
(9730080217386040051,22);
(9356504128816294950,22);
(8982857503029848586,22);
(8609153367498366405,22);
(8235404742845856647,22);
(7861624642398756801,22);
(7487826071740569375,22);
(7114022028263114949,22);
(6740225500718343603,22);
(6366449468774720583,22);
(5992706902570754017,22);
(5619010762266812842,22);
(5245373997605741944,22);
(4871809547468279643,22);
(4498330339424663651,22);
(4124949289299474067,22);
(3751679300726488693,22);
(3378533264706862519,22);
(3005524059171712321,22);
(2632664548541371126,22);
(2259967583285409760,22);
(1887445999487515882,22);
(1515112618407108498,22);
(1142980246041755041,22);
(7710616726944776725,23);
(3993696725382956747,23);
(2791700317938687076,24);
(-3432835947708023786,23);
(-7142193981283992941,23);
(-1084877701573526122,22);
(-1455245818073255273,22);
(-1825311079314393032,22)].
Definition mid_142 : list (Z * Z) := [
(-2195060836132626983,22);
(-2564482458937150525,22);
(-2933563338138312740,22);
(-3302290884574314556,22);
(-3670652529932863376,22);
(-4038635727175385608,22);
(-4406227950962912122,22);
(-4773416698070177345,22);
(-5140189487811164812,22);
(-5506533862459150408,22);
(-5872437387659844646,22);
(-6237887652851423432,22);
(-6602872271681299718,22);
(-6967378882418101896,22);
(-7331395148366647843,22);
(-7694908758281665626,22);
(-8057907426776331726,22);
(-8420378894733750695,22);
(-8782310929717124020,22);
(-9143691326374758181,22);
(-9504507906847409161,22);
(-9864748521176999567,22);
(-1022440104770359166,21);
(-1058345339347336938,21);
(-1094189349464083291,21);
(-1129970931686433621,21);
(-1165688885570777744,21);
(-1201342013703910611,21);
(-1236929121742405546,21);
(-1272449018452201722,21);
(-1307900515748111831,21);
(-1343282428732765982,21);
(-1378593575735820786,21);
(-1413832778353032917,21);
(-1448998861484787756,21);
(-1484090653374855280,21);
(-1519106985649195177,21);
(-1554046693353863806,21);
(-1588908614993314291,21);
(-1623691592568998667,21);
(-1658394471616608931,21);
(-1693016101244206473,21);
(-1727555334169925648,21);
(-1762011026759215462,21);
(-1796382039062291176,21);
(-1830667234851415890,21);
(-1864865481657696205,21);
(-1898975650808049824,21);
(-1932996617462059107,21);
(-1966927260648223749,21);
(-2000766463300492765,21);
(-2034513112294727716,21);
(-2068166098484336760,21);
(-2101724316736266682,21);
(-2135186665967208318,21);
(-2168552049178547325,21);
(-2201819373492050046,21);
(-2234987550185233221,21);
(-2268055494726151262,21);
(-2301022126808427697,21);
(-2333886370386117903,21);
(-2366647153708011098,21);
(-2399303409352086715,21);
(-2431854074260057091,21)].
Definition mid_143 : list (Z * Z) := [
(-2464298089770759585,21);
(-2496634401654481122,21);
(-2528861960146735859,21);
(-2560979719981296490,21);
(-2592986640423843546,21);
(-2624881685305131569,21);
(-2656663823053748933,21);
(-2688332026728997796,21);
(-2719885274053602739,21);
(-2751322547445894662,21);
(-2782642834052133449,21);
(-2813845125778674950,21);
(-2844928419323599321,21);
(-2875891716208407896,21);
(-2906734022809816763,21);
(-2937454350390457467,21);
(-2968051715130382625,21);
(-2998525138158034207,21);
(-3028873645580577780,21);
(-3059096268514592369,21);
(-3089192043116541740,21);
(-3119160010612622488,21);
(-3148999217328782557,21);
(-3178708714720588410,21);
(-3208287559402498920,21);
(-3237734813177313604,21);
(-3267049543065380160,21);
(-3296230821333318017,21);
(-3325277725522801740,21);
(-3354189338479314931,21);
(-3382964748380078417,21);
(-3411603048762216952,21);
(-3440103338551093754,21);
(-3468464722087412095,21);
(-3496686309155019445,21);
(-3524767215008211586,21);
(-3552706560398617795,21);
(-3580503471602136754,21);
(-3608157080445719388,21);
(-3635666524333564052,21);
(-3663030946273410169,21);
(-3690249494902831870,21);
(-3717321324514494697,21);
(-3744245595082114440,21);
(-3771021472285898159,21);
(-3797648127537381953,21);
(-3824124738004386695,21);
(-3850450486636161976,21);
(-3876624562187337870,21);
(-3902646159242463032,21);
(-3928514478240129927,21);
(-3954228725496631257,21);
(-3979788113229631996,21);
(-4005191859581700049,21);
(-4030439188643260111,21);
(-4055529330475606507,21);
(-4080461521133898692,21);
(-4105235002689133252,21);
(-4129849023250808937,21);
(-4154302836989020968,21);
(-4178595704155966400,21);
(-4202726891107741794,21);
(-4226695670325770517,21);
(-4250501320437746929,21)].
Definition mid_144 : list (Z * Z) := [
(-4274143126238696792,21);
(-4297620378711653442,21);
(-4320932375048024306,21);
(-4344078418667846400,21);
(-4367057819239882240,21);
(-4389869892701200524,21);
(-4412513961276767240,21);
(-4434989353498958696,21);
(-4457295404226265315,21);
(-4479431454662189706,21);
(-4501396852374239289,21);
(-4523190951311749711,21);
(-4544813111824354442,21);
(-4566262700679619979,21);
(-4587539091081086970,21);
(-4608641662685280908,21);
(-4629569801619067178,21);
(-4650322900496665218,21);
(-4670900358436223809,21);
(-4691301581076315688,21);
(-4711525980592279512,21);
(-4731572975712047477,21);
(-4751441991731960787,21);
(-4771132460532455898,21);
(-4790643820592951040,21);
(-4809975517007172505,21);
(-4829127001498005611,21);
(-4848097732431760204,21);
(-4866887174832646053,21);
(-4885494800396903044,21);
(-4903920087506456922,21);
(-4922162521242615801,21);
(-4940221593399417993,21);
(-4958096802496630290,21);
(-4975787653792668186,21);
(-4993293659297261093,21);
(-5010614337783663927,21);
(-5027749214800854814,21);
(-5044697822685554126,21);
(-5061459700573622475,21);
(-5078034394411443976,21);
(-5094421456967394499,21);
(-5110620447842356695,21);
(-5126630933480539470,21);
(-5142452487179944437,21);
(-5158084689102357054,21);
(-5173527126283364655,21);
(-5188779392642089115,21);
(-5203841088990434662,21);
(-5218711823042343489,21);
(-5233391209422821530,21);
(-5247878869676429921,21);
(-5262174432275815508,21);
(-5276277532629995888,21);
(-5290187813092073719,21);
(-5303904922967010022,21);
(-5317428518519276039,21);
(-5330758262979719275,21);
(-5343893826552669792,21);
(-5356834886422721237,21);
(-5369581126761001875,21);
(-5382132238731496786,21);
(-5394487920496994493,21);
(-5406647877224744769,21)].
Definition mid_145 : list (Z * Z) := [
(-5418611821091919543,21);
(-5430379471290961921,21);
(-5441950554034281212,21);
(-5453324802559210774,21);
(-5464501957132409000,21);
(-5475481765054007917,21);
(-5486263980661622124,21);
(-5496848365334134831,21);
(-5507234687495087509,21);
(-5517422722615908208,21);
(-5527412253218988089,21);
(-5537203068880280910,21);
(-5546794966231876484,21);
(-5556187748964224599,21);
(-5565381227828090915,21);
(-5574375220636283886,21);
(-5583169552265267177,21);
(-5591764054656234335,21);
(-5600158566816201659,21);
(-5608352934818810510,21);
(-5616347011804708085,21);
(-5624140657981880481,21);
(-5631733740625694332,21);
(-5639126134078593228,21);
(-5646317719749614598,21);
(-5653308386113765210,21);
(-5660098028710944772,21);
(-5666686550144724686,21);
(-5673073860081010583,21);
(-5679259875246167946,21);
(-5685244519425159022,21);
(-5691027723459396968,21);
(-5696609425244184531,21);
(-5701989569726047778,21);
(-5707168108899937121,21);
(-5712145001805884505,21);
(-5716920214525669265,21);
(-5721493720179172612,21);
(-5725865498920420724,21);
(-5730035537933482991,21);
(-5734003831428073628,21);
(-5737770380634884398,21);
(-5741335193800762952,21);
(-5744698286183617074,21);
(-5747859680046954640,21);
(-5750819404654401029,21);
(-5753577496263847027,21);
(-5756133998121295767,21);
(-5758488960454629865,21);
(-5760642440467061108,21);
(-5762594502330276557,21);
(-5764345217177457154,21);
(-5765894663096021375,21);
(-5767242925120047957,21);
(-5768390095222626635,21);
(-5769336272307825503,21);
(-5770081562202492714,21);
(-5770626077647791896,21);
(-5770969938290536339,21);
(-5771113270674273384,21);
(-5771056208230092993,21);
(-5770798891267278456,21);
(-5770341466963654388,21);
(-5769684089355788144,21)].
Definition mid_146 : list (Z * Z) := [
(-5768826919328847759,21);
(-5767770124606282946,21);
(-5766513879739304863,21);
(-5765058366096107410,21);
(-5763403771850841330,21);
(-5761550291972360183,21);
(-5759498128212799800,21);
(-5757247489095821194,21);
(-5754798589904737242,21);
(-5752151652670304573,21);
(-5749306906158418301,21);
(-5746264585857417326,21);
(-5743024933965339314,21);
(-5739588199376801855,21);
(-5735954637669731827,21);
(-5732124511091887462,21);
(-5728098088547114129,21);
(-5723875645581376348,21);
(-5719457464368605908,21);
(-5714843833696320145,21);
(-5710035048950971338,21);
(-5705031412103126094,21);
(-5699833231692421828,21);
(-5694440822812321147,21);
(-5688854507094511480,21);
(-5683074612693328996,21);
(-5677101474269804354,21);
(-5670935432975417884,21);
(-5664576836435869511,21);
(-5658026038734486132,21);
(-5651283400395358363,21);
(-5644349288366428720,21);
(-5637224076002280565,21);
(-5629908143046623466,21);
(-5622401875614797644,21);
(-5614705666175856882,21);
(-5606819913534460617,21);
(-5598745022812777299,21);
(-5590481405431858668,21);
(-5582029479093036581,21);
(-5573389667759065698,21);
(-5564562401635037188,21);
(-5555548117148957632,21);
(-5546347256932469307,21);
(-5536960269801018825,21);
(-5527387610733961593,21);
(-5517629740854538764,21);
(-5507687127409508984,21);
(-5497560243748650897,21);
(-5487249569304123407,21);
(-5476755589569555320,21);
(-5466078796078850492,21);
(-5455219686385071043,21);
(-5444178764038858261,21);
(-5432956538566696518,21);
(-5421553525449183258,21);
(-5409970246098881781,21);
(-5398207227838059535,21);
(-5386265003876284166,21);
(-5374144113287762821,21);
(-5361845100988515793,21);
(-5349368517713386229,21);
(-5336714919992844273,21);
(-5323884870129526672,21)].
Definition mid_147 : list (Z * Z) := [
(-5310878936174783307,21);
(-5297697691904897609,21);
(-5284341716797013797,21);
(-5270811596005200300,21);
(-5257107920336114189,21);
(-5243231286224355955,21);
(-5229182295708024661,21);
(-5214961556403790825,21);
(-5200569681481813193,21);
(-5186007289640676317,21);
(-5171275005081935223,21);
(-5156373457484576817,21);
(-5141303281979350305,21);
(-5126065119122860843,21);
(-5110659614871465410,21);
(-5095087420555121857,21);
(-5079349192850967330,21);
(-5063445593756649502,21);
(-5047377290563756676,21);
(-5031144955830874933,21);
(-5014749267356379860,21);
(-4998190908151411288,21);
(-4981470566412372729,21);
(-4964588935493342327,21);
(-4947546713878460400,21);
(-4930344605154042027,21);
(-4912983317980409471,21);
(-4895463566063884206,21);
(-4877786068128373009,21);
(-4859951547886717273,21);
(-4841960734012339812,21);
(-4823814360110226414,21);
(-4805513164687893503,21);
(-4787057891126509333,21);
(-4768449287651493028,21);
(-4749688107303068514,21);
(-4730775107906834941,21);
(-4711711052043954587,21);
(-4692496707021306945,21);
(-4673132844841568212,21);
(-4653620242173053985,21);
(-4633959680319325175,21);
(-4614151945188955245,21);
(-4594197827264898462,21);
(-4574098121573604014,21);
(-4553853627654556868,21);
(-4533465149529050144,21);
(-4512933495668993052,21);
(-4492259478965969499,21);
(-4471443916699681734,21);
(-4450487630506389652,21);
(-4429391446347472408,21);
(-4408156194477506028,21);
(-4386782709412401747,21);
(-4365271829897467148,21);
(-4343624398875207092,21);
(-4321841263453010153,21);
(-4299923274870868888,21);
(-4277871288468871117,21);
(-4255686163654327780,21);
(-4233368763869363970,21);
(-4210919956557983464,21);
(-4188340613132744694,21);
(-4165631608942124524,21)].
Definition mid_148 : list (Z * Z) := [
(-4142793823237044155,21);
(-4119828139137546828,21);
(-4096735443599462505,21);
(-4073516627380817552,21);
(-4050172585008088300,21);
(-4026704214742578627,21);
(-4003112418546494848,21);
(-3979398102048788133,21);
(-3955562174511448835,21);
(-3931605548795043606,21);
(-3907529141324321900,21);
(-3883333872054159450,21);
(-3859020664434970483,21);
(-3834590445377801179,21);
(-3810044145220108352,21);
(-3785382697690729305,21);
(-3760607039874977464,21);
(-3735718112179840789,21);
(-3710716858298840175,21);
(-3685604225176778142,21);
(-3660381162974708259,21);
(-3635048625034529874,21);
(-3609607567843351687,21);
(-3584058950998464648,21);
(-3558403737171414102,21);
(-3532642892072276625,21);
(-3506777384414233069,21);
(-3480808185877566976,21);
(-3454736271073653459,21);
(-3428562617509220856,21);
(-3402288205550159199,21);
(-3375914018385334312,21);
(-3349441041990512940,21);
(-3322870265092074931,21);
(-3296202679130518995,21);
(-3269439278224235603,21);
(-3242581059132984556,21);
(-3215629021221136623,21);
(-3188584166421351042,21);
(-3161447499197880904,21);
(-3134220026509443140,21);
(-3106902757772898611,21);
(-3079496704826179768,21);
(-3052002881891233491,21);
(-3024422305537325609,21);
(-2996755994643815913,21);
(-2969004970363028125,21);
(-2941170256083290319,21);
(-2913252877391622753,21);
(-2885253862036404882,21);
(-2857174239890283938,21);
(-2829015042912739596,21);
(-2800777305112483843,21);
(-2772462062510372156,21);
(-2744070353101861481,21);
(-2715603216819092655,21);
(-2687061695493841041,21);
(-2658446832819667035,21);
(-2629759674314175420,21);
(-2601001267281559653,21);
(-2572172660774762337,21);
(-2543274905557640474,21);
(-2514309054067365330,21);
(-2485276160376539544,21)].
Definition mid_149 : list (Z * Z) := [
(-2456177280155086122,21);
(-2427013470632891599,21);
(-2397785790561519827,21);
(-2368495300176185099,21);
(-2339143061158176738,21);
(-2309730136596644876,21);
(-2280257590950501585,21);
(-2250726490010642941,21);
(-2221137900861748678,21);
(-2191492891844142987,21);
(-2161792532515914664,21);
(-2132037893614715900,21);
(-2102230047019522895,21);
(-2072370065712753843,21);
(-2042459023742025648,21);
(-2012497996181746279,21);
(-1982488059095505531,21);
(-1952430289497423654,21);
(-1922325765314248942,21);
(-1892175565346879834,21);
(-1861980769232540137,21);
(-1831742457406565234,21);
(-1801461711063749626,21);
(-1771139612120748537,21);
(-1740777243177608685,21);
(-1710375687479514378,21);
(-1679936028878809429,21);
(-1649459351796739130,21);
(-1618946741185152329,21);
(-1588399282488579724,21);
(-1557818061606006631,21);
(-1527204164852439747,21);
(-1496558678921360800,21);
(-1465882690846186413,21);
(-1435177287962096163,21);
(-1404443557868347014,21);
(-1373682588389944824,21);
(-1342895467539549376,21);
(-1312083283479644836,21);
(-1281247124484429173,21);
(-1250388078901738288,21);
(-1219507235115286064,21);
(-1188605681506627954,21);
(-1157684506417155576,21);
(-1126744798110420470,21);
(-1095787644734223234,21);
(-1064814134282495578,21);
(-1033825354558100479,21);
(-1002822393134637259,21);
(-9718063373186457523,22);
(-9407782741123305688,22);
(-9097392901756490378,22);
(-8786904717886333390,22);
(-8476329048140350758,22);
(-8165676746596979303,22);
(-7854958662409396424,22);
(-7544185639433437099,22);
(-7233368515852502210,22);
(-6922518123802773706,22);
(-6611645289002518293,22);
(-6300760830378660015,22);
(-5989875559692127687,22);
(-5679000281170404688,22);
(-5368145791135660620,22)].
Definition mid_150 : list (Z * Z) := [
(-5057322877629800593,22);
(-4746542320050438379,22);
(-4435814888778529344,22);
(-4125151344808724186,22);
(-3814562439383414926,22);
(-3504058913623886071,22);
(-3193651498162206298,22);
(-2883350912777005908,22);
(-2573167866026539988,22);
(-2263113054882466601,22);
(-1953197164367568488,22);
(-1643430867191181418,22);
(-1333824823383446983,22);
(-1024389679936998015,22);
(-7151360704444580248,23);
(-4060746147329469621,23);
(-9721591850978506961,24);
(2114294270000422832,23);
(5198508454134074977,23);
(8280377755448202319,23);
(1135979671764772024,22);
(1443666004357311303,22);
(1751086259873432241,22);
(2058229941486652544,22);
(2365086569349976583,22);
(2671645680943107617,22);
(2977896831429220235,22);
(3283829594007117085,22);
(3589433560257759403,22);
(3894698340496509392,22);
(4199613564122667785,22);
(4504168879965114790,22);
(4808353956630409456,22);
(5112158482849898629,22);
(5415572167822562278,22);
(5718584741560284179,22);
(6021185955232084483,22);
(6323365581504117924,22);
(6625113414881567218,22);
(6926419272051804977,22);
(7227272992217690468,22);
(7527664437440139550,22);
(7827583492975939304,22);
(8127020067609840243,22);
(8425964093992186627,22);
(8724405528973475229,22);
(9022334353935168192,22);
(9319740575122574533,22);
(9616614223976476146,22);
(9912945357460789964,22);
(1020872405839189220,21);
(1050394043576713919,21);
(1079858462508892026,21);
(1109264678869032166,21);
(1138611711606159508,21);
(1167898582416887618,21);
(1197124315777641380,21);
(1226287938977123869,21);
(1255388482147646321,21);
(1284424978297214444,21);
(1313396463341261720,21);
(1342301976133983494,21);
(1371140558499856681,21);
(1399911255265045423,21)].
Definition mid_151 : list (Z * Z) := [
(1428613114288360044,21);
(1457245186492357606,21);
(1485806525894543947,21);
(1514296189637582809,21);
(1542713238020385329,21);
(1571056734528679779,21);
(1599325745865064338,21);
(1627519341979322695,21);
(1655636596098959516,21);
(1683676584758636531,21);
(1711638387830293406,21);
(1739521088552928828,21);
(1767323773561953974,21);
(1795045532918754802,21);
(1822685460140049864,21);
(1850242652226873844,21);
(1877716209693638732,21);
(1905105236597268506,21);
(1932408840565385134,21);
(1959626132825301008,21);
(1986756228232504189,21);
(2013798245298583332,21);
(2040751306219602563,21);
(2067614536904160191,21);
(2094387067001018086,21);
(2121068029926911468,21);
(2147656562894180009,21);
(2174151806937958762,21);
(2200552906943514797,21);
(2226859011673432923,21);
(2253069273794340837,21);
(2279182849903754401,21);
(2305198900556928998,21);
(2331116590292945431,21);
(2356935087661107646,21);
(2382653565247446273,21);
(2408271199700206047,21);
(2433787171755937354,21);
(2459200666265206562,21);
(2484510872217927761,21);
(2509716982768781229,21);
(2534818195262510468,21);
(2559813711258733526,21);
(2584702736556887884,21);
(2609484481221010978,21);
(2634158159604097892,21);
(2658722990372467711,21);
(2683178196530202741,21);
(2707523005442828787,21);
(2731756648861188418,21);
(2755878362945540609,21);
(2779887388288521111,21);
(2803782969938773285,21);
(2827564357424144394,21);
(2851230804774506321,21);
(2874781570544672135,21);
(2898215917837115331,21);
(2921533114324276637,21);
(2944732432270912893,21);
(2967813148556457201,21);
(2990774544696485262,21);
(3013615906864853481,21);
(3036336525915313191,21);
(3058935697402620935,21)].
Definition mid_152 : list (Z * Z) := [
(3081412721603982684,21);
(3103766903540138098,21);
(3125997552996097415,21);
(3148103984541865321,21);
(3170085517553074619,21);
(3191941476231148055,21);
(3213671189623497435,21);
(3235273991643583535,21);
(3256749221090551871,21);
(3278096221668838108,21);
(3299314342007806430,21);
(3320402935680577799,21);
(3341361361223338291,21);
(3362188982154282711,21);
(3382885166991949754,21);
(3403449289273917117,21);
(3423880727575133193,21);
(3444178865525837196,21);
(3464343091829586406,21);
(3484372800281016272,21);
(3504267389783244022,21);
(3524026264365286154,21);
(3543648833199253018,21);
(3563134510617204688,21);
(3582482716127922268,21);
(3601692874433685704,21);
(3620764415446356844,21);
(3639696774303642895,21);
(3658489391385378979,21);
(3677141712328920765,21);
(3695653188044961245,21);
(3714023274732975843,21);
(3732251433896327086,21);
(3750337132357291214,21);
(3768279842272032314,21);
(3786079041145031313,21);
(3803734211843578725,21);
(3821244842612192810,21);
(3838610427086299598,21);
(3855830464306348338,21);
(3872904458731434279,21);
(3889831920252616142,21);
(3906612364206113464,21);
(3923245311386667870,21);
(3939730288060007066,21);
(3956066825975685687,21);
(3972254462379548427,21);
(3988292740025841873,21);
(4004181207189359305,21);
(4019919417677315747,21);
(4035506930840823160,21);
(4050943311586462786,21);
(4066228130387594675,21);
(4081360963295126848,21);
(4096341391948555080,21);
(4111169003586640988,21);
(4125843391057633890,21);
(4140364152829604551,21);
(4154730893000543879,21);
(4168943221308011454,21);
(4183000753138837839,21);
(4196903109538612647,21);
(4210649917220717249,21);
(4224240808575441611,21)].
Definition mid_153 : list (Z * Z) := [
(4237675421678794088,21);
(4250953400301008510,21);
(4264074393914951515,21);
(4277038057704423205,21);
(4289844052571995490,21);
(4302492045146744624,21);
(4314981707792066995,21);
(4327312718612767208,21);
(4339484761462323106,21);
(4351497525949929619,21);
(4363350707447043869,21);
(4375044007094105493,21);
(4386577131806783381,21);
(4397949794282120933,21);
(4409161713004424582,21);
(4420212612251062968,21);
(4431102222097900098,21);
(4441830278424586248,21);
(4452396522919782954,21);
(4462800703085907476,21);
(4473042572243796609,21);
(4483121889537429461,21);
(4493038419937902574,21);
(4502791934247656579,21);
(4512382209104331618,21);
(4521809026984370365,21);
(4531072176206488340,21);
(4540171450934924781,21);
(4549106651182468868,21);
(4557877582813230077,21);
(4566484057545462313,21);
(4574925892953676798,21);
(4583202912471058543,21);
(4591314945391482098,21);
(4599261826871218518,21);
(4607043397930500953,21);
(4614659505455063343,21);
(4622110002197181260,21);
(4629394746776697989,21);
(4636513603681825975,21);
(4643466443269638616,21);
(4650253141766504811,21);
(4656873581268203451,21);
(4663327649739880919,21);
(4669615241015780474,21);
(4675736254798893571,21);
(4681690596660054333,21);
(4687478178037338475,21);
(4693098916234863735,21);
(4698552734421495777,21);
(4703839561629405766,21);
(4708959332752409369,21);
(4713911988544038610,21);
(4718697475615455869,21);
(4723315746433216084,21);
(4727766759316703697,21);
(4732050478435455114,21);
(4736166873806320690,21);
(4740115921290258966,21);
(4743897602589097068,21);
(4747511905242071673,21);
(4750958822622026491,21);
(4754238353931534294,21);
(4757350504198843734,21)].
Definition mid_154 : list (Z * Z) := [
(4760295284273534724,21);
(4763072710821988215,21);
(4765682806322732792,21);
(4768125599061496384,21);
(4770401123126112239,21);
(4772509418401224557,21);
(4774450530562803288,21);
(4776224511072367507,21);
(4777831417171191433,21);
(4779271311874143564,21);
(4780544263963396566,21);
(4781650347981974969,21);
(4782589644227001890,21);
(4783362238742911929,21);
(4783968223314291092,21);
(4784407695458635194,21);
(4784680758418889679,21);
(4784787521155786476,21);
(4784728098339967491,21);
(4784502610343958039,21);
(4784111183233913898,21);
(4783553948761199229,21);
(4782831044353722492,21);
(4781942613107168297,21);
(4780888803775931728,21);
(4779669770763955543,21);
(4778285674115347915,21);
(4776736679504747785,21);
(4775022958227586982,21);
(4773144687190138125,21);
(4771102048899315308,21);
(4768895231452421890,21);
(4766524428526530514,21);
(4763989839367813693,21);
(4761291668780665357,21);
(4758430127116572601,21);
(4755405430262867744,21);
(4752217799631248789,21);
(4748867462146190606,21);
(4745354650233048199,21);
(4741679601806093186,21);
(4737842560256323027,21);
(4733843774439056018,21);
(4729683498661394446,21);
(4725361992669504727,21);
(4720879521635661623,21);
(4716236356145177104,21);
(4711432772183105425,21);
(4706469051120798150,21);
(4701345479702258821,21);
(4696062350030363181,21);
(4690619959552788827,21);
(4685018611047945744,21);
(4679258612610599777,21);
(4673340277637261925,21);
(4667263924811666104,21);
(4661029878089801952,21);
(4654638466684837481,21);
(4648090025051992286,21);
(4641384892873112386,21);
(4634523415041101081,21);
(4627505941644230111,21);
(4620332827950229641,21);
(4613004434390162271,21)].
Definition mid_155 : list (Z * Z) := [
(4605521126542302252,21);
(4597883275115636527,21);
(4590091255933311139,21);
(4582145449915960532,21);
(4574046243064703796,21);
(4565794026444139168,21);
(4557389196165105225,21);
(4548832153367305883,21);
(4540123304201661332,21);
(4531263059812683236,21);
(4522251836320559382,21);
(4513090054803079593,21);
(4503778141277483583,21);
(4494316526682071156,21);
(4484705646857625912,21);
(4474945942528844173,21);
(4465037859285438636,21);
(4454981847563084171,21);
(4444778362624400916,21);
(4434427864539561802,21);
(4423930818166788188,21);
(4413287693132868922,21);
(4402498963813366271,21);
(4391565109312529566,21);
(4380486613443475979,21);
(4369263964707845692,21);
(4357897656275384196,21);
(4346388185963572307,21);
(4334736056216855447,21);
(4322941774085857329,21);
(4311005851206450509,21);
(4298928803778674299,21);
(4286711152545371641,21);
(4274353422770974312,21);
(4261856144219899542,21);
(4249219851134773164,21);
(4236445082214794142,21);
(4223532380593727868,21);
(4210482293817702573,21);
(4197295373823123690,21);
(4183972176914277710,21);
(4170513263740736540,21);
(4156919199274843393,21);
(4143190552788877760,21);
(4129327897832121494,21);
(4115331812207879796,21);
(4101202877950318321,21);
(4086941681300994104,21);
(4072548812685718687,21);
(4058024866690759444,21);
(4043370442039175353,21);
(4028586141567082508,21);
(4013672572199714940,21);
(3998630344927217410,21);
(3983460074780616894,21);
(3968162380807431500,21);
(3952737886047156222,21);
(3937187217506841509,21);
(3921511006136331814,21);
(3905709886803421325,21);
(3889784498269030499,21);
(3873735483162124571,21);
(3857563487954449033,21);
(3841269162935409976,21)].
Definition mid_156 : list (Z * Z) := [
(3824853162186731513,21);
(3808316143556624445,21);
(3791658768634564251,21);
(3774881702725334850,21);
(3757985614823200309,21);
(3740971177586059192,21);
(3723839067309297080,21);
(3706589963899609153,21);
(3689224550848805868,21);
(3671743515207359729,21);
(3654147547557918662,21);
(3636437341988761271,21);
(3618613596067114194,21);
(3600677010812189296,21);
(3582628290668520964,21);
(3564468143478903995,21);
(3546197280457082969,21);
(3527816416160854066,21);
(3509326268464615234,21);
(3490727558531959724,21);
(3472021010788268764,21);
(3453207352893112106,21);
(3434287315712483343,21);
(3415261633291183548,21);
(3396131042824906097,21);
(3376896284632138930,21);
(3357558102126441055,21);
(3338117241788100212,21);
(3318574453135853409,21);
(3298930488698833836,21);
(3279186103988065894,21);
(3259342057467902540,21);
(3239399110527660820,21);
(3219358027452897016,21);
(3199219575396654910,21);
(3178984524350792536,21);
(3158653647117045261,21);
(3138227719278043320,21);
(3117707519168386610,21);
(3097093827845529956,21);
(3076387429060422479,21);
(3055589109228624457,21);
(3034699657400736789,21);
(3013719865232946261,21);
(2992650526957824943,21);
(2971492439354675094,21);
(2950246401719819854,21);
(2928913215837176693,21);
(2907493685948391113,21);
(2885988618722985528,21);
(2864398823228692017,21);
(2842725110901413860,21);
(2820968295515210045,21);
(2799129193152381703,21);
(2777208622173344722,21);
(2755207403186302022,21);
(2733126359017294411,21);
(2710966314679887166,21);
(2688728097344569943,21);
(2666412536308747794,21);
(2644020462966144118,21);
(2621552710776254777,21);
(2599010115233981767,21);
(2576393513838965907,21)].
Definition mid_157 : list (Z * Z) := [
(2553703746064897410,21);
(2530941653328996465,21);
(2508108078961208878,21);
(2485203868173368330,21);
(2462229868028545116,21);
(2439186927410158957,21);
(2416075896990872805,21);
(2392897629201985385,21);
(2369652978202388318,21);
(2346342799847234845,21);
(2322967951657346677,21);
(2299529292787887494,21);
(2276027683997213814,21);
(2252463987615875487,21);
(2228839067515365081,21);
(2205153789076810898,21);
(2181409019159898099,21);
(2157605626071547843,21);
(2133744479534392148,21);
(2109826450655884981,21);
(2085852411896614491,21);
(2061823237038882400,21);
(2037739801155580462,21);
(2013602980578607649,21);
(1989413652867336787,21);
(1965172696777325780,21);
(1940880992228753666,21);
(1916539420274824797,21);
(1892148863070418265,21);
(1867710203840475388,21);
(1843224326848352281,21);
(1818692117364423310,21);
(1794114461634471833,21);
(1769492246847830050,21);
(1744826361106280831,21);
(1720117693392081773,21);
(1695367133536294360,21);
(1670575572187476751,21);
(1645743900779866138,21);
(1620873011501667562,21);
(1595963797263604900,21);
(1571017151667191249,21);
(1546033968972988044,21);
(1521015144069164928,21);
(1495961572439740870,21);
(1470874150132881874,21);
(1445753773729432012,21);
(1420601340311212438,21);
(1395417747429216100,21);
(1370203893072276463,21);
(1344960675635436999,21);
(1319688993887953559,21);
(1294389746942198587,21);
(1269063834221833068,21);
(1243712155430169502,21);
(1218335610518807895,21);
(1192935099655980085,21);
(1167511523194946117,21);
(1142065781642656467,21);
(1116598775628199151,21);
(1091111405871064265,21);
(1065604573150193265,21);
(1040079178272161099,21);
(1014536122039705508,21)].
Definition mid_158 : list (Z * Z) := [
(9889763052206375273,22);
(9634006285164089470,22);
(9378099925303987495,22);
(9122052977370962877,22);
(8865874444505453646,22);
(8609573327930381123,22);
(8353158626640458774,22);
(8096639337089449762,22);
(7840024452877271616,22);
(7583322964440632153,22);
(7326543858741269314,22);
(7069696118952726238,22);
(6812788724154956446,22);
(6555830649020618619,22);
(6298830863504853829,22);
(6041798332539347538,22);
(5784742015721440044,22);
(5527670867004985753,22);
(5270593834394299163,22);
(5013519859635497686,22);
(4756457877908557876,22);
(4499416817522415004,22);
(4242405599607809675,22);
(3985433137810593589,22);
(3728508337988328575,22);
(3471640097904833233,22);
(3214837306923774927,22);
(2958108845708255254,22);
(2701463585916985153,22);
(2444910389897813480,22);
(2188458110390504360,22);
(1932115590222649383,22);
(1675891662007986452,22);
(1419795147847756291,22);
(1163834859029883235,22);
(9080195957287256353,23);
(6523581467082280761,23);
(3968592890228980112,23);
(1415317877194101341,23);
(-1136156044583797919,23);
(-3685741473662481363,23);
(-6233351137572971283,23);
(-8778897895734495064,23);
(-1132229474240262706,22);
(-1386345480964154499,22);
(-1640229137020295059,22);
(-1893871784047209631,22);
(-2147264778338800115,22);
(-2400399491133198347,22);
(-2653267308903651308,22);
(-2905859633648651455,22);
(-3158167883178597340,22);
(-3410183491404079979,22);
(-3661897908625303039,22);
(-3913302601813334097,22);
(-4164389054899176245,22);
(-4415148769058907844,22);
(-4665573262994130929,22);
(-4915654073217061090,22);
(-5165382754333231559,22);
(-5414750879321004323,22);
(-5663750039812890779,22);
(-5912371846376073860,22);
(-6160607928789350136,22)].
Definition mid_159 : list (Z * Z) := [
(-6408449936321838078,22);
(-6655889538010888347,22);
(-6902918422936414047,22);
(-7149528300496597920,22);
(-7395710900684641454,22);
(-7641457974357330433,22);
(-7886761293511002340,22);
(-8131612651553743985,22);
(-8376003863572644087,22);
(-8619926766605366403,22);
(-8863373219909643358,22);
(-9106335105228922921,22);
(-9348804327060132938,22);
(-9590772812920184522,22);
(-9832232513608961562,22);
(-1007317540347393760,21);
(-1031359348067371288,21);
(-1055347876743798321,21);
(-1079282331032872973,21);
(-1103161918050193230,21);
(-1126985847396292945,21);
(-1150753331182444985,21);
(-1174463584056664733,21);
(-1198115823228773158,21);
(-1221709268496098044,21);
(-1245243142268706409,21);
(-1268716669594726698,21);
(-1292129078185285437,21);
(-1315479598439576363,21);
(-1338767463469831996,21);
(-1361991909125918757,21);
(-1385152174020064155,21);
(-1408247499551500484,21);
(-1431277129930693922,21);
(-1454240312203730623,21);
(-1477136296276721460,21);
(-1499964334939427003,21);
(-1522723683889551892,21);
(-1545413601756638697,21);
(-1568033350125479317,21);
(-1590582193559895432,21);
(-1613059399626286944,21);
(-1635464238916811133,21);
(-1657795985072696692,21);
(-1680053914807436762,21);
(-1702237307929605750,21);
(-1724345447365808852,21);
(-1746377619183488899,21);
(-1768333112613376928,21);
(-1790211220072026894,21);
(-1812011237184359483,21);
(-1833732462805593788,21);
(-1855374199043387804,21);
(-1876935751280139810,21);
(-1898416428194394214,21);
(-1919815541782765632,21);
(-1941132407381545959,21);
(-1962366343688017826,21);
(-1983516672781830519,21);
(-2004582720146246000,21);
(-2025563814689034306,21);
(-2046459288763445052,21);
(-2067268478189149012,21);
(-2087990722272514005,21)].
Definition mid_160 : list (Z * Z) := [
(-2108625363827364759,21);
(-2129171749195417525,21);
(-2149629228266253678,21);
(-2169997154497448153,21);
(-2190274884934827540,21);
(-2210461780231850852,21);
(-2230557204669511573,21);
(-2250560526175888424,21);
(-2270471116345387352,21);
(-2290288350458061575,21);
(-2310011607498777247,21);
(-2329640270176030863,21);
(-2349173724940810479,21);
(-2368611362005447821,21);
(-2387952575361773893,21);
(-2407196762799759023,21);
(-2426343325925832840,21);
(-2445391670180653045,21);
(-2464341204857272739,21);
(-2483191343118929147,21);
(-2501941502016568220,21);
(-2520591102506413057,21);
(-2539139569467366644,21);
(-2557586331718083271,21);
(-2575930822034069867,21);
(-2594172477164655502,21);
(-2612310737849619143,21);
(-2630345048835790091,21);
(-2648274858893711736,21);
(-2666099620833527282,21);
(-2683818791521430137,21);
(-2701431831895659361,21);
(-2718938206982106972,21);
(-2736337385910116073,21);
(-2753628841928082958,21);
(-2770812052418673236,21);
(-2787886498914084795,21);
(-2804851667111195410,21);
(-2821707046886314831,21);
(-2838452132309977633,21);
(-2855086421661626791,21);
(-2871609417443870063,21);
(-2888020626396830062,21);
(-2904319559512375058,21);
(-2920505732047843240,21);
(-2936578663539903596,21);
(-2952537877818393365,21);
(-2968382903019509307,21);
(-2984113271599235766,21);
(-2999728520346587983,21);
(-3015228190396442107,21);
(-3030611827242448916,21);
(-3045878980749762779,21);
(-3061029205167420213,21);
(-3076062059140731875,21);
(-3090977105723610816,21);
(-3105773912390295301,21);
(-3120452051047446773,21);
(-3135011098045851000,21);
(-3149450634191777038,21);
(-3163770244758400824,21);
(-3177969519497181924,21);
(-3192048052648650044,21);
(-3206005442953415753,21)].
Definition mid_161 : list (Z * Z) := [
(-3219841293662882402,21);
(-3233555212549738163,21);
(-3247146811918333580,21);
(-3260615708614970649,21);
(-3273961524037847983,21);
(-3287183884146954813,21);
(-3300282419473945898,21);
(-3313256765131388035,21);
(-3326106560822374766,21);
(-3338831450849741658,21);
(-3351431084124936385,21);
(-3363905114177034080,21);
(-3376253199161451720,21);
(-3388475001868394929,21);
(-3400570189731295673,21);
(-3412538434835073447,21);
(-3424379413924034769,21);
(-3436092808409844674,21);
(-3447678304379220206,21);
(-3459135592601427899,21);
(-3470464368535605606,21);
(-3481664332338145051,21);
(-3492735188869478067,21);
(-3503676647700983398,21);
(-3514488423121893499,21);
(-3525170234145498342,21);
(-3535721804515668410,21);
(-3546142862713040720,21);
(-3556433141960935532,21);
(-3566592380231240096,21);
(-3576620320250127605,21);
(-3586516709503422690,21);
(-3596281300242057128,21);
(-3605913849487172532,21);
(-3615414119035089031,21);
(-3624781875462130404,21);
(-3634016890129343393,21);
(-3643118939186847528,21);
(-3652087803578167157,21);
(-3660923269044518390,21);
(-3669625126128547854,21);
(-3678193170178239296,21);
(-3686627201350598133,21);
(-3694927024614957402,21);
(-3703092449756340086,21);
(-3711123291378629757,21);
(-3719019368907363048,21);
(-3726780506592602352,21);
(-3734406533511572604,21);
(-3741897283570940706,21);
(-3749252595509212048,21);
(-3756472312898792663,21);
(-3763556284147850147,21);
(-3770504362502080480,21);
(-3777316406046367283,21);
(-3783992277706055545,21);
(-3790531845248291259,21);
(-3796934981283062692,21);
(-3803201563264069045,21);
(-3809331473489480698,21);
(-3815324599102492154,21);
(-3821180832091690231,21);
(-3826900069291290420,21);
(-3832482212381238800,21)].
Definition mid_162 : list (Z * Z) := [
(-3837927167886933180,21);
(-3843234847179125956,21);
(-3848405166473366397,21);
(-3853438046829377878,21);
(-3858333414150259474,21);
(-3863091199181578703,21);
(-3867711337510172393,21);
(-3872193769562859086,21);
(-3876538440605043021,21);
(-3880745300738961193,21);
(-3884814304901970314,21);
(-3888745412864550582,21);
(-3892538589228145950,21);
(-3896193803422893370,21);
(-3899711029705122192,21);
(-3903090247154752078,21);
(-3906331439672412927,21);
(-3909434595976584749,21);
(-3912399709600357205,21);
(-3915226778888166587,21);
(-3917915806992373212,21);
(-3920466801869527430,21);
(-3922879776276664253,21);
(-3925154747767281398,21);
(-3927291738687243607,21);
(-3929290776170455378,21);
(-3931151892134469514,21);
(-3932875123275766070,21);
(-3934460511065054726,21);
(-3935908101742302198,21);
(-3937217946311609602,21);
(-3938390100535934558,21);
(-3939424624931701403,21);
(-3940321584763133850,21);
(-3941081050036555553,21);
(-3941703095494455619,21);
(-3942187800609389323,21);
(-3942535249577733963,21);
(-3942745531313335446,21);
(-3942818739440887704,21);
(-3942754972289228867,21);
(-3942554332884494299,21);
(-3942216928943031128,21);
(-3941742872864203474,21);
(-3941132281723077127,21);
(-3940385277262857880,21);
(-3939501985887263955,21);
(-3938482538652625202,21);
(-3937327071259984906,21);
(-3936035724046917962,21);
(-3934608641979189456,21);
(-3933045974642384625,21);
(-3931347876233246517,21);
(-3929514505550905229,21);
(-3927546025988009996,21);
(-3925442605521611492,21);
(-3923204416703933092,21);
(-3920831636653061489,21);
(-3918324447043317234,21);
(-3915683034095645242,21);
(-3912907588567761559,21);
(-3909998305744150082,21);
(-3906955385425940445,21);
(-3903779031920649300,21)].
Definition mid_163 : list (Z * Z) := [
(-3900469454031675262,21);
(-3897026865047791694,21);
(-3893451482732350217,21);
(-3889743529312430018,21);
(-3885903231467805006,21);
(-3881930820319770895,21);
(-3877826531419789266,21);
(-3873590604738051408,21);
(-3869223284651833548,21);
(-3864724819933798745,21);
(-3860095463739974392,21);
(-3855335473597807771,21);
(-3850445111393919345,21);
(-3845424643361781015,21);
(-3840274340069216134,21);
(-3834994476405804119,21);
(-3829585331570091195,21);
(-3824047189056697070,21);
(-3818380336643277615,21);
(-3812585066377283723,21);
(-3806661674562735343,21);
(-3800610461746657676,21);
(-3794431732705532551,21);
(-3788125796431556381,21);
(-3781692966118731149,21);
(-3775133559148876466,21);
(-3768447897077481165,21);
(-3761636305619407011,21);
(-3754699114634452769,21);
(-3747636658112845406,21);
(-3740449274160518797,21);
(-3733137304984277937,21);
(-3725701096876886820,21);
(-3718141000201972447,21);
(-3710457369378748413,21);
(-3702650562866803552,21);
(-3694720943150495932,21);
(-3686668876723368099,21);
(-3678494734072485558,21);
(-3670198889662527626,21);
(-3661781721919766825,21);
(-3653243613216015755,21);
(-3644584949852377066,21);
(-3635806122042791778,21);
(-3626907523897678672,21);
(-3617889553407238439,21);
(-3608752612424709263,21);
(-3599497106649548681,21);
(-3590123445610456706,21);
(-3580632042648162171,21);
(-3571023314898366923,21);
(-3561297683274315326,21);
(-3551455572449258805,21);
(-3541497410839016240,21);
(-3531423630584204758,21);
(-3521234667532369914,21);
(-3510930961220162707,21);
(-3500512954855232971,21);
(-3489981095298013043,21);
(-3479335833043572124,21);
(-3468577622203109813,21);
(-3457706920485475663,21);
(-3446724189178615450,21);
(-3435629893130785414,21)].
Definition mid_164 : list (Z * Z) := [
(-3424424500731675439,21);
(-3413108483893568211,21);
(-3401682318032267678,21);
(-3390146482047778562,21);
(-3378501458305260829,21);
(-3366747732615492372,21);
(-3354885794215431861,21);
(-3342916135748656269,21);
(-3330839253245621457,21);
(-3318655646103869407,21);
(-3306365817068164341,21);
(-3293970272210492659,21);
(-3281469520909809610,21);
(-3268864075832096476,21);
(-3256154452909865681,21);
(-3243341171321727050,21);
(-3230424753472059020,21);
(-3217405724970275223,21);
(-3204284614610130970,21);
(-3191061954349007183,21);
(-3177738279286955372,21);
(-3164314127645715714,21);
(-3150790040747690913,21);
(-3137166562994750038,21);
(-3123444241846907912,21);
(-3109623627801088620,21);
(-3095705274369599767,21);
(-3081689738058659631,21);
(-3067577578346661511,21);
(-3053369357662615892,21);
(-3039065641364304196,21);
(-3024666997716279893,21);
(-3010173997868069093,21);
(-2995587215832107037,21);
(-2980907228461414805,21);
(-2966134615427604322,21);
(-2951269959198489588,21);
(-2936313845015648023,21);
(-2921266860872063793,21);
(-2906129597489543002,21);
(-2890902648296036527,21);
(-2875586609403050879,21);
(-2860182079582837024,21);
(-2844689660245392285,21);
(-2829109955415830442,21);
(-2813443571711165062,21);
(-2797691118317198206,21);
(-2781853206965567444,21);
(-2765930451910405142,21);
(-2749923469905029855,21);
(-2733832880178655930,21);
(-2717659304412960858,21);
(-2701403366718493470,21);
(-2685065693611249100,21);
(-2668646913988958948,21);
(-2652147659107355164,21);
(-2635568562556528296,21);
(-2618910260237033646,21);
(-2602173390335892674,21);
(-2585358593302913149,21);
(-2568466511826471982,21);
(-2551497790809392156,21);
(-2534453077345014821,21);
(-2517333020692906660,21)].
Definition mid_165 : list (Z * Z) := [
(-2500138272254545137,21);
(-2482869485549130378,21);
(-2465527316189183686,21);
(-2448112421856053246,21);
(-2430625462275586793,21);
(-2413067099193515457,21);
(-2395437996350861017,21);
(-2377738819459388267,21);
(-2359970236176915561,21);
(-2342132916082428039,21);
(-2324227530651535624,21);
(-2306254753231608366,21);
(-2288215259016646800,21);
(-2270109725022718267,21);
(-2251938830062802550,21);
(-2233703254721757653,21);
(-2215403681331401357,21);
(-2197040793945345162,21);
(-2178615278313802191,21);
(-2160127821858526947,21);
(-2141579113647586359,21);
(-2122969844369911388,21);
(-2104300706310353007,21);
(-2085572393324111509,21);
(-2066785600811316733,21);
(-2047941025691830778,21);
(-2029039366379810014,21);
(-2010081322757941834,21);
(-1991067596152308085,21);
(-1971998889306684696,21);
(-1952875906356931314,21);
(-1933699352805522955,21);
(-1914469935495878268,21);
(-1895188362586646812,21);
(-1875855343526154195,21);
(-1856471589026665713,21);
(-1837037811038482382,21);
(-1817554722724549782,21);
(-1798023038434415962,21);
(-1778443473678384488,21);
(-1758816745101955681,21);
(-1739143570459826147,21);
(-1719424668589985454,21);
(-1699660759387984109,21);
(-1679852563780959759,21);
(-1660000803701673373,21);
(-1640106202062704792,21);
(-1620169482730468092,21);
(-1600191370499156251,21);
(-1580172591064934106,21);
(-1560113870999902536,21);
(-1540015937725948587,21);
(-1519879519489000450,21);
(-1499705345332960410,21);
(-1479494145073417723,21);
(-1459246649271984464,21);
(-1438963589210077998,21);
(-1418645696862837679,21);
(-1398293704873217408,21);
(-1377908346525861779,21);
(-1357490355720993502,21);
(-1337040466948488182,21);
(-1316559415261761524,21);
(-1296047936251628783,21)].
Definition mid_166 : list (Z * Z) := [
(-1275506766020409032,21);
(-1254936641155806731,21);
(-1234338298704700052,21);
(-1213712476147361160,21);
(-1193059911371356424,21);
(-1172381342645225462,21);
(-1151677508592832168,21);
(-1130949148167145670,21);
(-1110197000624171988,21);
(-1089421805497093210,21);
(-1068624302570199370,21);
(-1047805231852810999,21);
(-1026965333553471645,21);
(-1006105348053915310,21);
(-9852260158829241696,22);
(-9643280776907884547,22);
(-9434122742230831781,22);
(-9224793462947113599,22);
(-9015300347642920273,22);
(-8805650805081132338,22);
(-8595852243942221204,22);
(-8385912072567520926,22);
(-8175837698700231821,22);
(-7965636529226811143,22);
(-7755315969920811891,22);
(-7544883425184541279,22);
(-7334346297791220120,22);
(-7123711988629378902,22);
(-6912987896445758765,22);
(-6702181417586752050,22);
(-6491299945746222292,22);
(-6280350871706721428,22);
(-6069341583083195241,22);
(-5858279464070612541,22);
(-5647171895187093815,22);
(-5436026253018773520,22);
(-5224849909966959799,22);
(-5013650233993343719,22);
(-4802434588365601530,22);
(-4591210331405535584,22);
(-4379984816235427407,22);
(-4168765390524637425,22);
(-3957559396238955851,22);
(-3746374169388205300,22);
(-3535217039773128913,22);
(-3324095330737109684,22);
(-3113016358915037256,22);
(-2901987433980109305,22);
(-2691015858398123684,22);
(-2480108927176114279,22);
(-2269273927612973666,22);
(-2058518139052563476,22);
(-1847848832634994885,22);
(-1637273271048368824,22);
(-1426798708283303382,22);
(-1216432389385911763,22);
(-1006181550209736422,22);
(-7960534171743082171,23);
(-5860552070170776327,23);
(-3761941265484430267,23);
(-1664773724103225223,23);
(4308786916777418395,24);
(2524944226146522429,23);
(4617351232557014452,23)].
Definition mid_167 : list (Z * Z) := [
(6708028175566784358,23);
(8796903633653994849,23);
(1088390630150838797,22);
(1296896499243903724,22);
(1505200864077633387,22);
(1713296630424509257,22);
(1921176716635178579,22);
(2128834053878085012,22);
(2336261586372400246,22);
(2543452271627408257,22);
(2750399080678704979,22);
(2957094998320490250,22);
(3163533023341733334,22);
(3369706168760397457,22);
(3575607462055036228,22);
(3781229945397871091,22);
(3986566675887307149,22);
(4191610725777394257,22);
(4396355182708891647,22);
(4600793149939640830,22);
(4804917746571881051,22);
(5008722107780962281,22);
(5212199385044725530,22);
(5415342746366214781,22);
(5618145376502610075,22);
(5820600477190839136,22);
(6022701267369346594,22);
(6224440983403472507,22);
(6425812879308757898,22);
(6626810226971588565,22);
(6827426316371288479,22);
(7027654455801275344,22);
(7227487972087354943,22);
(7426920210807277500,22);
(7625944536509633763,22);
(7824554332929544017,22);
(8022743003205570073,22);
(8220503970097083708,22);
(8417830676196175069,22);
(8614716584142138216,22);
(8811155176837288071,22);
(9007139957655305043,22);
(9202664450654405442,22);
(9397722200788232892,22);
(9592306774113869023,22);
(9786411758001220020,22);
(9980030761341431716,22);
(1017315741475221472,21);
(1036578537078426676,21);
(1055790830412810157,21);
(1074951991181429456,21);
(1094061391341947468,21);
(1113118405126884260,21);
(1132122409063526704,21);
(1151072781993976247,21);
(1169968905095373829,21);
(1188810161899367390,21);
(1207595938312021073,21);
(1226325622633510403,21);
(1244998605577525390,21);
(1263614280290770555,21);
(1282172042372397734,21);
(1300671289893093026,21);
(1319111423414271074,21)].
Definition mid_168 : list (Z * Z) := [
(1337491846007299702,21);
(1355811963272073170,21);
(1374071183356116678,21);
(1392268916973370173,21);
(1410404577422572948,21);
(1428477580605932301,21);
(1446487345047604844,21);
(1464433291911865567,21);
(1482314845021392470,21);
(1500131430875424566,21);
(1517882478667638424,21);
(1535567420304092797,21);
(1553185690421066351,21);
(1570736726402627162,21);
(1588219968398199610,21);
(1605634859340192852,21);
(1622980844961099131,21);
(1640257373810766412,21);
(1657463897273776625,21);
(1674599869586108989,21);
(1691664747852199713,21);
(1708657992061789416,21);
(1725579065106435956,21);
(1742427432796153251,21);
(1759202563875899824,21);
(1775903930041798466,21);
(1792531005957390599,21);
(1809083269269802161,21);
(1825560200625598760,21);
(1841961283686681383,21);
(1858286005146181450,21);
(1874533854743861251,21);
(1890704325281656207,21);
(1906796912639322069,21);
(1922811115789372412,21);
(1938746436812379759,21);
(1954602380912081987,21);
(1970378456430132031,21);
(1986074174860973356,21);
(2001689050866565373,21);
(2017222602290807444,21);
(2032674350173998678,21);
(2048043818767303348,21);
(2063330535546624347,21);
(2078534031226882996,21);
(2093653839775990073,21);
(2108689498428448217,21);
(2123640547699173764,21);
(2138506531397074868,21);
(2153286996638395425,21);
(2167981493860067672,21);
(2182589576832948131,21);
(2197110802674765578,21);
(2211544731863112831,21);
(2225890928248291500,21);
(2240148959065886135,21);
(2254318394949334468,21);
(2268398809942501117,21);
(2282389781511697489,21);
(2296290890558011326,21);
(2310101721429425048,21);
(2323821861932480904,21);
(2337450903344211531,21);
(2350988440423793392,21)].
Definition mid_169 : list (Z * Z) := [
(2364434071423979471,21);
(2377787398102497712,21);
(2391048025733382223,21);
(2404215563117993119,21);
(2417289622596026366,21);
(2430269820056439947,21);
(2443155774948088145,21);
(2455947110290321138,21);
(2468643452683565512,21);
(2481244432319493643,21);
(2493749682991208260,21);
(2506158842103532389,21);
(2518471550682654415,21);
(2530687453386055476,21);
(2542806198512199186,21);
(2554827438009952927,21);
(2566750827488028207,21);
(2578576026224283120,21);
(2590302697174739870,21);
(2601930506982593188,21);
(2613459125987208781,21);
(2624888228232539339,21);
(2636217491475929559,21);
(2647446597196567285,21);
(2658575230603616758,21);
(2669603080644457251,21);
(2680529840012854485,21);
(2691355205156608157,21);
(2702078876285465316,21);
(2712700557378752275,21);
(2723219956192732012,21);
(2733636784268051335,21);
(2743950756936901388,21);
(2754161593330125245,21);
(2764269016384091754,21);
(2774272752847487845,21);
(2784172533288072678,21);
(2793968092099038871,21);
(2803659167505471745,21);
(2813245501570652441,21);
(2822726840202000216,21);
(2832102933157104076,21);
(2841373534049636881,21);
(2850538400354873936,21);
(2859597293415329540,21);
(2868549978446168890,21);
(2877396224540415721,21);
(2886135804674087087,21);
(2894768495711248345,21);
(2903294078408756324,21);
(2911712337420998588,21);
(2920023061304563312,21);
(2928226042522448589,21);
(2936321077448524140,21);
(2944307966371676865,21);
(2952186513499686655,21);
(2959956526963172449,21);
(2967617818819377837,21);
(2975170205055635737,21);
(2982613505592885978,21);
(2989947544288984287,21);
(2997172148941820886,21);
(3004287151292384453,21);
(3011292387027667342,21)].
Definition mid_170 : list (Z * Z) := [
(3018187695783343134,21);
(3024972921146413390,21);
(3031647910657729941,21);
(3038212515814171961,21);
(3044666592070964864,21);
(3051009998843695181,21);
(3057242599510207048,21);
(3063364261412289662,21);
(3069374855857465775,21);
(3075274258120358657,21);
(3081062347444011359,21);
(3086739007041273616,21);
(3092304124095627584,21);
(3097757589762248180,21);
(3103099299168879128,21);
(3108329151416238442,21);
(3113447049578764794,21);
(3118452900704853439,21);
(3123346615817120323,21);
(3128128109912504864,21);
(3132797301962238733,21);
(3137354114911583905,21);
(3141798475679602812,21);
(3146130315158656571,21);
(3150349568213764873,21);
(3154456173681932912,21);
(3158450074371231108,21);
(3162331217059796348,21);
(3166099552494640226,21);
(3169755035390428230,21);
(3173297624428003498,21);
(3176727282252777857,21);
(3180043975473134145,21);
(3183247674658491993,21);
(3186338354337373176,21);
(3189315992995267468,21);
(3192180573072400922,21);
(3194932080961300318,21);
(3197570507004361944,21);
(3200095845491074311,21);
(3202508094655288125,21);
(3204807256672301957,21);
(3206993337655733231,21);
(3209066347654356693,21);
(3211026300648765937,21);
(3212873214547867090,21);
(3214607111185313528,21);
(3216228016315740221,21);
(3217735959610870146,21);
(3219130974655540038,21);
(3220413098943549195,21);
(3221582373873347390,21);
(3222638844743665101,21);
(3223582560748949020,21);
(3224413574974700422,21);
(3225131944392623570,21);
(3225737729855760252,21);
(3226230996093340693,21);
(3226611811705618407,21);
(3226880249158540267,21);
(3227036384778259569,21);
(3227080298745538083,21);
(3227012075090032305,21);
(3226831801684429662,21)].
Definition mid_171 : list (Z * Z) := [
(3226539570238458506,21);
(3226135476292774952,21);
(3225619619212705298,21);
(3224992102181876985,21);
(3224253032195735502,21);
(3223402520054850524,21);
(3222440680358239391,21);
(3221367631496409572,21);
(3220183495644391575,21);
(3218888398754539415,21);
(3217482470549333680,21);
(3215965844513928723,21);
(3214338657888662562,21);
(3212601051661398508,21);
(3210753170559755773,21);
(3208795163043211274,21);
(3206727181295085643,21);
(3204549381214389162,21);
(3202261922407568812,21);
(3199864968180095737,21);
(3197358685527955120,21);
(3194743245129035014,21);
(3192018821334329133,21);
(3189185592159078479,21);
(3186243739273775938,21);
(3183193447995021248,21);
(3180034907276285770,21);
(3176768309698567959,21);
(3173393851460874944,21);
(3169911732370632538,21);
(3166322155834024998,21);
(3162625328846011691,21);
(3158821461980536316,21);
(3154910769380357954,21);
(3150893468746836582,21);
(3146769781329705144,21);
(3142539931916596158,21);
(3138204148822476384,21);
(3133762663879072815,21);
(3129215712424018078,21);
(3124563533290001041,21);
(3119806368793799026,21);
(3114944464725088839,21);
(3109978070335288163,21);
(3104907438326199622,21);
(3099732824838568115,21);
(3094454489440481588,21);
(3089072695115736237,21);
(3083587708252070320,21);
(3077999798629237928,21);
(3072309239406976079,21);
(3066516307113003898,21);
(3060621281630690471,21);
(3054624446186762158,21);
(3048526087338923607,21);
(3042326494963238075,21);
(3036025962241496040,21);
(3029624785648536538,21);
(3023123264939250182,21);
(3016521703135749584,21);
(3009820406514262647,21);
(3003019684591857596,21);
(2996119850113346684,21);
(2989121219037761418,21)].
Definition mid_172 : list (Z * Z) := [
(2982024110524918864,21);
(2974828846921910314,21);
(2967535753749285955,21);
(2960145159687361388,21);
(2952657396562342450,21);
(2945072799332293465,21);
(2937391706073043916,21);
(2929614457964117239,21);
(2921741399274326110,21);
(2913772877347440594,21);
(2905709242587780836,21);
(2897550848445556472,21);
(2889298051402259399,21);
(2880951210955871779,21);
(2872510689606090108,21);
(2863976852839279080,21);
(2855350069113483588,21);
(2846630709843348331,21);
(2837819149384793703,21);
(2828915765019764540,21);
(2819920936940854394,21);
(2810835048235748104,21);
(2801658484871638339,21);
(2792391635679681173,21);
(2783034892338986759,21);
(2773588649361064060,21);
(2764053304073732162,21);
(2754429256604993409,21);
(2744716909867203191,21);
(2734916669540638640,21);
(2725028944057295878,21);
(2715054144584646070,21);
(2704992685008992485,21);
(2694844981919068683,21);
(2684611454589479716,21);
(2674292524963851891,21);
(2663888617638195903,21);
(2653400159844075245,21);
(2642827581431544774,21);
(2632171314852272716,21);
(2621431795142368203,21);
(2610609459905350628,21);
(2599704749294742996,21);
(2588718105996834842,21);
(2577649975213395280,21);
(2566500804644023491,21);
(2555271044468700008,21);
(2543961147330263840,21);
(2532571568316566504,21);
(2521102764942793461,21);
(2509555197133725695,21);
(2497929327205613594,21);
(2486225619848467586,21);
(2474444542107927681,21);
(2462586563366985989,21);
(2450652155328139452,21);
(2438641791994881208,21);
(2426555949653485568,21);
(2414395106854730095,21);
(2402159744395282459,21);
(2389850345299295020,21);
(2377467394799912676,21);
(2365011380320476697,21);
(2352482791455937604,21)].
Definition mid_173 : list (Z * Z) := [
(2339882119954158745,21);
(2327209859696953605,21);
(2314466506681304384,21);
(2301652559000488645,21);
(2288768516824943571,21);
(2275814882383315422,21);
(2262792159943301674,21);
(2249700855792603326,21);
(2236541478219529824,21);
(2223314537493816054,21);
(2210020545847378622,21);
(2196660017454760746,21);
(2183233468413771448,21);
(2169741416726110421,21);
(2156184382277632951,21);
(2142562886818841217,21);
(2128877453945395536,21);
(2115128609078061831,21);
(2101316879443378572,21);
(2087442794053693575,21);
(2073506883687126212,21);
(2059509680868122899,21);
(2045451719847147815,21);
(2031333536580870631,21);
(2017155668712222825,21);
(2002918655550166901,21);
(1988623038049674649,21);
(1974269358791686316,21);
(1959858161962736278,21);
(1945389993334805528,21);
(1930865400245184143,21);
(1916284931575938004,21);
(1901649137733726815,21);
(1886958570629326121,21);
(1872213783657358148,21);
(1857415331675654020,21);
(1842563770984821095,21);
(1827659659307861919,21);
(1812703555769396577,21);
(1797696020875166499,21);
(1782637616491516801,21);
(1767528905824542742,21);
(1752370453399503328,21);
(1737162825040222550,21);
(1721906587847995586,21);
(1706602310181241358,21);
(1691250561634494382,21);
(1675851913017376233,21);
(1660406936334171343,21);
(1644916204762585966,21);
(1629380292632956429,21);
(1613799775407441560,21);
(1598175229658840412,21);
(1582507233049731780,21);
(1566796364311578808,21);
(1551043203223481659,21);
(1535248330591260438,21);
(1519412328226500599,21);
(1503535778925233629,21);
(1487619266447016281,21);
(1471663375493708400,21);
(1455668691688514430,21);
(1439635801554599043,21);
(1423565292494039739,21)].
Definition mid_174 : list (Z * Z) := [
(1407457752766748870,21);
(1391313771469078866,21);
(1375133938512706957,21);
(1358918844603545064,21);
(1342669081220287117,21);
(1326385240593261914,21);
(1310067915683326301,21);
(1293717700160362414,21);
(1277335188382117083,21);
(1260920975373108679,21);
(1244475656802885178,21);
(1227999828965276432,21);
(1211494088756838276,21);
(1194959033655338494,21);
(1178395261698955308,21);
(1161803371464544335,21);
(1145183962046487751,21);
(1128537633035503777,21);
(1111864984497099029,21);
(1095166616950379737,21);
(1078443131346856028,21);
(1061695129048896872,21);
(1044923211808546732,21);
(1028127981746343499,21);
(1011310041329766506,21);
(9944699933521130176,22);
(9776084409111253544,22);
(9607259873878630421,22);
(9438232364251844357,22);
(9269007919065958868,22);
(9099592579351170650,22);
(8929992388117661585,22);
(8760213390144557704,22);
(8590261631768711425,22);
(8420143160670028439,22);
(8249864025660497147,22);
(8079430276473599732,22);
(7908847963549791920,22);
(7738123137826105960,22);
(7567261850525817566,22);
(7396270152944452603,22);
(7225154096240274772,22);
(7053919731222282885,22);
(6882573108140978280,22);
(6711120276475123934,22);
(6539567284722411049,22);
(6367920180190405352,22);
(6196185008783824466,22);
(6024367814795905966,22);
(5852474640699900123,22);
(5680511526937052002,22);
(5508484511708671002,22);
(5336399630768638410,22);
(5164262917210167602,22);
(4992080401262639737,22);
(4819858110080800159,22);
(4647602067534357040,22);
(4475318294005590104,22);
(4303012806177380434,22);
(4130691616827708622,22);
(3958360734624042873,22);
(3786026163914317294,22);
(3613693904521913603,22);
(3441369951540993572,22)].
Definition mid_175 : list (Z * Z) := [
(3269060295128440089,22);
(3096770920299790251,22);
(2924507806725580995,22);
(2752276928524277329,22);
(2580084254059257639,22);
(2407935745736235395,22);
(2235837359797234174,22);
(2063795046119099529,22);
(1891814748009962798,22);
(1719902402008489960,22);
(1548063937679436072,22);
(1376305277413319669,22);
(1204632336226494802,22);
(1033051021557907314,22);
(8615672330700057725,23);
(6901868624500784983,23);
(5189157932082953667,23);
(3477599004799140252,23);
(1767250508283470036,23);
(5817102042483011815,25);
(-1649580970556165701,23);
(-3355947068104061961,23);
(-5060868969320613843,23);
(-6764288466873769436,23);
(-8466147451000654504,23);
(-1016638791144389115,22);
(-1186495193938698545,22);
(-1356178172942185893,22);
(-1525681958147387255,22);
(-1695000790272216699,22);
(-1864128920955139730,22);
(-2033060612946117147,22);
(-2201790140297043533,22);
(-2370311788555291702,22);
(-2538619854952655535,22);
(-2706708648596152208,22);
(-2874572490655805741,22);
(-3042205714556028471,22);
(-3209602666162620710,22);
(-3376757703969292560,22);
(-3543665199287255631,22);
(-3710319536430503433,22);
(-3876715112900554010,22);
(-4042846339574174123,22);
(-4208707640886937928,22);
(-4374293455015668391,22);
(-4539598234066371803,22);
(-4704616444251858830,22);
(-4869342566076348910,22);
(-5033771094519475615,22);
(-5197896539211989755,22);
(-5361713424620450502,22);
(-5525216290225209645,22);
(-5688399690698212616,22);
(-5851258196083648257,22);
(-6013786391974347426,22);
(-6175978879687543015,22);
(-6337830276443470572,22);
(-6499335215539753545,22);
(-6660488346525003569,22);
(-6821284335375427240,22);
(-6981717864666570246,22);
(-7141783633746936078,22);
(-7301476358908313112,22)].
Definition mid_176 : list (Z * Z) := [
(-7460790773559497404,22);
(-7619721628395594113,22);
(-7778263691566632623,22);
(-7936411748849067811,22);
(-8094160603812844759,22);
(-8251505077987782589,22);
(-8408440011032780473,22);
(-8564960260900683587,22);
(-8721060704002296876,22);
(-8876736235373331591,22);
(-9031981768836940200,22);
(-9186792237165040259,22);
(-9341162592244755701,22);
(-9495087805234736023,22);
(-9648562866728153074,22);
(-9801582786914471608,22);
(-9954142595733730167,22);
(-1010623734303864448,21);
(-1025786209875047131,21);
(-1040901195301440711,21);
(-1055968201635741534,21);
(-1070986741984194471,21);
(-1085956331521887100,21);
(-1100876487508279170,21);
(-1115746729302316814,21);
(-1130566578377481058,21);
(-1145335558337052737,21);
(-1160053194928943512,21);
(-1174719016060653959,21);
(-1189332551813925259,21);
(-1203893334459678853,21);
(-1218400898472508107,21);
(-1232854780545124436,21);
(-1247254519603012684,21);
(-1261599656818680358,21);
(-1275889735625817742,21);
(-1290124301733684611,21);
(-1304302903141093184,21);
(-1318425090150261410,21);
(-1332490415381103839,21);
(-1346498433784584650,21);
(-1360448702656653561,21);
(-1374340781652071998,21);
(-1388174232797503328,21);
(-1401948620505332962,21);
(-1415663511586873723,21);
(-1429318475265512877,21);
(-1442913083190082305,21);
(-1456446909447817748,21);
(-1469919530577209208,21);
(-1483330525581101579,21);
(-1496679475939345985,21);
(-1509965965621383032,21);
(-1523189581099033789,21);
(-1536349911358841913,21);
(-1549446547914526797,21);
(-1562479084819148097,21);
(-1575447118677479521,21);
(-1588350248658021132,21);
(-1601188076504874184,21);
(-1613960206549843856,21);
(-1626666245724121959,21);
(-1639305803569900697,21);
(-1651878492252147100,21)].
Definition mid_177 : list (Z * Z) := [
(-1664383926569994523,21);
(-1676821723968053039,21);
(-1689191504547871842,21);
(-1701492891079052754,21);
(-1713725509010190912,21);
(-1725888986480212696,21);
(-1737982954328848046,21);
(-1750007046107611257,21);
(-1761960898090625654,21);
(-1773844149284828755,21);
(-1785656441440761815,21);
(-1797397419062814672,21);
(-1809066729419389922,21);
(-1820664022553250549,21);
(-1832188951291454900,21);
(-1843641171255244173,21);
(-1855020340870024891,21);
(-1866326121375043879,21);
(-1877558176832909952,21);
(-1888716174139296001,21);
(-1899799783032231045,21);
(-1910808676101479224,21);
(-1921742528797605902,21);
(-1932601019441257569,21);
(-1943383829232062055,21);
(-1954090642257417729,21);
(-1964721145501425147,21);
(-1975275028853488470,21);
(-1985751985116759443,21);
(-1996151710016768731,21);
(-2006473902209661517,21);
(-2016718263290338559,21);
(-2026884497800854421,21);
(-2036972313238080614,21);
(-2046981420061782467,21);
(-2056911531702530337,21);
(-2066762364569079986,21);
(-2076533638056201822,21);
(-2086225074552036565,21);
(-2095836399445395824,21);
(-2105367341133113860,21);
(-2114817631027121354,21);
(-2124187003561391670,21);
(-2133475196198975597,21);
(-2142681949438734676,21);
(-2151807006821945725,21);
(-2160850114939025929,21);
(-2169811023435881496,21);
(-2178689485020306616,21);
(-2187485255468139562,21);
(-2196198093629492948,21);
(-2204827761434732889,21);
(-2213374023900284253,21);
(-2221836649134557341,21);
(-2230215408343553217,21);
(-2238510075836361475,21);
(-2246720429030736946,21);
(-2254846248458377590,21);
(-2262887317770027190,21);
(-2270843423740868169,21);
(-2278714356275198406,21);
(-2286499908411471476,21);
(-2294199876327154743,21);
(-2301814059343170252,21)].
Definition mid_178 : list (Z * Z) := [
(-2309342259928545520,21);
(-2316784283704942469,21);
(-2324139939450758745,21);
(-2331409039105489245,21);
(-2338591397773778866,21);
(-2345686833729308720,21);
(-2352695168418789898,21);
(-2359616226465625476,21);
(-2366449835673515266,21);
(-2373195827030067078,21);
(-2379854034710134764,21);
(-2386424296079064315,21);
(-2392906451695991574,21);
(-2399300345316785193,21);
(-2405605823897073291,21);
(-2411822737594990392,21);
(-2417950939773975960,21);
(-2423990287005361316,21);
(-2429940639070788267,21);
(-2435801858964683261,21);
(-2441573812896472625,21);
(-2447256370292683753,21);
(-2452849403799065367,21);
(-2458352789282454952,21);
(-2463766405832544266,21);
(-2469090135763703404,21);
(-2474323864616379855,21);
(-2479467481158641965,21);
(-2484520877387640884,21);
(-2489483948530601086,21);
(-2494356593046149172,21);
(-2499138712625235004,21);
(-2503830212191987797,21);
(-2508430999904583906,21);
(-2512940987155854854,21);
(-2517360088573823793,21);
(-2521688222022191658,21);
(-2525925308600637711,21);
(-2530071272644994311,21);
(-2534126041727406946,21);
(-2538089546656280455,21);
(-2541961721476165836,21);
(-2545742503467477054,21);
(-2549431833146199172,21);
(-2553029654263378346,21);
(-2556535913804529412,21);
(-2559950561988982767,21);
(-2563273552269072515,21);
(-2566504841329154615,21);
(-2569644389084662327,21);
(-2572692158680916618,21);
(-2575648116491852883,21);
(-2578512232118726401,21);
(-2581284478388535478,21);
(-2583964831352494450,21);
(-2586553270284343634,21);
(-2589049777678469316,21);
(-2591454339248050638,21);
(-2593766943922974893,21);
(-2595987583847706847,21);
(-2598116254379029266,21);
(-2600152954083700171,21);
(-2602097684735915368,21);
(-2603950451314773588,21)].
Definition mid_179 : list (Z * Z) := [
(-2605711262001578557,21);
(-2607380128176964556,21);
(-2608957064418064489,21);
(-2610442088495431613,21);
(-2611835221369905764,21);
(-2613136487189372456,21);
(-2614345913285426575,21);
(-2615463530169873877,21);
(-2616489371531168298,21);
(-2617423474230767735,21);
(-2618265878299298570,21);
(-2619016626932676398,21);
(-2619675766488092743,21);
(-2620243346479944092,21);
(-2620719419575551039,21);
(-2621104041590865269,21);
(-2621397271486054694,21);
(-2621599171360936356,21);
(-2621709806450329104,21);
(-2621729245119329074,21);
(-2621657558858413867,21);
(-2621494822278536748,21);
(-2621241113105987532,21);
(-2620896512177283821,21);
(-2620461103433857544,21);
(-2619934973916676884,21);
(-2619318213760788404,21);
(-2618610916189677024,21);
(-2617813177509622103,21);
(-2616925097103871799,21);
(-2615946777426744578,21);
(-2614878323997642685,21);
(-2613719845394937239,21);
(-2612471453249755760,21);
(-2611133262239682083,21);
(-2609705390082333546,21);
(-2608187957528867919,21);
(-2606581088357365870,21);
(-2604884909366092863,21);
(-2603099550366718123,21);
(-2601225144177377914,21);
(-2599261826615687204,21);
(-2597209736491587831,21);
(-2595069015600168921,21);
(-2592839808714354159,21);
(-2590522263577480638,21);
(-2588116530895784046,21);
(-2585622764330814446,21);
(-2583041120491725434,21);
(-2580371758927477860,21);
(-2577614842118926882,21);
(-2574770535470858289,21);
(-2571839007303886905,21);
(-2568820428846241375,21);
(-2565714974225561523,21);
(-2562522820460441577,21);
(-2559244147451999411,21);
(-2555879137975350379,21);
(-2552427977670860409,21);
(-2548890855035479321,21);
(-2545267961413874656,21);
(-2541559490989460553,21);
(-2537765640775423159,21);
(-2533886610605586443,21)].
Definition mid_180 : list (Z * Z) := [
(-2529922603125147468,21);
(-2525873823781459374,21);
(-2521740480814609227,21);
(-2517522785247862729,21);
(-2513220950878219517,21);
(-2508835194266660542,21);
(-2504365734728393293,21);
(-2499812794323096575,21);
(-2495176597844889470,21);
(-2490457372812371426,21);
(-2485655349458532667,21);
(-2480770760720511087,21);
(-2475803842229359984,21);
(-2470754832299672243,21);
(-2465623971919132535,21);
(-2460411504737971058,21);
(-2455117677058338797,21);
(-2449742737823678001,21);
(-2444286938607828988,21);
(-2438750533604205472,21);
(-2433133779614897029,21);
(-2427436936039533040,21);
(-2421660264864217756,21);
(-2415804030650362585,21);
(-2409868500523330587,21);
(-2403853944161117411,21);
(-2397760633782941575,21);
(-2391588844137620094,21);
(-2385338852492089375,21);
(-2379010938619688462,21);
(-2372605384788281820,21);
(-2366122475748636683,21);
(-2359562498722322064,21);
(-2352925743389808547,21);
(-2346212501878410656,21);
(-2339423068750080912,21);
(-2332557740989229904,21);
(-2325616817990466562,21);
(-2318600601546145449,21);
(-2311509395833970856,21);
(-2304343507404537153,21);
(-2297103245168618472,21);
(-2289788920384601065,21);
(-2282400846645691889,21);
(-2274939339867196580,21);
(-2267404718273537210,21);
(-2259797302385340746,21);
(-2252117415006508420,21);
(-2244365381210991061,21);
(-2236541528329695841,21);
(-2228646185937323190,21);
(-2220679685838953046,21);
(-2212642362056764251,21);
(-2204534550816645080,21);
(-2196356590534531000,21);
(-2188108821803062473,21);
(-2179791587377859392,21);
(-2171405232163728730,21);
(-2162950103201105936,21);
(-2154426549652156339,21);
(-2145834922786777656,21);
(-2137175575968873562,21);
(-2128448864642174931,21);
(-2119655146316225865,21)].
Definition mid_181 : list (Z * Z) := [
(-2110794780552320733,21);
(-2101868128949198767,21);
(-2092875555128855328,21);
(-2083817424722296356,21);
(-2074694105355035650,21);
(-2065505966632739596,21);
(-2056253380126815081,21);
(-2046936719359723766,21);
(-2037556359790489331,21);
(-2028112678799986156,21);
(-2018606055676321672,21);
(-2009036871599933355,21);
(-1999405509628864389,21);
(-1989712354683912266,21);
(-1979957793533612589,21);
(-1970142214779297025,21);
(-1960266008840141298,21);
(-1950329567937958810,21);
(-1940333286082108121,21);
(-1930277559054421020,21);
(-1920162784393713608,21);
(-1909989361380793520,21);
(-1899757691022988578,21);
(-1889468176038648769,21);
(-1879121220841985847,21);
(-1868717231527378857,21);
(-1858256615853903218,21);
(-1847739783229880627,21);
(-1837167144697080933,21);
(-1826539112915175327,21);
(-1815856102146073308,21);
(-1805118528238050394,21);
(-1794326808610024809,21);
(-1783481362235813565,21);
(-1772582609628096462,21);
(-1761630972822604297,21);
(-1750626875362130790,21);
(-1739570742280604565,21);
(-1728463000086948205,21);
(-1717304076749042677,21);
(-1706094401677717143,21);
(-1694834405710432578,21);
(-1683524521095187227,21);
(-1672165181474358307,21);
(-1660756821868290432,21);
(-1649299878659098726,21);
(-1637794789574415107,21);
(-1626241993670769640,21);
(-1614641931317498807,21);
(-1602995044180207307,21);
(-1591301775204105162,21);
(-1579562568597891493,21);
(-1567777869816914908,21);
(-1555948125546735691,21);
(-1544073783686638560,21);
(-1532155293332825366,21);
(-1520193104761887945,21);
(-1508187669414200530,21);
(-1496139439877064740,21);
(-1484048869868059275,21);
(-1471916414218397843,21);
(-1459742528855953155,21);
(-1447527670788567589,21);
(-1435272298087297057,21)].
Definition mid_182 : list (Z * Z) := [
(-1422976869869402479,21);
(-1410641846281582377,21);
(-1398267688483028530,21);
(-1385854858628626264,21);
(-1373403819851821018,21);
(-1360915036247790878,21);
(-1348388972856510038,21);
(-1335826095645604745,21);
(-1323226871493403314,21);
(-1310591768172013035,21);
(-1297921254330072901,21);
(-1285215799475769149,21);
(-1272475873959882237,21);
(-1259701948958351359,21);
(-1246894496455535880,21);
(-1234053989226921010,21);
(-1221180900821773390,21);
(-1208275705546386913,21);
(-1195338878446561368,21);
(-1182370895290567672,21);
(-1169372232552012489,21);
(-1156343367392464539,21);
(-1143284777644328759,21);
(-1130196941793702248,21);
(-1117080338962963279,21);
(-1103935448893619657,21);
(-1090762751929138423,21);
(-1077562728997507116,21);
(-1064335861594093184,21);
(-1051082631764306509,21);
(-1037803522086443641,21);
(-1024499015654222389,21);
(-1011169596059586367,21);
(-9978157473755110748,22);
(-9844379541385115881,22);
(-9710367013314586109,22);
(-9576124743663553792,22);
(-9441657590668645506,22);
(-9306970416510967122,22);
(-9172068087144401955,22);
(-9036955472119038687,22);
(-8901637444412496608,22);
(-8766118880254890940,22);
(-8630404658954084381,22);
(-8494499662726913685,22);
(-8358408776522746608,22);
(-8222136887852057614,22);
(-8085688886614483166,22);
(-7949069664924277110,22);
(-7812284116938512327,22);
(-7675337138685592482,22);
(-7538233627890643428,22);
(-7400978483804155055,22);
(-7263576607030540738,22);
(-7126032899353896286,22);
(-6988352263567237021,22);
(-6850539603299628244,22);
(-6712599822845673843,22);
(-6574537826991594001,22);
(-6436358520844570694,22);
(-6298066809662091012,22);
(-6159667598678487824,22);
(-6021165792934638720,22);
(-5882566297107762535,22)].
Definition mid_183 : list (Z * Z) := [
(-5743874015338354660,22);
(-5605093851060412909,22);
(-5466230706831593997,22);
(-5327289484160722391,22);
(-5188275083338409746,22);
(-5049192403268192584,22);
(-4910046341292870209,22);
(-4770841793028953001,22);
(-4631583652195109648,22);
(-4492276810440716289,22);
(-4352926157180945577,22);
(-4213536579424142711,22);
(-4074112961604362286,22);
(-3934660185413807552,22);
(-3795183129632495752,22);
(-3655686669961199912,22);
(-3516175678854574407,22);
(-3376655025351574355,22);
(-3237129574909094554,22);
(-3097604189235913619,22);
(-2958083726123844669,22);
(-2818573039282544664,22);
(-2679076978172545095,22);
(-2539600387840648416,22);
(-2400148108752173505,22);
(-2260724976626562967,22);
(-2121335822273299977,22);
(-1981985471425053093,22);
(-1842678744574233857,22);
(-1703420456809773146,22);
(-1564215417651290002,22);
(-1425068430886536396,22);
(-1285984294409557550,22);
(-1146967800054122573,22);
(-1008023733435576224,22);
(-8691568737866478794,23);
(-7303719937936182843,23);
(-5916738594392185210,23);
(-4530672298378503213,23);
(-3145568570761954038,23);
(-1761474860538695696,23);
(-3784385432144545134,24);
(1003493080781320573,23);
(2384272787677377340,23);
(3763853431968683806,23);
(5142187947990367949,23);
(6519229351487651567,23);
(7894930741211600542,23);
(9269245300477468277,23);
(1064212629873866587,22);
(1201352709313665217,22);
(1338340113007963105,22);
(1475170194678704621,22);
(1611838317282952772,22);
(1748339853169438105,22);
(1884670184231668243,22);
(2020824702060562954,22);
(2156798808099616763,22);
(2292587913796625184,22);
(2428187440754936888,22);
(2563592820887157248,22);
(2698799496565497912,22);
(2833802920771181480,22);
(2968598557248405541,22)].
Definition mid_184 : list (Z * Z) := [
(3103181880649821724,22);
(3237548376687864851,22);
(3371693542285444565,22);
(3505612885719995683,22);
(3639301926774864268,22);
(3772756196885171842,22);
(3905971239283597221,22);
(4038942609148517553,22);
(4171665873748641438,22);
(4304136612587164987,22);
(4436350417548291444,22);
(4568302893040243964,22);
(4699989656137736819,22);
(4831406336726886070,22);
(4962548577646155304,22);
(5093412034828837150,22);
(5223992377442921321,22);
(5354285288033688341,22);
(5484286462662718359,22);
(5613991611046417491,22);
(5743396456696796054,22);
(5872496737058781682,22);
(6001288203646896026,22);
(6129766622184250552,22);
(6257927772738085910,22);
(6385767449854253116,22);
(6513281462696002277,22);
(6640465635174451139,22);
(6767315806084485495,22);
(6893827829239955940,22);
(7019997573602329306,22);
(7145820923416265971,22);
(7271293778339721955,22);
(7396412053573895966,22);
(7521171679995203915,22);
(7645568604283829511,22);
(7769598789051636268,22);
(7893258212972229480,22);
(8016542870907484783,22);
(8139448774033519437,22);
(8261971949968673718,22);
(8384108442897719293,22);
(8505854313697414158,22);
(8627205640059568267,22);
(8748158516614874597,22);
(8868709055057746350,22);
(8988853384264395251,22);
(9108587650417573336,22);
(9227908017125892662,22);
(9346810665543010561,22);
(9465291794488509512,22);
(9583347620565619814,22);
(9700974378278031524,22);
(9818168320148811922,22);
(9934925716835810161,22);
(1005124285724643416,21);
(1016711604865424461,21);
(1028254161681230834,21);
(1039751590606563005,21);
(1051203527946563323,21);
(1062609611888090709,21);
(1073969482510894443,21);
(1085282781798541400,21);
(1096549153649555583,21)].
Definition mid_185 : list (Z * Z) := [
(1107768243888224147,21);
(1118939700275323190,21);
(1130063172519025702,21);
(1141138312285480986,21);
(1152164773209312341,21);
(1163142210904289080,21);
(1174070282973681094,21);
(1184948649020485696,21);
(1195776970658007487,21);
(1206554911519707026,21);
(1217282137269453919,21);
(1227958315611757780,21);
(1238583116301336532,21);
(1249156211153327643,21);
(1259677274052940993,21);
(1270145980965112610,21);
(1280562009944304124,21);
(1290925041143962428,21);
(1301234756825922967,21);
(1311490841369952450,21);
(1321692981282995144,21);
(1331840865208296218,21);
(1341934183934728481,21);
(1351972630405738141,21);
(1361955899728375984,21);
(1371883689182099367,21);
(1381755698227735531,21);
(1391571628516134187,21);
(1401331183896738133,21);
(1411034070426305442,21);
(1420679996377294035,21);
(1430268672246206565,21);
(1439799810762027463,21);
(1449273126894383510,21);
(1458688337861585799,21);
(1468045163138944264,21);
(1477343324466433858,21);
(1486582545856708973,21);
(1495762553603052596,21);
(1504883076286776204,21);
(1513943844785108420,21);
(1522944592278623098,21);
(1531885054258645944,21);
(1540764968534732689,21);
(1549584075241897466,21);
(1558342116847726260,21);
(1567038838159603769,21);
(1575673986331685037,21);
(1584247310871744361,21);
(1592758563648128062,21);
(1601207498896456806,21);
(1609593873226296485,21);
(1617917445627661257,21);
(1626177977477630873,21);
(1634375232546680023,21);
(1642508977004914026,21);
(1650578979428419862,21);
(1658585010805350502,21);
(1666526844541858744,21);
(1674404256468221656,21);
(1682217024844604629,21);
(1689964930366786612,21);
(1697647756171960813,21);
(1705265287844256105,21)].
Definition mid_186 : list (Z * Z) := [
(1712817313420174955,21);
(1720303623394203296,21);
(1727724010723885248,21);
(1735078270835176692,21);
(1742366201627682399,21);
(1749587603479466850,21);
(1756742279252218077,21);
(1763830034296034414,21);
(1770850676454154438,21);
(1777804016067738952,21);
(1784689865980413140,21);
(1791508041542726106,21);
(1798258360616640994,21);
(1804940643579835795,21);
(1811554713329843703,21);
(1818100395288312727,21);
(1824577517404984929,21);
(1830985910161663085,21);
(1837325406576016456,21);
(1843595842205445531,21);
(1849797055150713453,21);
(1855928886059470765,21);
(1861991178129858426,21);
(1867983777113846073,21);
(1873906531320505874,21);
(1879759291619306771,21);
(1885541911443204240,21);
(1891254246791608182,21);
(1896896156233477456,21);
(1902467500909993956,21);
(1907968144537376112,21);
(1913397953409655319,21);
(1918756796401043831,21);
(1924044544968564604,21);
(1929261073154400980,21);
(1934406257588114960,21);
(1939479977488959379,21);
(1944482114667925310,21);
(1949412553529728540,21);
(1954271181074799298,21);
(1959057886901082249,21);
(1963772563205741072,21);
(1968415104786856110,21);
(1972985409044957211,21);
(1977483375984490435,21);
(1981908908215129078,21);
(1986261910953155373,21);
(1990542292022571148,21);
(1994749961856175959,21);
(1998884833496626136,21);
(2002946822597313423,21);
(2006935847423141697,21);
(2010851828851323211,21);
(2014694690371954516,21);
(2018464358088560735,21);
(2022160760718570878,21);
(2025783829593660011,21);
(2029333498659963066,21);
(2032809704478360634,21);
(2036212386224432562,21);
(2039541485688503488,21);
(2042796947275586465,21);
(2045978718005082419,21);
(2049086747510584124,21)].
Definition mid_187 : list (Z * Z) := [
(2052120988039468543,21);
(2055081394452392025,21);
(2057967924222793739,21);
(2060780537436214793,21);
(2063519196789532790,21);
(2066183867590179902,21);
(2068774517755183565,21);
(2071291117810150368,21);
(2073733640888187919,21);
(2076102062728693142,21);
(2078396361676073355,21);
(2080616518678343740,21);
(2082762517285720923,21);
(2084834343649020084,21);
(2086831986518014777,21);
(2088755437239719556,21);
(2090604689756560275,21);
(2092379740604448108,21);
(2094080588910797198,21);
(2095707236392428674,21);
(2097259687353357580,21);
(2098737948682601918,21);
(2100142029851721943,21);
(2101471942912438388,21);
(2102727702494117112,21);
(2103909325801078117,21);
(2105016832609929271,21);
(2106050245266780346,21);
(2107009588684301792,21);
(2107894890338809536,21);
(2108706180267171538,21);
(2109443491063663165,21);
(2110106857876746251,21);
(2110696318405726277,21);
(2111211912897355356,21);
(2111653684142340229,21);
(2112021677471759631,21);
(2112315940753387109,21);
(2112536524387950091,21);
(2112683481305283138,21);
(2112756866960412670,21);
(2112756739329533281,21);
(2112683158905939371,21);
(2112536188695814544,21);
(2112315894213987605,21);
(2112022343479581874,21);
(2111655607011592509,21);
(2111215757824335456,21);
(2110702871422896840,21);
(2110117025798416250,21);
(2109458301423333161,21);
(2108726781246521038,21);
(2107922550688401050,21);
(2107045697635872780,21);
(2106096312437240586,21);
(2105074487897046730,21);
(2103980319270796519,21);
(2102813904259625329,21);
(2101575343004864153,21);
(2100264738082545293,21);
(2098882194497815688,21);
(2097427819679274340,21);
(2095901723473217373,21);
(2094304018137826701,21)].
Definition mid_188 : list (Z * Z) := [
(2092634818337245090,21);
(2090894241135625182,21);
(2089082405991029776,21);
(2087199434749298279,21);
(2085245451637858950,21);
(2083220583259387613,21);
(2081124958585432554,21);
(2078958708949997340,21);
(2076721968042984437,21);
(2074414871903566826,21);
(2072037558913545751,21);
(2069590169790545397,21);
(2067072847581198029,21);
(2064485737654243262,21);
(2061828987693473808,21);
(2059102747690749746,21);
(2056307169938837581,21);
(2053442409024124841,21);
(2050508621819431814,21);
(2047505967476580865,21);
(2044434607418977451,21);
(2041294705334110917,21);
(2038086427165959006,21);
(2034809941107314744,21);
(2031465417592101617,21);
(2028053029287517437,21);
(2024572951086202506,21);
(2021025360098280699,21);
(2017410435643345479,21);
(2013728359242357869,21);
(2009979314609512333,21);
(2006163487644011152,21);
(2002281066421740356,21);
(1998332241186918327,21);
(1994317204343682391,21);
(1990236150447547911,21);
(1986089276196848722,21);
(1981876780424123366,21);
(1977598864087367746,21);
(1973255730261267837,21);
(1968847584128403331,21);
(1964374632970249633,21);
(1959837086158296073,21);
(1955235155144985013,21);
(1950569053454505016,21);
(1945838996673796744,21);
(1941045202443159425,21);
(1936187890447020827,21);
(1931267282404606394,21);
(1926283602060424073,21);
(1921237075174835225,21);
(1916127929514514945,21);
(1910956394842768620,21);
(1905722702909912669,21);
(1900427087443524315,21);
(1895069784138626087,21);
(1889651030647817621,21);
(1884171066571403578,21);
(1878630133447349148,21);
(1873028474741268322,21);
(1867366335836318251,21);
(1861643964023076709,21);
(1855861608489251706,21);
(1850019520309443806,21)].
Definition mid_189 : list (Z * Z) := [
(1844117952434858130,21);
(1838157159682819904,21);
(1832137398726381081,21);
(1826058928083855188,21);
(1819922008108162004,21);
(1813726900976284128,21);
(1807473870678615556,21);
(1801163183008099283,21);
(1794795105549638978,21);
(1788369907669168715,21);
(1781887860502688430,21);
(1775349236945506035,21);
(1768754311641083585,21);
(1762103360970061674,21);
(1755396663039198845,21);
(1748634497670127760,21);
(1741817146388230202,21);
(1734944892411401053,21);
(1728018020638672414,21);
(1721036817638919685,21);
(1714001571639494140,21);
(1706912572514700027,21);
(1699770111774344091,21);
(1692574482552179713,21);
(1685325979594372303,21);
(1678024899247770613,21);
(1670671539448269783,21);
(1663266199709131010,21);
(1655809181109113874,21);
(1648300786280702769,21);
(1640741319398281942,21);
(1633131086166164821,21);
(1625470393806639595,21);
(1617759551048077692,21);
(1609998868112706358,21);
(1602188656704740767,21);
(1594329229998150965,21);
(1586420902624418846,21);
(1578463990660538847,21);
(1570458811616589744,21);
(1562405684423515476,21);
(1554304929420853923,21);
(1546156868344276611,21);
(1537961824313212756,21);
(1529720121818502589,21);
(1521432086709751004,21);
(1513098046182983266,21);
(1504718328767960713,21);
(1496293264315633718,21);
(1487823183985612432,21);
(1479308420233270849,21);
(1470749306797338764,21);
(1462146178687012774,21);
(1453499372169110440,21);
(1444809224755494621,21);
(1436076075190113139,21);
(1427300263436045383,21);
(1418482130662850537,21);
(1409622019233407750,21);
(1400720272691062052,21);
(1391777235746696545,21);
(1382793254265570404,21);
(1373768675254356158,21);
(1364703846848107143,21)].
Definition mid_190 : list (Z * Z) := [
(1355599118297046504,21);
(1346454839953469375,21);
(1337271363258676080,21);
(1328049040729629721,21);
(1318788225945840588,21);
(1309489273536077738,21);
(1300152539165186838,21);
(1290778379520667951,21);
(1281367152299423126,21);
(1271919216194482066,21);
(1262434930881500134,21);
(1252914657005442609,21);
(1243358756167227321,21);
(1233767590910178407,21);
(1224141524706606277,21);
(1214480921944446120,21);
(1204786147913507188,21);
(1195057568792231434,21);
(1185295551634034513,21);
(1175500464353615784,21);
(1165672675713652542,21);
(1155812555310984464,21);
(1145920473563070627,21);
(1135996801694428952,21);
(1126041911722864674,21);
(1116056176445858394,21);
(1106039969426959781,21);
(1095993664981965944,21);
(1085917638165263517,21);
(1075812264756172056,21);
(1065677921245086410,21);
(1055514984819789972,21);
(1045323833351663196,21);
(1035104845381990771,21);
(1024858400108028325,21);
(1014584877369272518,21);
(1004284657633722905,21);
(9939581219839152375,22);
(9836056521031514514,22);
(9732276302617416794,22);
(9628244393029964689,22);
(9523964626294466806,22);
(9419440841890658811,22);
(9314676884611259493,22);
(9209676604426418394,22);
(9104443856343186941,22);
(8998982500265211839,22);
(8893296400856626508,22);
(8787389427401446317,22);
(8681265453663104771,22);
(8574928357748379639,22);
(8468382021965543526,22);
(8361630332686124847,22);
(8254677180206433521,22);
(8147526458606703598,22);
(8040182065612653649,22);
(7932647902456876942,22);
(7824927873738035016,22);
(7717025887282345439,22);
(7608945854004969811,22);
(7500691687769247456,22);
(7392267305248401100,22);
(7283676625785744183,22);
(7174923571256488445,22)].
Definition mid_191 : list (Z * Z) := [
(7066012065926979792,22);
(6956946036316235919,22);
(6847729411057636812,22);
(6738366120758258184,22);
(6628860097860484997,22);
(6519215276503942651,22);
(6409435592384841269,22);
(6299524982617935075,22);
(6189487385598709457,22);
(6079326740861809098,22);
(5969046988945631970,22);
(5858652071252303537,22);
(5748145929907501339,22);
(5637532507625433878,22);
(5526815747567657977,22);
(5415999593205905521,22);
(5305087988184719380,22);
(5194084876181841778,22);
(5082994200771124519,22);
(4971819905285536790,22);
(4860565932677927037,22);
(4749236225384207495,22);
(4637834725186874276,22);
(4526365373076032166,22);
(4414832109113394471,22);
(4303238872294752517,22);
(4191589600414256304,22);
(4079888229926087657,22);
(3968138695808784248,22);
(3856344931429704572,22);
(3744510868407237769,22);
(3632640436475634521,22);
(3520737563349943646,22);
(3408806174588811734,22);
(3296850193459841503,22);
(3184873540805376242,22);
(3072880134904547550,22);
(2960873891341862449,22);
(2848858722870988014,22);
(2736838539278663401,22);
(2624817247254022587,22);
(2512798750251605422,22);
(2400786948358675954,22);
(2288785738162484366,22);
(2176799012615346959,22);
(2064830660902371054,22);
(1952884568309465026,22);
(1840964616089101882,22);
(1729074681328839416,22);
(1617218636820032273,22);
(1505400350924415720,22);
(1393623687443367397,22);
(1281892505487441480,22);
(1170210659343737274,22);
(1058581998346278647,22);
(9470103667450128593,23);
(8354996035767432098,23);
(7240535425336543421,23);
(6126760118345450765,23);
(5013708340963751178,23);
(3901418262036876765,23);
(2789927991807623472,23);
(1679275580640780355,23);
(5694990177268111283,24)].
Definition mid_192 : list (Z * Z) := [
(-5393637701871444205,24);
(-1647274920060317176,23);
(-2754196633858244566,23);
(-3860091179785114649,23);
(-4964920893563560302,23);
(-6068648179711078077,23);
(-7171235512762116492,23);
(-8272645438550835261,23);
(-9372840575450274521,23);
(-1047178361561054217,22);
(-1156943732621754073,22);
(-1266576455072369542,22);
(-1376072821007541459,22);
(-1485429130396052541,22);
(-1594641691202777626,22);
(-1703706819510302157,22);
(-1812620839642499276,22);
(-1921380084285084159,22);
(-2029980894607346883,22);
(-2138419620381927760,22);
(-2246692620106818003,22);
(-2354796261124546069,22);
(-2462726919741019499,22);
(-2570480981346270075,22);
(-2678054840532421792,22);
(-2785444901211268790,22);
(-2892647576733759851,22);
(-2999659290006674280,22);
(-3106476473608668393,22);
(-3213095569909746470,22);
(-3319513031184054643,22);
(-3425725319727157417,22);
(-3531728907972934181,22);
(-3637520278604978270,22);
(-3743095924673848552,22);
(-3848452349709975532,22);
(-3953586067836319172,22);
(-4058493603882894251,22);
(-4163171493498559199,22);
(-4267616283262275299,22);
(-4371824530796190596,22);
(-4475792804875989997,22);
(-4579517685540755311,22);
(-4682995764204541029,22);
(-4786223643765085117,22);
(-4889197938713348663,22);
(-4991915275241225409,22);
(-5094372291351150243,22);
(-5196565636962964139,22);
(-5298491974020335098,22);
(-5400147976598789141,22);
(-5501530331011165228,22);
(-5602635735912360037,22);
(-5703460902405902864,22);
(-5804002554147807014,22);
(-5904257427449707786,22);
(-6004222271383954186,22);
(-6103893847885736440,22);
(-6203268931854535873,22);
(-6302344311258662596,22);
(-6401116787233423512,22);
(-6499583174183374504,22);
(-6597740299883953548,22);
(-6695585005578064694,22)].
Definition mid_193 : list (Z * Z) := [
(-6793114146077801167,22);
(-6890324589862116805,22);
(-6987213219173989001,22);
(-7083776930119406370,22);
(-7180012632763465913,22);
(-7275917251225925931,22);
(-7371487723778411254,22);
(-7466721002938821227,22);
(-7561614055565216196,22);
(-7656163862951137315,22);
(-7750367420918177893,22);
(-7844221739909175992,22);
(-7937723845079566048,22);
(-8030870776390365475,22);
(-8123659588698566763,22);
(-8216087351846765221,22);
(-8308151150754513855,22);
(-8399848085506821365,22);
(-8491175271442006137,22);
(-8582129839241233989,22);
(-8672708935015087384,22);
(-8762909720389590361,22);
(-8852729372594744491,22);
(-8942165084547236149,22);
(-9031214064936711906,22);
(-9119873538311361110,22);
(-9208140745158811466,22);
(-9296012941991518624,22);
(-9383487401428387093,22);
(-9470561412275869647,22);
(-9557232279610387285,22);
(-9643497324858288063,22);
(-9729353885874975419,22);
(-9814799317025525108,22);
(-9899830989262515743,22);
(-9984446290203469014,22);
(-1006864262420928196,21);
(-1015241741246011246,21);
(-1023576809303170486,21);
(-1031869212096995060,21);
(-1040118696836679537,21);
(-1048325012443358968,21);
(-1056487909557386490,21);
(-1064607140545726716,21);
(-1072682459509081976,21);
(-1080713622288984738,21);
(-1088700386474978710,21);
(-1096642511411556435,21);
(-1104539758205041371,21);
(-1112391889730558660,21);
(-1120198670638793614,21);
(-1127959867362625292,21);
(-1135675248124014443,21);
(-1143344582940337192,21);
(-1150967643631035974,21);
(-1158544203824180691,21);
(-1166074038962614185,21);
(-1173556926310480655,21);
(-1180992644959401707,21);
(-1188380975834583660,21);
(-1195721701701070797,21);
(-1203014607169705001,21);
(-1210259478703049193,21);
(-1217456104621409633,21)].
Definition mid_194 : list (Z * Z) := [
(-1224604275108597809,21);
(-1231703782217643530,21);
(-1238754419876599532,21);
(-1245755983894079356,21);
(-1252708271964856832,21);
(-1259611083675259971,21);
(-1266464220508691733,21);
(-1273267485850917242,21);
(-1280020684995276416,21);
(-1286723625147976387,21);
(-1293376115433169694,21);
(-1299977966897961339,21);
(-1306528992517467895,21);
(-1313029007199697498,21);
(-1319477827790317736,21);
(-1325875273077590719,21);
(-1332221163796855172,21);
(-1338515322635261797,21);
(-1344757574236391754,21);
(-1350947745204537313,21);
(-1357085664109286723,21);
(-1363171161489781444,21);
(-1369204069858923284,21);
(-1375184223707665455,21);
(-1381111459509077027,21);
(-1386985615722325206,21);
(-1392806532796741310,21);
(-1398574053175672283,21);
(-1404288021300243534,21);
(-1409948283613201778,21);
(-1415554688562544513,21);
(-1421107086605121741,21);
(-1426605330210123411,21);
(-1432049273862616087,21);
(-1437438774066871231,21);
(-1442773689349650121,21);
(-1448053880263489848,21);
(-1453279209389847938,21);
(-1458449541342132262,21);
(-1463564742768800123,21);
(-1468624682356246998,21);
(-1473629230831620049,21);
(-1478578260965763679,21);
(-1483471647575747244,21);
(-1488309267527605914,21);
(-1493090999738954467,21);
(-1497816725181360829,21);
(-1502486326882822602,21);
(-1507099689930188526,21);
(-1511656701471278527,21);
(-1516157250717215616,21);
(-1520601228944444680,21);
(-1524988529496873555,21);
(-1529319047787796844,21);
(-1533592681301766160,21);
(-1537809329596500707,21);
(-1541968894304579507,21);
(-1546071279135102393,21);
(-1550116389875363151,21);
(-1554104134392332278,21);
(-1558034422634074897,21);
(-1561907166631258453,21);
(-1565722280498305433,21);
(-1569479680434705902,21)].
Definition mid_195 : list (Z * Z) := [
(-1573179284726227475,21);
(-1576821013745869846,21);
(-1580404789954990407,21);
(-1583930537904190260,21);
(-1587398184234161411,21);
(-1590807657676523990,21);
(-1594158889054514503,21);
(-1597451811283603831,21);
(-1600686359372108496,21);
(-1603862470421668152,21);
(-1606980083627626349,21);
(-1610039140279440149,21);
(-1613039583760916048,21);
(-1615981359550417709,21);
(-1618864415220959418,21);
(-1621688700440316461,21);
(-1624454166970960931,21);
(-1627160768669963942,21);
(-1629808461488854677,21);
(-1632397203473363650,21);
(-1634926954763088339,21);
(-1637397677591147325,21);
(-1639809336283681558,21);
(-1642161897259317247,21);
(-1644455329028619633,21);
(-1646689602193324078,21);
(-1648864689445633715,21);
(-1650980565567420613,21);
(-1653037207429252156,21);
(-1655034593989486392,21);
(-1656972706293211896,21);
(-1658851527471104587,21);
(-1660671042738278043,21);
(-1662431239393022137,21);
(-1664132106815427621,21);
(-1665773636466051470,21);
(-1667355821884381655,21);
(-1668878658687322075,21);
(-1670342144567574065,21);
(-1671746279291941350,21);
(-1673091064699571903,21);
(-1674376504700115240,21);
(-1675602605271842190,21);
(-1676769374459654953,21);
(-1677876822373049887,21);
(-1678924961183999622,21);
(-1679913805124774902,21);
(-1680843370485673180,21);
(-1681713675612718376,21);
(-1682524740905244186,21);
(-1683276588813427963,21);
(-1683969243835777094,21);
(-1684602732516499602,21);
(-1685177083442842639,21);
(-1685692327242351842,21);
(-1686148496580050461,21);
(-1686545626155542578,21);
(-1686883752700112874,21);
(-1687162914973646408,21);
(-1687383153761579406,21);
(-1687544511871735993,21);
(-1687647034131086647,21);
(-1687690767382484316,21);
(-1687675760481275634,21)].
Definition mid_196 : list (Z * Z) := [
(-1687602064291896745,21);
(-1687469731684360921,21);
(-1687278817530703029,21);
(-1687029378701349622,21);
(-1686721474061425932,21);
(-1686355164466978940,21);
(-1685930512761157083,21);
(-1685447583770317750,21);
(-1684906444300063658,21);
(-1684307163131196824,21);
(-1683649811015649990,21);
(-1682934460672305286,21);
(-1682161186782782326,21);
(-1681330065987139992,21);
(-1680441176879531604,21);
(-1679494600003761861,21);
(-1678490417848838793,21);
(-1677428714844378908,21);
(-1676309577356031649,21);
(-1675133093680792381,21);
(-1673899354042236677,21);
(-1672608450585758499,21);
(-1671260477373677413,21);
(-1669855530380292023,21);
(-1668393707486929721,21);
(-1666875108476854406,21);
(-1665299835030154474,21);
(-1663667990718580274,21);
(-1661979681000284219,21);
(-1660235013214516860,21);
(-1658434096576280690,21);
(-1656577042170873136,21);
(-1654663962948419798,21);
(-1652694973718329616,21);
(-1650670191143674588,21);
(-1648589733735517223,21);
(-1646453721847202000,21);
(-1644262277668552498,21);
(-1642015525220020178,21);
(-1639713590346779815,21);
(-1637356600712788724,21);
(-1634944685794713056,21);
(-1632477976875888791,21);
(-1629956607040169547,21);
(-1627380711165702818,21);
(-1624750425918715119,21);
(-1622065889747170480,21);
(-1619327242874395775,21);
(-1616534627292671566,21);
(-1613688186756760722,21);
(-1610788066777304106,21);
(-1607834414614307773,21);
(-1604827379270428291,21);
(-1601767111484291885,21);
(-1598653763723746363,21);
(-1595487490179007227,21);
(-1592268446755808111,21);
(-1588996791068482926,21);
(-1585672682432970153,21);
(-1582296281859765959,21);
(-1578867752046892933,21);
(-1575387257372691009,21);
(-1571854963888673004,21);
(-1568271039312245938,21)].
Definition mid_197 : list (Z * Z) := [
(-1564635653019464442,21);
(-1560948976037609612,21);
(-1557211181037838552,21);
(-1553422442327742192,21);
(-1549582935843788183,21);
(-1545692839143811281,21);
(-1541752331399407882,21);
(-1537761593388259872,21);
(-1533720807486427468,21);
(-1529630157660655720,21);
(-1525489829460456147,21);
(-1521300010010389172,21);
(-1517060888002091327,21);
(-1512772653686288811,21);
(-1508435498864910997,21);
(-1504049616882948293,21);
(-1499615202620405196,21);
(-1495132452484180261,21);
(-1490601564399833111,21);
(-1486022737803387650,21);
(-1481396173633066533,21);
(-1476722074320930677,21);
(-1472000643784531979,21);
(-1467232087418538075,21);
(-1462416612086208344,21);
(-1457554426110944067,21);
(-1452645739267712172,21);
(-1447690762774505192,21);
(-1442689709283650080,21);
(-1437642792873161917,21);
(-1432550229038060318,21);
(-1427412234681540342,21);
(-1422229028106228180,21);
(-1417000829005333855,21);
(-1411727858453740592,21);
(-1406410338899087261,21);
(-1401048494152860998,21);
(-1395642549381268232,21);
(-1390192731096331642,21);
(-1384699267146750771,21);
(-1379162386708698883,21);
(-1373582320276800451,21);
(-1367959299654865780,21);
(-1362293557946590719,21);
(-1356585329546417060,21);
(-1350834850130108213,21);
(-1345042356645433958,21);
(-1339208087302825060,21);
(-1333332281565880210,21);
(-1327415180141942137,21);
(-1321457024972643585,21);
(-1315458059224303231,21);
(-1309418527278399672,21);
(-1303338674722008539,21);
(-1297218748338105181,21);
(-1291058996095935212,21);
(-1284859667141304614,21);
(-1278621011786890008,21);
(-1272343281502401249,21);
(-1266026728904824043,21);
(-1259671607748635456,21);
(-1253278172915856144,21);
(-1246846680406198419,21);
(-1240377387327208257,21)].
Definition mid_198 : list (Z * Z) := [
(-1233870551884205195,21);
(-1227326433370356249,21);
(-1220745292156716648,21);
(-1214127389682039199,21);
(-1207472988442884199,21);
(-1200782351983445710,21);
(-1194055744885322767,21);
(-1187293432757577458,21);
(-1180495682226381446,21);
(-1173662760924865231,21);
(-1166794937482936194,21);
(-1159892481516928585,21);
(-1152955663619357812,21);
(-1145984755348658903,21);
(-1138980029218765802,21);
(-1131941758688785864,21);
(-1124870218152663071,21);
(-1117765682928690326,21);
(-1110628429249121930,21);
(-1103458734249698455,21);
(-1096256875959229294,21);
(-1089023133289001525,21);
(-1081757786022297194,21);
(-1074461114803908863,21);
(-1067133401129470192,21);
(-1059774927334928120,21);
(-1052385976585980135,21);
(-1044966832867350211,21);
(-1037517780972201358,21);
(-1030039106491528441,21);
(-1022531095803295986,21);
(-1014994036061961109,21);
(-1007428215187642544,21);
(-9998339218552925074,22);
(-9922114454841575969,22);
(-9845610762268218463,22);
(-9768831049584880862,22);
(-9691778232662328491,22);
(-9614455234380709986,22);
(-9536864984521881920,22);
(-9459010419661369141,22);
(-9380894483058657609,22);
(-9302520124549044141,22);
(-9223890300435129462,22);
(-9145007973376844323,22);
(-9065876112282719203,22);
(-8986497692201181114,22);
(-8906875694210047382,22);
(-8827013105307699933,22);
(-8746912918303075641,22);
(-8666578131706672563,22);
(-8586011749619550408,22);
(-8505216781623951882,22);
(-8424196242673797188,22);
(-8342953152983453554,22);
(-8261490537917942417,22);
(-8179811427883309236,22);
(-8097918858215022225,22);
(-8015815869068038590,22);
(-7933505505307068091,22);
(-7850990816393778066,22);
(-7768274856278670291,22);
(-7685360683289115414,22);
(-7602251360017354877,22)].
Definition mid_199 : list (Z * Z) := [
(-7518949953212293201,22);
(-7435459533666263906,22);
(-7351783176104986252,22);
(-7267923959077086113,22);
(-7183884964841890817,22);
(-7099669279258967371,22);
(-7015279991677578295,22);
(-6930720194824361528,22);
(-6845992984692816615,22);
(-6761101460432679226,22);
(-6676048724237571789,22);
(-6590837881234632789,22);
(-6505472039372838531,22);
(-6419954309312617255,22);
(-6334287804313536640,22);
(-6248475640123590498,22);
(-6162520934868660023,22);
(-6076426808940156837,22);
(-5990196384884407263,22);
(-5903832787292164538,22);
(-5817339142686288713,22);
(-5730718579411211164,22);
(-5643974227522754713,22);
(-5557109218674858350,22);
(-5470126686011248093,22);
(-5383029764053267599,22);
(-5295821588587784666,22);
(-5208505296559009547,22);
(-5121084025955464697,22);
(-5033560915700088963,22);
(-4945939105540206240,22);
(-4858221735935694895,22);
(-4770411947949065932,22);
(-4682512883135697820,22);
(-4594527683432175595,22);
(-4506459491046668265,22);
(-4418311448349313258,22);
(-4330086697760940958,22);
(-4241788381643801223,22);
(-4153419642191290805,22);
(-4064983621318995371,22);
(-3976483460553640096,22);
(-3887922300924204861,22);
(-3799303282853054640,22);
(-3710629546045264679,22);
(-3621904229380032772,22);
(-3533130470802178812,22);
(-3444311407211904743,22);
(-3355450174356526668,22);
(-3266549906722380440,22);
(-3177613737424974630,22);
(-3088644798101176383,22);
(-2999646218801749089,22);
(-2910621127880838577,22);
(-2821572651890765383,22);
(-2732503915472697599,22);
(-2643418041248705541,22);
(-2554318149714932592,22);
(-2465207359133792984,22);
(-2376088785427645444,22);
(-2286965542070517178,22);
(-2197840739981896238,22);
(-2108717487420765666,22);
(-2019598889877818079,22)].
Definition mid_200 : list (Z * Z) := [
(-1930488049969875520,22);
(-1841388067334424504,22);
(-1752302038522455098,22);
(-1663233056893448629,22);
(-1574184212510731842,22);
(-1485158592033871457,22);
(-1396159278616411687,22);
(-1307189351799714031,22);
(-1218251887407079516,22);
(-1129349957442123581,22);
(-1040486629982233154,22);
(-9516649690754836919,23);
(-8628880346375612342,23);
(-7741588823469970312,23);
(-6854805635425640709,23);
(-5968561251209189079,23);
(-5082886094325584373,23);
(-4197810541799623538,23);
(-3313364923159705430,23);
(-2429579519405073357,23);
(-1546484561996956149,23);
(-6641102318394703775,24);
(2175133417239181911,24);
(1098356081932656723,23);
(1978387965609399896,23);
(2857579024157589487,23);
(3735899344575398207,23);
(4613319070447661108,23);
(5489808402935040144,23);
(6365337601779317775,23);
(7239876986286759527,23);
(8113396936306343534,23);
(8985867893236808171,23);
(9857260360979877188,23);
(1072754490693069601,22);
(1159669216296498696,22);
(1246467282638319559,22);
(1333145766090209922,22);
(1419701749761142974,22);
(1506132323592958018,22);
(1592434584457509184,22);
(1678605636251562130,22);
(1764642589991399346,22);
(1850542563908954467,22);
(1936302683545738338,22);
(2021920081846413782,22);
(2107391899253936523,22);
(2192715283802431183,22);
(2277887391209755866,22);
(2362905384971565365,22);
(2447766436452975848,22);
(2532467724981062214,22);
(2617006437935804220,22);
(2701379770842724242,22);
(2785584927463274495,22);
(2869619119884903881,22);
(2953479568612558687,22);
(3037163502657987233,22);
(3120668159628676975,22);
(3203990785818209750,22);
(3287128636294461620,22);
(3370078974987135933,22);
(3452839074778038878,22);
(3535406217586018049,22)].
Definition mid_201 : list (Z * Z) := [
(3617777694455424670,22);
(3699950805644150811,22);
(3781922860707375876,22);
(3863691178585886249,22);
(3945253087690807326,22);
(4026605925988248802,22);
(4107747041085313888,22);
(4188673790313878322,22);
(4269383540813956302,22);
(4349873669618451485,22);
(4430141563735710310,22);
(4510184620231619951,22);
(4590000246313102731,22);
(4669585859409160775,22);
(4748938887252755498,22);
(4828056767960925270,22);
(4906936950116624245,22);
(4985576892848198180,22);
(5063974065908500828,22);
(5142125949755298924,22);
(5220030035629505492,22);
(5297683825632913896,22);
(5375084832807306649,22);
(5452230581211314504,22);
(5529118605996566479,22);
(5605746453486456062,22);
(5682111681249677219,22);
(5758211858176949050,22);
(5834044564557391323,22);
(5909607392150700899,22);
(5984897944263479564,22);
(6059913835822169394,22);
(6134652693445843919,22);
(6209112155520156136,22);
(6283289872268973909,22);
(6357183505825825644,22);
(6430790730306304393,22);
(6504109231878409808,22);
(6577136708832383768,22);
(6649870871651810192,22);
(6722309443082358877,22);
(6794450158200260456,22);
(6866290764481879647,22);
(6937829021870829541,22);
(7009062702845844824,22);
(7079989592487035202,22);
(7150607488543382411,22);
(7220914201498112184,22);
(7290907554633709519,22);
(7360585384097854435,22);
(7429945538967281478,22);
(7498985881311290118,22);
(7567704286256091064,22);
(7636098642047234623,22);
(7704166850111276868,22);
(7771906825119581684,22);
(7839316495047332807,22);
(7906393801235557777,22);
(7973136698452215143,22);
(8039543154949979186,22);
(8105611152527244720,22);
(8171338686586189374,22);
(8236723766190512776,22);
(8301764414124033348,22)].
Definition mid_202 : list (Z * Z) := [
(8366458666947349790,22);
(8430804575053986493,22);
(8494800202727394384,22);
(8558443628196018638,22);
(8621732943687790678,22);
(8684666255485545003,22);
(8747241683980334827,22);
(8809457363725042628,22);
(8871311443486598570,22);
(8932802086299247366,22);
(8993927469515809346,22);
(9054685784858287770,22);
(9115075238469614542,22);
(9175094050963154878,22);
(9234740457471753367,22);
(9294012707697772062,22);
(9352909065960940665,22);
(9411427811245662431,22);
(9469567237250022277,22);
(9527325652430538314,22);
(9584701380049278014,22);
(9641692758220411687,22);
(9698298139953369151,22);
(9754515893198953012,22);
(9810344400892657968,22);
(9865782060997816631,22);
(9920827286549035919,22);
(9975478505694190378,22);
(1002973416173564680,21);
(1008359271317221416,21);
(1013705263373931549,21);
(1019011241244850707,21);
(1024277055362774131,21);
(1029502557695969982,21);
(1034687601752027394,21);
(1039832042581570297,21);
(1044935736782055379,21);
(1049998542501388334,21);
(1055020319441472886,21);
(1060000928861834849,21);
(1064940233583064246,21);
(1069838097990195641,21);
(1074694388036153076,21);
(1079508971245021331,21);
(1084281716715261232,21);
(1089012495122965510,21);
(1093701178724963306,21);
(1098347641361844445,21);
(1102951758461111426,21);
(1107513407039978186,21);
(1112032465708343411,21);
(1116508814671708129,21);
(1120942335733794487,21);
(1125332912299417589,21);
(1129680429377082811,21);
(1133984773581581378,21);
(1138245833136584647,21);
(1142463497877127141,21);
(1146637659251979876,21);
(1150768210326108239,21);
(1154855045782940360,21);
(1158898061926596666,21);
(1162897156684146970,21);
(1166852229607708187,21)].
Definition mid_203 : list (Z * Z) := [
(1170763181876549423,21);
(1174629916299059582,21);
(1178452337314769838,21);
(1182230350996239278,21);
(1185963865050850777,21);
(1189652788822667369,21);
(1193297033294118611,21);
(1196896511087642938,21);
(1200451136467348221,21);
(1203960825340541800,21);
(1207425495259162058,21);
(1210845065421330352,21);
(1214219456672589390,21);
(1217548591507281678,21);
(1220832394069843200,21);
(1224070790155891300,21);
(1227263707213453302,21);
(1230411074344001706,21);
(1233512822303459242,21);
(1236568883503198074,21);
(1239579192010915615,21);
(1242543683551446598,21);
(1245462295507600943,21);
(1248334966920861553,21);
(1251161638492013150,21);
(1253942252581809061,21);
(1256676753211479055,21);
(1259365086063228079,21);
(1262007198480642831,21);
(1264603039469102677,21);
(1267152559696074115,21);
(1269655711491328486,21);
(1272112448847195461,21);
(1274522727418666472,21);
(1276886504523458031,21);
(1279203739142069189,21);
(1281474391917721261,21);
(1283698425156232052,21);
(1285875802825937799,21);
(1288006490557389375,21);
(1290090455643119619,21);
(1292127667037360579,21);
(1294118095355558003,21);
(1296061712873987967,21);
(1297958493529267465,21);
(1299808412917737282,21);
(1301611448294881295,21);
(1303367578574648198,21);
(1305076784328686266,21);
(1306739047785595480,21);
(1308354352830043248,21);
(1309922685001867551,21);
(1311444031495120682,21);
(1312918381157037731,21);
(1314345724486955204,21);
(1315726053635197330,21);
(1317059362401852649,21);
(1318345646235552547,21);
(1319584902232137473,21);
(1320777129133317946,21);
(1321922327325251653,21);
(1323020498837053317,21);
(1324071647339277466,21);
(1325075778142325092,21)].
Definition mid_204 : list (Z * Z) := [
(1326032898194792189,21);
(1326943016081785125,21);
(1327806142023155341,21);
(1328622287871674204,21);
(1329391467111203312,21);
(1330113694854723411,21);
(1330788987842383914,21);
(1331417364439478699,21);
(1331998844634317818,21);
(1332533450036127182,21);
(1333021203872819874,21);
(1333462130988752716,21);
(1333856257842414537,21);
(1334203612504068683,21);
(1334504224653327003,21);
(1334758125576679172,21);
(1334965348164972570,21);
(1335125926910825812,21);
(1335239897905995433,21);
(1335307298838693361,21);
(1335328168990832171,21);
(1335302549235241722,21);
(1335230482032818576,21);
(1335112011429622500,21);
(1334947183053914214,21);
(1334736044113169927,21);
(1334478643390998084,21);
(1334175031244028142,21);
(1333825259598761396,21);
(1333429381948338533,21);
(1332987453349282047,21);
(1332499530418163177,21);
(1331965671328227008,21);
(1331385935805979182,21);
(1330760385127708213,21);
(1330089082115939710,21);
(1329372091135884318,21);
(1328609478091786556,21);
(1327801310423250020,21);
(1326947657101516407,21);
(1326048588625663429,21);
(1325104177018795147,21);
(1324114495824145997,21);
(1323079620101151425,21);
(1321999626421471253,21);
(1320874592864949284,21);
(1319704599015543650,21);
(1318489725957187322,21);
(1317230056269622388,21);
(1315925674024157575,21);
(1314576664779401691,21);
(1313183115576943951,21);
(1311745114936967074,21);
(1310262752853837403,21);
(1308736120791639942,21);
(1307165311679652680,21);
(1305550419907783831,21);
(1303891541321978292,21);
(1302188773219540175,21);
(1300442214344430187,21);
(1298651964882541112,21);
(1296818126456863139,21);
(1294940802122661761,21);
(1293020096362596481,21)].
Definition mid_205 : list (Z * Z) := [
(1291056115081764709,21);
(1289048965602741965,21);
(1286998756660528206,21);
(1284905598397524055,21);
(1282769602358364370,21);
(1280590881484785191,21);
(1278369550110422829,21);
(1276105723955552659,21);
(1273799520121794314,21);
(1271451057086795625,21);
(1269060454698826140,21);
(1266627834171363482,21);
(1264153318077657811,21);
(1261637030345153605,21);
(1259079096250011187,21);
(1256479642411477762,21);
(1253838796786223113,21);
(1251156688662736442,21);
(1248433448655534130,21);
(1245669208699429296,21);
(1242864102043738901,21);
(1240018263246424075,21);
(1237131828168194000,21);
(1234204933966629326,21);
(1231237719090155303,21);
(1228230323272079538,21);
(1225182887524551255,21);
(1222095554132434682,21);
(1218968466647229716,21);
(1215801769880885683,21);
(1212595609899620947,21);
(1209350134017658394,21);
(1206065490790956575,21);
(1202741830010919380,21);
(1199379302698000980,21);
(1195978061095338742,21);
(1192538258662336707,21);
(1189060050068172945,21);
(1185543591185306495,21);
(1181989039082974096,21);
(1178396552020560080,21);
(1174766289441008535,21);
(1171098411964224427,21);
(1167393081380289953,21);
(1163650460642861543,21);
(1159870713862364965,21);
(1156054006299164424,21);
(1152200504356851347,21);
(1148310375575298985,21);
(1144383788623803532,21);
(1140420913294190120,21);
(1136421920493817543,21);
(1132386982238607056,21);
(1128316271646049272,21);
(1124209962928106104,21);
(1120068231384145890,21);
(1115891253393859646,21);
(1111679206410058282,21);
(1107432268951529224,21);
(1103150620595808474,21);
(1098834441971982805,21);
(1094483914753358392,21);
(1090099221650178869,21);
(1085680546402347521,21)].
Definition mid_206 : list (Z * Z) := [
(1081228073771984015,21);
(1076741989536078277,21);
(1072222480479102314,21);
(1067669734385496465,21);
(1063083940032221808,21);
(1058465287181312338,21);
(1053813966572214860,21);
(1049130169914367847,21);
(1044414089879560628,21);
(1039665920094249001,21);
(1034885855132055155,21);
(1030074090505983531,21);
(1025230822660772208,21);
(1020356248965206781,21);
(1015450567704311068,21);
(1010513978071613493,21);
(1005546680161382034,21);
(1000548874960741855,21);
(9955207643418668810,22);
(9904625510541418838,22);
(9853744387162107279,22);
(9802566318081050618,22);
(9751093356632819370,22);
(9699327564607153123,22);
(9647271012168377215,22);
(9594925777775743141,22);
(9542293948103555386,22);
(9489377617959874689,22);
(9436178890206282747,22);
(9382699875677296721,22);
(9328942693098521725,22);
(9274909469005708637,22);
(9220602337663724073,22);
(9166023440983521106,22);
(9111174928441763020,22);
(9056058956998054230,22);
(9000677691011814505,22);
(8945033302161382307,22);
(8889127969360583262,22);
(8832963878675109985,22);
(8776543223241176561,22);
(8719868203180868374,22);
(8662941025519472777,22);
(8605763904102082260,22);
(8548339059509340015,22);
(8490668718973875054,22);
(8432755116296690705,22);
(8374600491762256406,22);
(8316207092054559010,22);
(8257577170173019659,22);
(8198712985347126952,22);
(8139616802952159749,22);
(8080290894424101145,22);
(8020737537175063117,22);
(7960959014507400363,22);
(7900957615528756556,22);
(7840735635067089997,22);
(7780295373584304990,22);
(7719639137090982591,22);
(7658769237061030044,22);
(7597687990344968462,22);
(7536397719084299285,22);
(7474900750625995422,22);
(7413199417434725332,22)].
Definition mid_207 : list (Z * Z) := [
(7351296057008325363,22);
(7289193011790576779,22);
(7226892629083808217,22);
(7164397260964157702,22);
(7101709264193303405,22);
(7038831000132227296,22);
(6975764834654804222,22);
(6912513138059971779,22);
(6849078284985137249,22);
(6785462654319569364,22);
(6721668629116212554,22);
(6657698596505078710,22);
(6593554947606233450,22);
(6529240077441652657,22);
(6464756384848308491,22);
(6400106272390439005,22);
(6335292146272634159,22);
(6270316416251297707,22);
(6205181495547575999,22);
(6139889800760048267,22);
(6074443751776164658,22);
(6008845771684934341,22);
(5943098286689637482,22);
(5877203726019104976,22);
(5811164521840289469,22);
(5744983109171132368,22);
(5678661925790867791,22);
(5612203412154260010,22);
(5545610011302659842,22);
(5478884168775232343,22);
(5412028332523002340,22);
(5345044952819250550,22);
(5277936482172163740,22);
(5210705375237395997,22);
(5143354088729195587,22);
(5075885081332942366,22);
(5008300813617724227,22);
(4940603747947466123,22);
(4872796348393572115,22);
(4804881080647489876,22);
(4736860411931917252,22);
(4668736810913507178,22);
(4600512747615535195,22);
(4532190693329189485,22);
(4463773120526464983,22);
(4395262502772244884,22);
(4326661314637179575,22);
(4257972031609243927,22);
(4189197130006590752,22);
(4120339086890591825,22);
(4051400379977358312,22);
(3982383487550915152,22);
(3913290888376291950,22);
(3844125061611313918,22);
(3774888486719866240,22);
(3705583643385449008,22);
(3636213011422263970,22);
(3566779070690375168,22);
(3497284301007847905,22);
(3427731182062867653,22);
(3358122193329186921,22);
(3288459813977606650,22);
(3218746522790085179,22);
(3148984798073750169,22)].
Definition mid_208 : list (Z * Z) := [
(3079177117573507027,22);
(3009325958386286108,22);
(2939433796875278522,22);
(2869503108582935422,22);
(2799536368145437459,22);
(2729536049207351264,22);
(2659504624334856418,22);
(2589444564930812841,22);
(2519358341148838858,22);
(2449248421808643142,22);
(2379117274309715442,22);
(2308967364546693219,22);
(2238801156824832641,22);
(2168621113774124045,22);
(2098429696265062441,22);
(2028229363324506648,22);
(1958022572050234131,22);
(1887811777527103718,22);
(1817599432743553594,22);
(1747387988505725719,22);
(1677179893355776070,22);
(1606977593487146953,22);
(1536783532659995166,22);
(1466600152119983363,22);
(1396429890513185628,22);
(1326275183803704918,22);
(1256138465191267736,22);
(1186022165027489838,22);
(1115928710733831813,22);
(1045860526719730703,22);
(9758200342993907388,23);
(9058096516102830521,23);
(8358317935318291549,23);
(7658888716027496336,23);
(6959832939401281858,23);
(6261174651586647153,23);
(5562937862886168798,23);
(4865146546956139223,23);
(4167824639996744931,23);
(3470996039954273271,23);
(2774684605708660799,23);
(2078914156278256393,23);
(1383708470026656214,23);
(6890912838566480117,24);
(-4913707578592772503,26);
(-6982828526621039276,24);
(-1390992543612590632,23);
(-2083019217266539693,23);
(-2774339355856376133,23);
(-3464929487811433068,23);
(-4154766188516390599,23);
(-4843826081099238378,23);
(-5532085837216674034,23);
(-6219522177805544383,23);
(-6906111873871813929,23);
(-7591831747252026480,23);
(-8276658671374057961,23);
(-8960569572030233879,23);
(-9643541428133037209,23);
(-1032555127246812069,22);
(-1100657619245988365,22);
(-1168659333091944143,22);
(-1236557988678968500,22);
(-1304351311590309090,22)].
Definition mid_209 : list (Z * Z) := [
(-1372037033171992601,22);
(-1439612890607381678,22);
(-1507076626990466858,22);
(-1574425991400530691,22);
(-1641658738975048412,22);
(-1708772630982331113,22);
(-1775765434895319522,22);
(-1842634924463679115,22);
(-1909378879785556676,22);
(-1975995087380538978,22);
(-2042481340260857484,22);
(-2108835438002127391,22);
(-2175055186816232851,22);
(-2241138399620029608,22);
(-2307082896106800701,22);
(-2372886502817431078,22);
(-2438547053208198700,22);
(-2504062387722173311,22);
(-2569430353857779493,22);
(-2634648806237349411,22);
(-2699715606676703116,22);
(-2764628624253014717,22);
(-2829385735372370652,22);
(-2893984823838406184,22);
(-2958423780919223448,22);
(-3022700505413981518,22);
(-3086812903720562011,22);
(-3150758889901330824,22);
(-3214536385749574253,22);
(-3278143320854560333,22);
(-3341577632667929419,22);
(-3404837266568277402,22);
(-3467920175925417992,22);
(-3530824322165747103,22);
(-3593547674835782520,22);
(-3656088211665443899,22);
(-3718443918632335660,22);
(-3780612790024309245,22);
(-3842592828501668130,22);
(-3904382045160389829,22);
(-3965978459593645688,22);
(-4027380099952789427,22);
(-4088585003010300500,22);
(-4149591214218714815,22);
(-4210396787772009014,22);
(-4270999786666738627,22);
(-4331398282759865628,22);
(-4391590356829823947,22);
(-4451574098635047963,22);
(-4511347606972195240,22);
(-4570908989735368902,22);
(-4630256363973645948,22);
(-4689387855948216866,22);
(-4748301601190486410,22);
(-4806995744558443975,22);
(-4865468440292690833,22);
(-4923717852073391642,22);
(-4981742153075393665,22);
(-5039539526023775317,22);
(-5097108163248212408,22);
(-5154446266738409600,22);
(-5211552048197731551,22);
(-5268423729096598793,22);
(-5325059540726688077,22)].
Definition mid_210 : list (Z * Z) := [
(-5381457724253405593,22);
(-5437616530768128167,22);
(-5493534221341171957,22);
(-5549209067073139186,22);
(-5604639349145882146,22);
(-5659823358874331318,22);
(-5714759397756634298,22);
(-5769445777523928270,22);
(-5823880820190882254,22);
(-5878062858104544756,22);
(-5931990233993579553,22);
(-5985661301016203693,22);
(-6039074422809192350,22);
(-6092227973535132689,22);
(-6145120337929350311,22);
(-6197749911347634737,22);
(-6250115099812222604,22);
(-6302214320057560742,22);
(-6354045999576603786,22);
(-6405608576665803135,22);
(-6456900500469258926,22);
(-6507920231024541665,22);
(-6558666239304962019,22);
(-6609137007263934200,22);
(-6659331027878739786,22);
(-6709246805191642835,22);
(-6758882854353462886,22);
(-6808237701664931855,22);
(-6857309884617664945,22);
(-6906097951935905683,22);
(-6954600463616633817,22);
(-7002815990969358780,22);
(-7050743116656409733,22);
(-7098380434731914801,22);
(-7145726550680096172,22);
(-7192780081454444498,22);
(-7239539655515225781,22);
(-7286003912866587107,22);
(-7332171505094309651,22);
(-7378041095401980916,22);
(-7423611358647298156,22);
(-7468880981377335306,22);
(-7513848661864549333,22);
(-7558513110141166797,22);
(-7602873048033330795,22);
(-7646927209195589431,22);
(-7690674339144149387,22);
(-7734113195289488716,22);
(-7777242546969679801,22);
(-7820061175482145637,22);
(-7862567874114939062,22);
(-7904761448179203768,22);
(-7946640715038440174,22);
(-7988204504139658890,22);
(-8029451657043791503,22);
(-8070381027453751898,22);
(-8110991481244583584,22);
(-8151281896491629434,22);
(-8191251163498158242,22);
(-8230898184823724198,22);
(-8270221875310948849,22);
(-8309221162111916003,22);
(-8347894984715085965,22);
(-8386242294970661527,22)].
Definition mid_211 : list (Z * Z) := [
(-8424262057115749049,22);
(-8461953247799755898,22);
(-8499314856108412027,22);
(-8536345883587958530,22);
(-8573045344268170670,22);
(-8609412264686017342,22);
(-8645445683908025997,22);
(-8681144653551939577,22);
(-8716508237809084689,22);
(-8751535513465194798,22);
(-8786225569920904895,22);
(-8820577509212572517,22);
(-8854590446031705567,22);
(-8888263507744094145,22);
(-8921595834409556036,22);
(-8954586578799268769,22);
(-8987234906414228158,22);
(-9019539995503202687,22);
(-9051501037078724414,22);
(-9083117234934525103,22);
(-9114387805661303783,22);
(-9145311978662115909,22);
(-9175888996168072610,22);
(-9206118113252717214,22);
(-9235998597846069996,22);
(-9265529730748901707,22);
(-9294710805645713635,22);
(-9323541129117488913,22);
(-9352020020654370092,22);
(-9380146812667520314,22);
(-9407920850500130130,22);
(-9435341492439080265,22);
(-9462408109724991089,22);
(-9489120086562512777,22);
(-9515476820129577891,22);
(-9541477720587016086,22);
(-9567122211086919814,22);
(-9592409727780684767,22);
(-9617339719827181508,22);
(-9641911649399729058,22);
(-9666124991692828881,22);
(-9689979234928709122,22);
(-9713473880363282303,22);
(-9736608442291015556,22);
(-9759382448050748452,22);
(-9781795438029358691,22);
(-9803846965666057709,22);
(-9825536597456499804,22);
(-9846863912954841036,22);
(-9867828504777338781,22);
(-9888429978604069102,22);
(-9908667953180511859,22);
(-9928542060319244227,22);
(-9948051944900465453,22);
(-9967197264872257063,22);
(-9985977691250706462,22);
(-1000439290811920871,21);
(-1002244261262728257,21);
(-1004012651498933885,21);
(-1005744433848253586,21);
(-1007439581944457197,21);
(-1009098070727040049,21);
(-1010719876440943675,21);
(-1012304976636147500,21)].
Definition mid_212 : list (Z * Z) := [
(-1013853350167237110,21);
(-1015364977192958216,21);
(-1016839839175703603,21);
(-1018277918880916393,21);
(-1019679200376535791,21);
(-1021043669032315349,21);
(-1022371311519126684,21);
(-1023662115808248027,21);
(-1024916071170539796,21);
(-1026133168175637732,21);
(-1027313398691084238,21);
(-1028456755881388806,21);
(-1029563234207076959,21);
(-1030632829423679120,21);
(-1031665538580666579,21);
(-1032661360020375963,21);
(-1033620293376845672,21);
(-1034542339574627372,21);
(-1035427500827582102,21);
(-1036275780637578364,21);
(-1037087183793175462,21);
(-1037861716368275629,21);
(-1038599385720700681,21);
(-1039300200490756105,21);
(-1039964170599718156,21);
(-1040591307248313162,21);
(-1041181622915129598,21);
(-1041735131354980725,21);
(-1042251847597259638,21);
(-1042731787944210830,21);
(-1043174969969173568,21);
(-1043581412514797734,21);
(-1043951135691195686,21);
(-1044284160874050767,21);
(-1044580510702703248,21);
(-1044840209078177519,21);
(-1045063281161165902,21);
(-1045249753369979946,21);
(-1045399653378462253,21);
(-1045513010113816770,21);
(-1045589853754478769,21);
(-1045630215727840623,21);
(-1045634128708029841,21);
(-1045601626613570445,21);
(-1045532744605060394,21);
(-1045427519082770939,21);
(-1045285987684217797,21);
(-1045108189281689385,21);
(-1044894163979737329,21);
(-1044643953112622510,21);
(-1044357599241716459,21);
(-1044035146152874540,21);
(-1043676638853751693,21);
(-1043282123571096258,21);
(-1042851647747981142,21);
(-1042385260041021541,21);
(-1041883010317524788,21);
(-1041344949652629141,21);
(-1040771130326378609,21);
(-1040161605820758743,21);
(-1039516430816723102,21);
(-1038835661191144693,21);
(-1038119354013733366,21);
(-1037367567543953217,21)].
Definition mid_213 : list (Z * Z) := [
(-1036580361227832205,21);
(-1035757795694809301,21);
(-1034899932754482091,21);
(-1034006835393333360,21);
(-1033078567771453758,21);
(-1032115195219177961,21);
(-1031116784233694367,21);
(-1030083402475655014,21);
(-1029015118765692688,21);
(-1027912003080923287,21);
(-1026774126551441464,21);
(-1025601561456726063,21);
(-1024394381222034495,21);
(-1023152660414776947,21);
(-1021876474740819911,21);
(-1020565901040774949,21);
(-1019221017286238689,21);
(-1017841902576026520,21);
(-1016428637132312180,21);
(-1014981302296791635,21);
(-1013499980526782118,21);
(-1011984755391283873,21);
(-1010435711567006338,21);
(-1008852934834389556,21);
(-1007236512073532127,21);
(-1005586531260141935,21);
(-1003903081461424412,21);
(-1002186252831929617,21);
(-1000436136609384559,21);
(-9986528251104910461,22);
(-9968364117266456919,22);
(-9949869909197100060,22);
(-9931046582176681660,22);
(-9911895102102659220,22);
(-9892416445446826790,22);
(-9872611599210667516,22);
(-9852481560881189756,22);
(-9832027338386147355,22);
(-9811249950048769874,22);
(-9790150424542468956,22);
(-9768729800845134866,22);
(-9746989128192940811,22);
(-9724929466033987871,22);
(-9702551883981759117,22);
(-9679857461767852733,22);
(-9656847289194843073,22);
(-9633522466088544327,22);
(-9609884102250294781,22);
(-9585933317408363956,22);
(-9561671241169576599,22);
(-9537099012970576706,22);
(-9512217782028455125,22);
(-9487028707291379325,22);
(-9461532957389022589,22);
(-9435731710582193066,22);
(-9409626154712719777,22);
(-9383217487152996014,22);
(-9356506914754482993,22);
(-9329495653797184943,22);
(-9302184929937970612,22);
(-9274575978158340747,22);
(-9246670042713208207,22);
(-9218468377077907588,22);
(-9189972243895846689,22)].
Definition mid_214 : list (Z * Z) := [
(-9161182914925853314,22);
(-9132101670988634120,22);
(-9102729801913593414,22);
(-9073068606485362470,22);
(-9043119392389385594,22);
(-9012883476158068882,22);
(-8982362183116377125,22);
(-8951556847326868011,22);
(-8920468811534831496,22);
(-8889099427113010673,22);
(-8857450054006482014,22);
(-8825522060676369018,22);
(-8793316824044129397,22);
(-8760835729435631925,22);
(-8728080170524128495,22);
(-8695051549273914628,22);
(-8661751275883468500,22);
(-8628180768727989301,22);
(-8594341454302085234,22);
(-8560234767162485346,22);
(-8525862149869356012,22);
(-8491225052929162386,22);
(-8456324934735877548,22);
(-8421163261512045264,22);
(-8385741507250963830,22);
(-8350061153656844612,22);
(-8314123690086001666,22);
(-8277930613487567571,22);
(-8241483428343486083,22);
(-8204783646608863673,22);
(-8167832787652278773,22);
(-8130632378194886482,22);
(-8093183952250334245,22);
(-8055489051064373962,22);
(-8017549223053490725,22);
(-7979366023744099675,22);
(-7940941015711598661,22);
(-7902275768518467886,22);
(-7863371858652950684,22);
(-7824230869467139072,22);
(-7784854391115291318,22);
(-7745244020491238784,22);
(-7705401361166203675,22);
(-7665328023326656911,22);
(-7625025623711080948,22);
(-7584495785547311570,22);
(-7543740138489842808,22);
(-7502760318556131154,22);
(-7461557968063408253,22);
(-7420134735565646475,22);
(-7378492275788789759,22);
(-7336632249568144195,22);
(-7294556323783818116,22);
(-7252266171296103655,22);
(-7209763470882260160,22);
(-7167049907171195357,22);
(-7124127170579132046,22);
(-7080996957245257444,22);
(-7037660968966224367,22);
(-6994120913131502424,22);
(-6950378502658434302,22);
(-6906435455926471321,22);
(-6862293496711998784,22);
(-6817954354123171093,22)].
Definition mid_215 : list (Z * Z) := [
(-6773419762533485931,22);
(-6728691461516917533,22);
(-6683771195780882635,22);
(-6638660715101387831,22);
(-6593361774256499682,22);
(-6547876132959252115,22);
(-6502205555792787278,22);
(-6456351812142635191,22);
(-6410316676130697758,22);
(-6364101926548730798,22);
(-6317709346790990150,22);
(-6271140724787720210,22);
(-6224397852938416947,22);
(-6177482528044181279,22);
(-6130396551240857410,22);
(-6083141727932062743,22);
(-6035719867721291891,22);
(-5988132784344822991,22);
(-5940382295604081922,22);
(-5892470223298478145,22);
(-5844398393157047931,22);
(-5796168634771106968,22);
(-5747782781526720834,22);
(-5699242670536212689,22);
(-5650550142570497135,22);
(-5601707041991507317,22);
(-5552715216683341577,22);
(-5503576517984547440,22);
(-5454292800620228875,22);
(-5404865922633174521,22);
(-5355297745315843513,22);
(-5305590133142541048,22);
(-5255744953699736715,22);
(-5205764077619130185,22);
(-5155649378508469355,22);
(-5105402732882350064,22);
(-5055026020095174447,22);
(-5004521122271284950,22);
(-4953889924236790782,22);
(-4903134313451270763,22);
(-4852256179938381681,22);
(-4801257416217534577,22);
(-4750139917235496768,22);
(-4698905580296915629,22);
(-4647556304995963442,22);
(-4596093993147826119,22);
(-4544520548719284988,22);
(-4492837877760317189,22);
(-4441047888335062353,22);
(-4389152490453525454,22);
(-4337153596001922786,22);
(-4285053118674351743,22);
(-4232852973904220996,22);
(-4180555078794770483,22);
(-4128161352050583981,22);
(-4075673713909169988,22);
(-4023094086071427500,22);
(-3970424391633220387,22);
(-3917666555017125778,22);
(-3864822501902346902,22);
(-3811894159157528327,22);
(-3758883454771375695,22);
(-3705792317783217996,22);
(-3652622678215956711,22)].
Definition mid_216 : list (Z * Z) := [
(-3599376467006085980,22);
(-3546055615935619345,22);
(-3492662057563908611,22);
(-3439197725158356280,22);
(-3385664552626355844,22);
(-3332064474447201177,22);
(-3278399425602990334,22);
(-3224671341510608664,22);
(-3170882157953855592,22);
(-3117033811014453034,22);
(-3063128237004334267,22);
(-3009167372397281181,22);
(-2955153153761375779,22);
(-2901087517690214049,22);
(-2846972400735334153,22);
(-2792809739338741643,22);
(-2738601469764329337,22);
(-2684349528030499036,22);
(-2630055849842917134,22);
(-2575722370526098209,22);
(-2521351024956329772,22);
(-2466943747494730371,22);
(-2412502471918466995,22);
(-2358029131355176286,22);
(-2303525658215004046,22);
(-2248993984122740948,22);
(-2194436039852368985,22);
(-2139853755259360903,22);
(-2085249059213123023,22);
(-2030623879531936332,22);
(-1975980142914925510,22);
(-1921319774876060560,22);
(-1866644699678138384,22);
(-1811956840265718913,22);
(-1757258118199292354,22);
(-1702550453589622888,22);
(-1647835765030968317,22);
(-1593115969535642237,22);
(-1538392982468665096,22);
(-1483668717481367665,22);
(-1428945086446425363,22);
(-1374223999392225001,22);
(-1319507364438163657,22);
(-1264797087728732712,22);
(-1210095073368948457,22);
(-1155403223359896954,22);
(-1100723437533229792,22);
(-1046057613486993143,22);
(-9914076465215889539,23);
(-9367754295746940827,23);
(-8821628531575050123,23);
(-8275718052912717714,23);
(-7730041714419935912,23);
(-7184618344584266648,23);
(-6639466745077478619,23);
(-6094605690113776166,23);
(-5550053925834408836,23);
(-5005830169662453858,23);
(-4461953109678957406,23);
(-3918441403999252718,23);
(-3375313680139212756,23);
(-2832588534394949684,23);
(-2290284531224215863,23);
(-1748420202617706522,23)].
Definition mid_217 : list (Z * Z) := [
(-1207014047483894625,23);
(-6660845310356076629,24);
(-1256500841665996954,24);
(4142708971569870839,24);
(9536600525112154351,24);
(1492499057619274568,23);
(2030769624967599987,23);
(2568453504408354536,23);
(3105532483760099782,23);
(3641988389418168801,23);
(4177803086951488985,23);
(4712958481697404487,23);
(5247436519366268352,23);
(5781219186632302208,23);
(6314288511721191828,23);
(6846626565015140385,23);
(7378215459624679388,23);
(7909037351983140118,23);
(8439074442438941083,23);
(8968308975821263722,23);
(9496723242034604481,23);
(1002429957663184478,22);
(1055102036138641974,22);
(1107686802487392895,22);
(1160182504303993719,22);
(1212587393976569491,22);
(1264899728744298352,22);
(1317117770753533778,22);
(1369239787113688423,22);
(1421264049954059868,22);
(1473188836479250561,22);
(1525012429024379188,22);
(1576733115111194098,22);
(1628349187502669388,22);
(1679858944258158266,22);
(1731260688787515884,22);
(1782552729906257849,22);
(1833733381889341807,22);
(1884800964524708860,22);
(1935753803167702394,22);
(1986590228794117541,22);
(2037308578053001560,22);
(2087907193320324008,22);
(2138384422751280010,22);
(2188738620332202132,22);
(2238968145934106143,22);
(2289071365362968448,22);
(2339046650412136428,22);
(2388892378914447931,22);
(2438606934791750038,22);
(2488188708107133486,22);
(2537636095115039341,22);
(2586947498311209276,22);
(2636121326483504570,22);
(2685155994761332710,22);
(2734049924664817052,22);
(2782801544154755221,22);
(2831409287681265646,22);
(2879871596232135922,22);
(2928186917381939342,22);
(2976353705339744127,22);
(3024370420997210258,22);
(3072235531975709452,22);
(3119947512674359647,22)].
Definition mid_218 : list (Z * Z) := [
(3167504844316666301,22);
(3214906014996939251,22);
(3262149519727448464,22);
(3309233860484240793,22);
(3356157546252652073,22);
(3402919093073620985,22);
(3449517024088623275,22);
(3495949869584225956,22);
(3542216167038053686,22);
(3588314461161693360,22);
(3634243303945546466,22);
(3680001254703288969,22);
(3725586880113943228,22);
(3770998754266320532,22);
(3816235458701503934,22);
(3861295582455114245,22);
(3906177722100302447,22);
(3950880481789426427,22);
(3995402473295382923,22);
(4039742316053696806,22);
(4083898637203266474,22);
(4127870071626776947,22);
(4171655261991858896,22);
(4215252858790878858,22);
(4258661520380436181,22);
(4301879913021596684,22);
(4344906710918574277,22);
(4387740596257891259,22);
(4430380259246505920,22);
(4472824398150707201,22);
(4515071719333702905,22);
(4557120937292936848,22);
(4598970774697981189,22);
(4640619962427209016,22);
(4682067239604121634,22);
(4723311353634274861,22);
(4764351060240935181,22);
(4805185123500354269,22);
(4845812315878257810,22);
(4886231418263460103,22);
(4926441220003196586,22);
(4966440518938045447,22);
(5006228121434661308,22);
(5045802842420517948,22);
(5085163505416884309,22);
(5124308942571550052,22);
(5163237994692042266,22);
(5201949511277739529,22);
(5240442350551527363,22);
(5278715379492098783,22);
(5316767473864941881,22);
(5354597518253069368,22);
(5392204406088238174,22);
(5429587039680883187,22);
(5466744330250291684,22);
(5503675197953786799,22);
(5540378571916648254,22);
(5576853390260723365,22);
(5613098600132774597,22);
(5649113157733260792,22);
(5684896028344019019,22);
(5720446186355427091,22);
(5755762615294334784,22);
(5790844307850486926,22)].
Definition mid_219 : list (Z * Z) := [
(5825690265902807707,22);
(5860299500546479719,22);
(5894671032117649668,22);
(5928803890219376581,22);
(5962697113747352342,22);
(5996349750913461396,22);
(6029760859271178193,22);
(6062929505739329643,22);
(6095854766625461840,22);
(6128535727649765154,22);
(6160971483967860908,22);
(6193161140193128352,22);
(6225103810419527119,22);
(6256798618243304038,22);
(6288244696784329145,22);
(6319441188707793826,22);
(6350387246244833424,22);
(6381082031213075037,22);
(6411524715036643219,22);
(6441714478766291446,22);
(6471650513098705249,22);
(6501332018395310957,22);
(6530758204701513775,22);
(6559928291764805051,22);
(6588841509052539933,22);
(6617497095770068487,22);
(6645894300877820552,22);
(6674032383107944989,22);
(6701910610981423816,22);
(6729528262823973117,22);
(6756884626781701087,22);
(6783979000837320108,22);
(6810810692824369314,22);
(6837379020442409683,22);
(6863683311271892790,22);
(6889722902787230856,22);
(6915497142371327234,22);
(6941005387328573820,22);
(6966247004897616448,22);
(6991221372264366405,22);
(7015927876574044831,22);
(7040365914942878006,22);
(7064534894469953101,22);
(7088434232248260781,22);
(7112063355375188110,22);
(7135421700963402855,22);
(7158508716150683952,22);
(7181323858109666313,22);
(7203866594057007754,22);
(7226136401262718556,22);
(7248132767058608483,22);
(7269855188846295786,22);
(7291303174105546884,22);
(7312476240401567622,22);
(7333373915392041916,22);
(7353995736834247369,22);
(7374341252591368580,22);
(7394410020638285700,22);
(7414201609067992910,22);
(7433715596096182425,22);
(7452951570066621055,22);
(7471909129456056221,22);
(7490587882877828511,22);
(7508987449086383052,22)].
Definition mid_220 : list (Z * Z) := [
(7527107456980605595,22);
(7544947545606843107,22);
(7562507364162082647,22);
(7579786571996227108,22);
(7596784838614114004,22);
(7613501843677586292,22);
(7629937277006503937,22);
(7646090838580184811,22);
(7661962238537797180,22);
(7677551197178618825,22);
(7692857444962511925,22);
(7707880722508854031,22);
(7722620780596120647,22);
(7737077380161091599,22);
(7751250292296649018,22);
(7765139298250676872,22);
(7778744189423480570,22);
(7792064767365317144,22);
(7805100843773641380,22);
(7817852240489829357,22);
(7830318789495419518,22);
(7842500332908374340,22);
(7854396722978802077,22);
(7866007822084016042,22);
(7877333502723910495,22);
(7888373647515349888,22);
(7899128149186553788,22);
(7909596910571057866,22);
(7919779844601335540,22);
(7929676874301979424,22);
(7939287932782540178,22);
(7948612963230295954,22);
(7957651918902326890,22);
(7966404763117262153,22);
(7974871469247019409,22);
(7983052020707870995,22);
(7990946410951118694,22);
(7998554643453875852,22);
(8005876731708947433,22);
(8012912699214730676,22);
(8019662579464677732,22);
(8026126415936325710,22);
(8032304262080092530,22);
(8038196181307850517,22);
(8043802246980747556,22);
(8049122542397163776,22);
(8054157160780107700,22);
(8058906205264146187,22);
(8063369788882313776,22);
(8067548034552441977,22);
(8071441075063179576,22);
(8075049053059850292,22);
(8078372121029805215,22);
(8081410441287377325,22);
(8084164185958818676,22);
(8086633536966562116,22);
(8088818686013411448,22);
(8090719834566152636,22);
(8092337193839120547,22);
(8093670984777242032,22);
(8094721438038737478,22);
(8095488793977691179,22);
(8095973302626120792,22);
(8096175223675689024,22)].
Definition mid_221 : list (Z * Z) := [
(8096094826459341578,22);
(8095732389932340121,22);
(8095088202653166233,22);
(8094162562763975409,22);
(8092955777970859159,22);
(8091468165523677761,22);
(8089700052195641488,22);
(8087651774262582822,22);
(8085323677481871980,22);
(8082716117071006090,22);
(8079829457685973933,22);
(8076664073399224958,22);
(8073220347677394345,22);
(8069498673358594396,22);
(8065499452629619178,22);
(8061223097002577801,22);
(8056670027291479991,22);
(8051840673588278466,22);
(8046735475238796405,22);
(8041354880818228808,22);
(8035699348106476901,22);
(8029769344062965370,22);
(8023565344801446590,22);
(8017087835564225880,22);
(8010337310696298953,22);
(8003314273619051332,22);
(7996019236803823338,22);
(7988452721744976337,22);
(7980615258932864664,22);
(7972507387826368447,22);
(7964129656825282228,22);
(7955482623242176666,22);
(7946566853274374077,22);
(7937382921975122754,22);
(7927931413224972943,22);
(7918212919702607468,22);
(7908228042855317821,22);
(7897977392869490014,22);
(7887461588640586269,22);
(7876681257742840486,22);
(7865637036398866969,22);
(7854329569448789943,22);
(7842759510319227776,22);
(7830927520991912919,22);
(7818834271972155718,22);
(7806480442256898394,22);
(7793866719302669282,22);
(7780993798993106640,22);
(7767862385606291633,22);
(7754473191781839549,22);
(7740826938487735138,22);
(7726924354986823172,22);
(7712766178803085425,22);
(7698353155687750679,22);
(7683686039584927685,22);
(7668765592597292331,22);
(7653592584951234880,22);
(7638167794961861923,22);
(7622492008997814022,22);
(7606566021445830723,22);
(7590390634674799505,22);
(7573966658999979271,22);
(7557294912646853047,22);
(7540376221714233671,22)].
Definition mid_222 : list (Z * Z) := [
(7523211420138068784,22);
(7505801349654176802,22);
(7488146859761091309,22);
(7470248807682772088,22);
(7452108058330804419,22);
(7433725484266520299,22);
(7415101965663034025,22);
(7396238390266588218,22);
(7377135653358222935,22);
(7357794657714921121,22);
(7338216313570454811,22);
(7318401538576178216,22);
(7298351257761545412,22);
(7278066403494536964,22);
(7257547915441482644,22);
(7236796740526988238,22);
(7215813832893810302,22);
(7194600153861954641,22);
(7173156671888024144,22);
(7151484362524373637,22);
(7129584208377604459,22);
(7107457199067274784,22);
(7085104331184505872,22);
(7062526608249720950,22);
(7039725040670914268,22);
(7016700645701501662,22);
(6993454447397392647,22);
(6969987476574989512,22);
(6946300770768122808,22);
(6922395374184635557,22);
(6898272337663859761,22);
(6873932718632741988,22);
(6849377581062314826,22);
(6824607995424156410,22);
(6799625038646101840,22);
(6774429794068226752,22);
(6749023351398709437,22);
(6723406806668944880,22);
(6697581262189100052,22);
(6671547826503297337,22);
(6645307614344314389,22);
(6618861746588575656,22);
(6592211350210664669,22);
(6565357558237893808,22);
(6538301509704408940,22);
(6511044349605316821,22);
(6483587228850827685,22);
(6455931304219723454,22);
(6428077738313162049,22);
(6400027699508201986,22);
(6371782361910900867,22);
(6343342905309513630,22);
(6314710515127771023,22);
(6285886382377061949,22);
(6256871703609873494,22);
(6227667680871986277,22);
(6198275521654534291,22);
(6168696438846962447,22);
(6138931650688516121,22);
(6108982380720437595,22);
(6078849857738000953,22);
(6048535315741740328,22);
(6018039993889274467,22);
(5987365136446873249,22)].
Definition mid_223 : list (Z * Z) := [
(5956511992740372600,22);
(5925481817106480805,22);
(5894275868844089158,22);
(5862895412164641521,22);
(5831341716143296442,22);
(5799616054669383446,22);
(5767719706397206282,22);
(5735653954696080716,22);
(5703420087600790831,22);
(5671019397761962923,22);
(5638453182395781289,22);
(5605722743234096495,22);
(5572829386474481604,22);
(5539774422729585842,22);
(5506559166976907841,22);
(5473184938508689245,22);
(5439653060880461719,22);
(5405964861861393750,22);
(5372121673383002454,22);
(5338124831487895761,22);
(5303975676279690937,22);
(5269675551871457527,22);
(5235225806334174378,22);
(5200627791646430251,22);
(5165882863642302968,22);
(5130992381960214344,22);
(5095957709991694043,22);
(5060780214829311858,22);
(5025461267215298447,22);
(4990002241489996946,22);
(4954404515539628275,22);
(4918669470744596378,22);
(4882798491927809186,22);
(4846792967302175582,22);
(4810654288418840172,22);
(4774383850114784873,22);
(4737983050461042544,22);
(4701453290709878448,22);
(4664795975242650968,22);
(4628012511517678833,22);
(4591104310017354818,22);
(4554072784195751134,22);
(4516919350426390695,22);
(4479645427949119590,22);
(4442252438817632780,22);
(4404741807847180855,22);
(4367114962560791447,22);
(4329373333137633549,22);
(4291518352359646044,22);
(4253551455558110929,22);
(4215474080561872907,22);
(4177287667643441523,22);
(4138993659466307074,22);
(4100593501032241879,22);
(4062088639627654493,22);
(4023480524770779851,22);
(3984770608158919817,22);
(3945960343614649413,22);
(3907051187033032435,22);
(3868044596328656546,22);
(3828942031381954978,22);
(3789744953986290410,22);
(3750454827794597588,22);
(3711073118266491064,22)].
Definition mid_224 : list (Z * Z) := [
(3671601292614462206,22);
(3632040819750935977,22);
(3592393170235192194,22);
(3552659816219668788,22);
(3512842231396859751,22);
(3472941890946343183,22);
(3432960271480985895,22);
(3392898850993909658,22);
(3352759108805616287,22);
(3312542525509678875,22);
(3272250582920719600,22);
(3231884764020604025,22);
(3191446552904624555,22);
(3150937434729509691,22);
(3110358895659198200,22);
(3069712422812003231,22);
(3028999504207764508,22);
(2988221628714084915,22);
(2947380285993509244,22);
(2906476966450733312,22);
(2865513161178917523,22);
(2824490361906951269,22);
(2783410060946716800,22);
(2742273751139537763,22);
(2701082925803509208,22);
(2659839078680851978,22);
(2618543703884510334,22);
(2577198295845655970,22);
(2535804349260690040,22);
(2494363359038927696,22);
(2452876820249253170,22);
(2411346228067783439,22);
(2369773077725528365,22);
(2328158864455248255,22);
(2286505083439224859,22);
(2244813229757127511,22);
(2203084798332983715,22);
(2161321283883147469,22);
(2119524180864417481,22);
(2077694983420694426,22);
(2035835185332142427,22);
(1993946279962468919,22);
(1952029760206311837,22);
(1910087118438572409,22);
(1868119846461404178,22);
(1826129435452815311,22);
(1784117375915205046,22);
(1742085157623095390,22);
(1700034269571836702,22);
(1657966199926384830,22);
(1615882435969271606,22);
(1573784464049535398,22);
(1531673769531766865,22);
(1489551836744313089,22);
(1447420148928568089,22);
(1405280188187795496,22);
(1363133435436576270,22);
(1320981370349393394,22);
(1278825471310213494,22);
(1236667215362126729,22);
(1194508078156219339,22);
(1152349533901436213,22);
(1110193055314539801,22);
(1068040113569272828,22)].
Definition mid_225 : list (Z * Z) := [
(1025892178246517924,22);
(9837507172846837213,23);
(9416171969286832473,23);
(8994930816814143877,23);
(8573798342534791968,23);
(8152789155129717849,23);
(7731917844373348628,23);
(7311198980628809147,23);
(6890647114359636631,23);
(6470276775641560377,23);
(6050102473665496032,23);
(5630138696256780528,23);
(5210399909380643079,23);
(4790900556658911222,23);
(4371655058888034159,23);
(3952677813549303914,23);
(3533983194329480765,23);
(3115585550642686511,23);
(2697499207144599906,23);
(2279738463257082799,23);
(1862317592695097657,23);
(1445250842980009386,23);
(1028552434978355900,23);
(6122365624229527987,24);
(1963173914354139532,24);
(-2191909399307805455,24);
(-6342743221698878667,24);
(-1048918674786956803,23);
(-1463109946760408130,23);
(-1876834117012134975,23);
(-2290077194867067017,23);
(-2702825220511210672,23);
(-3115064265457150446,23);
(-3526780432998958143,23);
(-3937959858665561496,23);
(-4348588710681530083,23);
(-4758653190416223022,23);
(-5168139532837312094,23);
(-5577034006956731714,23);
(-5985322916284904076,23);
(-6392992599274387232,23);
(-6800029429761756587,23);
(-7206419817416877282,23);
(-7612150208181388072,23);
(-8017207084705626672,23);
(-8421576966792508904,23);
(-8825246411831133672,23);
(-9228202015227184116,23);
(-9630430410846711894,23);
(-1003191827143430040,22);
(-1043265230904824321,22);
(-1083261927549382646,22);
(-1123180596273612263,22);
(-1163019920333456850,22);
(-1202778587086088317,22);
(-1242455288031627035,22);
(-1282048718855528042,22);
(-1321557579469925879,22);
(-1360980574054779105,22);
(-1400316411099682427,22);
(-1439563803444644352,22);
(-1478721468320641497,22);
(-1517788127390868962,22);
(-1556762506790810815,22)].
Definition mid_226 : list (Z * Z) := [
(-1595643337168700345,22);
(-1634429353725202680,22);
(-1673119296253876124,22);
(-1711711909180511893,22);
(-1750205941602354584,22);
(-1788600147327902427,22);
(-1826893284915673743,22);
(-1865084117712798853,22);
(-1903171413894207207,22);
(-1941153946500767181,22);
(-1979030493477156982,22);
(-2016799837710877500,22);
(-2054460767068859580,22);
(-2092012074435604897,22);
(-2129452557751097797,22);
(-2166781020046869115,22);
(-2203996269483478397,22);
(-2241097119387793922,22);
(-2278082388288294596,22);
(-2314950899952372199,22);
(-2351701483422017356,22);
(-2388332973049388144,22);
(-2424844208532982604,22);
(-2461234034952754419,22);
(-2497501302805005523,22);
(-2533644868037883153,22);
(-2569663592085805431,22);
(-2605556341903700747,22);
(-2641321990001794921,22);
(-2676959414479296285,22);
(-2712467499058333919,22);
(-2747845133117211218,22);
(-2783091211724257933,22);
(-2818204635670651143,22);
(-2853184311503021548,22);
(-2888029151556634395,22);
(-2922738073987491076,22);
(-2957310002804216056,22);
(-2991743867900526020,22);
(-3026038605086632700,22);
(-3060193156120324790,22);
(-3094206468739132423,22);
(-3128077496690150321,22);
(-3161805199761264450,22);
(-3195388543812149895,22);
(-3228826500803346454,22);
(-3262118048827233213,22);
(-3295262172137374641,22);
(-3328257861177762070,22);
(-3361104112612581544,22);
(-3393799929354906694,22);
(-3426344320595245234,22);
(-3458736301830481197,22);
(-3490974894891895057,22);
(-3523059127972889490,22);
(-3554988035657231753,22);
(-3586760658946206988,22);
(-3618376045285989447,22);
(-3649833248594339346,22);
(-3681131329287763211,22);
(-3712269354307747233,22);
(-3743246397146759150,22);
(-3774061537874640981,22);
(-3804713863164073677,22)].
Definition mid_227 : list (Z * Z) := [
(-3835202466315781032,22);
(-3865526447284191119,22);
(-3895684912702074244,22);
(-3925676975904945627,22);
(-3955501756956266053,22);
(-3985158382670605311,22);
(-4014645986637956510,22);
(-4043963709247800492,22);
(-4073110697711497855,22);
(-4102086106086150078,22);
(-4130889095297162849,22);
(-4159518833160564914,22);
(-4187974494405718312,22);
(-4216255260697148247,22);
(-4244360320656046610,22);
(-4272288869882246592,22);
(-4300040110975179766,22);
(-4327613253554627717,22);
(-4355007514281856399,22);
(-4382222116879796927,22);
(-4409256292152973216,22);
(-4436109278007842154,22);
(-4462780319472062045,22);
(-4489268668714023426,22);
(-4515573585061591669,22);
(-4541694335021370004,22);
(-4567630192296945552,22);
(-4593380437806990086,22);
(-4618944359703641592,22);
(-4644321253389956669,22);
(-4669510421537198682,22);
(-4694511174102391528,22);
(-4719322828344936667,22);
(-4743944708843056673,22);
(-4768376147510778717,22);
(-4792616483613185499,22);
(-4816665063782572570,22);
(-4840521242034328099,22);
(-4864184379781392878,22);
(-4887653845849875001,22);
(-4910929016493441020,22);
(-4934009275407648561,22);
(-4956894013744314164,22);
(-4979582630125267478,22);
(-5002074530655732480,22);
(-5024369128937963488,22);
(-5046465846084096209,22);
(-5068364110728711472,22);
(-5090063359041649416,22);
(-5111563034739979080,22);
(-5132862589100021123,22);
(-5153961480968690745,22);
(-5174859176775289471,22);
(-5195555150542333078,22);
(-5216048883896219060,22);
(-5236339866078035038,22);
(-5256427593953671117,22);
(-5276311572023592881,22);
(-5295991312432845330,22);
(-5315466334980310879,22);
(-5334736167127590058,22);
(-5353800344008440579,22);
(-5372658408436644306,22);
(-5391309910914612565,22)].
Definition mid_228 : list (Z * Z) := [
(-5409754409641723662,22);
(-5427991470521338754,22);
(-5446020667168816271,22);
(-5463841580918508273,22);
(-5481453800830460819,22);
(-5498856923697329011,22);
(-5516050554050554774,22);
(-5533034304166338643,22);
(-5549807794071562762,22);
(-5566370651549240080,22);
(-5582722512143591673,22);
(-5598863019165212966,22);
(-5614791823695569921,22);
(-5630508584591426913,22);
(-5646012968488869129,22);
(-5661304649807269657,22);
(-5676383310752780619,22);
(-5691248641321425316,22);
(-5705900339302359507,22);
(-5720338110280472413,22);
(-5734561667638651610,22);
(-5748570732560228996,22);
(-5762365034030694907,22);
(-5775944308839210586,22);
(-5789308301580147744,22);
(-5802456764654073023,22);
(-5815389458268270572,22);
(-5828106150437761205,22);
(-5840606616984941359,22);
(-5852890641539828121,22);
(-5864958015539906361,22);
(-5876808538229068377,22);
(-5888442016657117334,22);
(-5899858265678480313,22);
(-5911057107950715367,22);
(-5922038373932919913,22);
(-5932801901883750974,22);
(-5943347537859077889,22);
(-5953675135709560196,22);
(-5963784557077862324,22);
(-5973675671395502901,22);
(-5983348355879607562,22);
(-5992802495529256281,22);
(-6002037983121684319,22);
(-6011054719207968187,22);
(-6019852612108830868,22);
(-6028431577909788928,22);
(-6036791540456271435,22);
(-6044932431348390856,22);
(-6052854189935475424,22);
(-6060556763310210107,22);
(-6068040106302798184,22);
(-6075304181474490721,22);
(-6082348959111083531,22);
(-6089174417216230897,22);
(-6095780541504153228,22);
(-6102167325392310023,22);
(-6108334769994055481,22);
(-6114282884110374718,22);
(-6120011684221977758,22);
(-6125521194480911067,22);
(-6130811446701708292,22);
(-6135882480352661348,22);
(-6140734342546560250,22)].
Definition mid_229 : list (Z * Z) := [
(-6145367088031177070,22);
(-6149780779179629545,22);
(-6153975485980498579,22);
(-6157951286027385203,22);
(-6161708264508632344,22);
(-6165246514196488217,22);
(-6168566135436185163,22);
(-6171667236134546850,22);
(-6174549931748643181,22);
(-6177214345273962732,22);
(-6179660607232365099,22);
(-6181888855659877120,22);
(-6183899236094177925,22);
(-6185691901561730542,22);
(-6187267012564867967,22);
(-6188624737068503011,22);
(-6189765250486558429,22);
(-6190688735668237663,22);
(-6191395382884032133,22);
(-6191885389811366399,22);
(-6192158961520189114,22);
(-6192216310458151978,22);
(-6192057656435624984,22);
(-6191683226610496986,22);
(-6191093255472567523,22);
(-6190287984827980931,22);
(-6189267663783119431,22);
(-6188032548728387809,22);
(-6186582903321892913,22);
(-6184918998472626597,22);
(-6183041112323545661,22);
(-6180949530234442543,22);
(-6178644544764535194,22);
(-6176126455654801098,22);
(-6173395569810077085,22);
(-6170452201281006284,22);
(-6167296671245690171,22);
(-6163929307991048963,22);
(-6160350446894051913,22);
(-6156560430402689557,22);
(-6152559608016694437,22);
(-6148348336267999434,22);
(-6143926978701053001,22);
(-6139295905852934889,22);
(-6134455495232993749,22);
(-6129406131302638687,22);
(-6124148205454583299,22);
(-6118682115992002965,22);
(-6113008268107554457,22);
(-6107127073861997636,22);
(-6101038952162644770,22);
(-6094744328741759972,22);
(-6088243636134469663,22);
(-6081537313656636178,22);
(-6074625807382529703,22);
(-6067509570122140263,22);
(-6060189061398409474,22);
(-6052664747424182576,22);
(-6044937101078982650,22);
(-6037006601885510542,22);
(-6028873735986067794,22);
(-6020538996118607713,22);
(-6012002881592650892,22);
(-6003265898265066312,22)].
Definition mid_230 : list (Z * Z) := [
(-5994328558515527169,22);
(-5985191381221832262,22);
(-5975854891734927064,22);
(-5966319621853970320,22);
(-5956586109800830363,22);
(-5946654900194719116,22);
(-5936526544026431455,22);
(-5926201598632436021,22);
(-5915680627668748123,22);
(-5904964201084772274,22);
(-5894052895096540826,22);
(-5882947292160319074,22);
(-5871647980945590185,22);
(-5860155556307927380,22);
(-5848470619261819485,22);
(-5836593776953231949,22);
(-5824525642631895716,22);
(-5812266835623525630,22);
(-5799817981301792725,22);
(-5787179711060220621,22);
(-5774352662283634141,22);
(-5761337478319708766,22);
(-5748134808450266380,22);
(-5734745307862269608,22);
(-5721169637618717498,22);
(-5707408464629464212,22);
(-5693462461621697293,22);
(-5679332307110253287,22);
(-5665018685368019028,22);
(-5650522286395598913,22);
(-5635843805891618602,22);
(-5620983945222121246,22);
(-5605943411390014669,22);
(-5590722917004733224,22);
(-5575323180251127693,22);
(-5559744924858600222,22);
(-5543988880070024579,22);
(-5528055780610286948,22);
(-5511946366654886346,22);
(-5495661383798437468,22);
(-5479201583022637930,22);
(-5462567720664432847,22);
(-5445760558384051464,22);
(-5428780863132523374,22);
(-5411629407119379056,22);
(-5394306967780089111,22);
(-5376814327743420019,22);
(-5359152274798394166,22);
(-5341321601861401648,22);
(-5323323106943111515,22);
(-5305157593114988345,22);
(-5286825868475931349,22);
(-5268328746118826735,22);
(-5249667044096563385,22);
(-5230841585388290322,22);
(-5211853197865536471,22);
(-5192702714257683158,22);
(-5173390972118150017,22);
(-5153918813789747132,22);
(-5134287086369905767,22);
(-5114496641676510814,22);
(-5094548336212589412,22);
(-5074443031131625152,22);
(-5054181592202514495,22)].
Definition mid_231 : list (Z * Z) := [
(-5033764889774196847,22);
(-5013193798740397380,22);
(-4992469198504351441,22);
(-4971591972942945642,22);
(-4950563010371177713,22);
(-4929383203506471078,22);
(-4908053449432454906,22);
(-4886574649563142072,22);
(-4864947709606651759,22);
(-4843173539529117984,22);
(-4821253053518022432,22);
(-4799187169945834104,22);
(-4776976811333543804,22);
(-4754622904313672788,22);
(-4732126379593568728,22);
(-4709488171918626317,22);
(-4686709220034980419,22);
(-4663790466652465382,22);
(-4640732858407570563,22);
(-4617537345825791948,22);
(-4594204883284330179,22);
(-4570736428974772310,22);
(-4547132944864867724,22);
(-4523395396661517801,22);
(-4499524753772600081,22);
(-4475521989268783744,22);
(-4451388079846178305,22);
(-4427124005787705114,22);
(-4402730750925058128,22);
(-4378209302600714003,22);
(-4353560651629133382,22);
(-4328785792258610528,22);
(-4303885722132850828,22);
(-4278861442252072326,22);
(-4253713956934523596,22);
(-4228444273777876928,22);
(-4203053403620071282,22);
(-4177542360500658856,22);
(-4151912161621689238,22);
(-4126163827308963273,22);
(-4100298380972492752,22);
(-4074316849067566174,22);
(-4048220261055625845,22);
(-4022009649364658183,22);
(-3995686049349941806,22);
(-3969250499254837897,22);
(-3942704040170865007,22);
(-3916047715998412443,22);
(-3889282573407287780,22);
(-3862409661796424110,22);
(-3835430033254899726,22);
(-3808344742521838902,22);
(-3781154846946167933,22);
(-3753861406447554588,22);
(-3726465483475792807,22);
(-3698968142971049890,22);
(-3671370452324029658,22);
(-3643673481335547425,22);
(-3615878302176550596,22);
(-3587985989348221644,22);
(-3559997619641304270,22);
(-3531914272096155975,22);
(-3503737027962569692,22);
(-3475466970659134638,22)].
Definition mid_232 : list (Z * Z) := [
(-3447105185733121920,22);
(-3418652760819985786,22);
(-3390110785603189596,22);
(-3361480351773383449,22);
(-3332762552988153171,22);
(-3303958484831651674,22);
(-3275069244773739174,22);
(-3246095932129608040,22);
(-3217039648019402774,22);
(-3187901495327224153,22);
(-3158682578660709631,22);
(-3129384004310637054,22);
(-3100006880209819297,22);
(-3070552315892662444,22);
(-3041021422454750524,22);
(-3011415312511400255,22);
(-2981735100157859985,22);
(-2951981900928157170,22);
(-2922156831753968081,22);
(-2892261010924789639,22);
(-2862295558046435069,22);
(-2832261594000568764,22);
(-2802160240904169597,22);
(-2771992622068371348,22);
(-2741759861957921134,22);
(-2711463086150643262,22);
(-2681103421296289957,22);
(-2650681995075991116,22);
(-2620199936161758279,22);
(-2589658374175321260,22);
(-2559058439647700963,22);
(-2528401263978371821,22);
(-2497687979394841657,22);
(-2466919718911537648,22);
(-2436097616289358545,22);
(-2405222805995268077,22);
(-2374296423161179298,22);
(-2343319603543603561,22);
(-2312293483483235802,22);
(-2281219199863990395,22);
(-2250097890072605953,22);
(-2218930691958490270,22);
(-2187718743792344998,22);
(-2156463184226692018,22);
(-2125165152254974890,22);
(-2093825787170703408,22);
(-2062446228528014118,22);
(-2031027616100538941,22);
(-1999571089841372089,22);
(-1968077789842991184,22);
(-1936548856296604545,22);
(-1904985429452152540,22);
(-1873388649578360422,22);
(-1841759656922168568,22);
(-1810099591668891037,22);
(-1778409593902383599,22);
(-1746690803564612490,22);
(-1714944360416001336,22);
(-1683171403995389946,22);
(-1651373073580485326,22);
(-1619550508147597659,22);
(-1587704846332155836,22);
(-1555837226389194519,22);
(-1523948786153299644,22)].
Definition mid_233 : list (Z * Z) := [
(-1492040662999244297,22);
(-1460113993802669848,22);
(-1428169914900206017,22);
(-1396209562050251753,22);
(-1364234070393964017,22);
(-1332244574415121703,22);
(-1300242207901904795,22);
(-1268228103907297142,22);
(-1236203394709516870,22);
(-1204169211773936627,22);
(-1172126685713664837,22);
(-1140076946250221014,22);
(-1108021122175711193,22);
(-1075960341313265945,22);
(-1043895730478680751,22);
(-1011828415442064935,22);
(-9797595208888789547,23);
(-9476901703817362007,23);
(-9156214863222875968,23);
(-8835545899124883421,23);
(-8514906011166596439,23);
(-8194306386236004601,23);
(-7873758198081212255,23);
(-7553272606934206812,23);
(-7232860759130854016,23);
(-6912533786736448397,23);
(-6592302807164487455,23);
(-6272178922803207381,23);
(-5952173220643080333,23);
(-5632296771898314704,23);
(-5312560631636255857,23);
(-4992975838407696893,23);
(-4673553413871244617,23);
(-4354304362425660477,23);
(-4035239670843832559,23);
(-3716370307896371087,23);
(-3397707223994543373,23);
(-3079261350819724013,23);
(-2761043600953867275,23);
(-2443064867525565571,23);
(-2125336023838858278,23);
(-1807867923014542757,23);
(-1490671397631821315,23);
(-1173757259364196804,23);
(-8571362986233174608,24);
(-5408192842039840435,24);
(-2248169629233924849,24);
(9085994073158900746,25);
(4062007249559963914,24);
(7211947109840360059,24);
(1035831243437538848,23);
(1350099690677804931,23);
(1663989445151674347,23);
(1977489923743988608,23);
(2290590568121984836,23);
(2603280845078441007,23);
(2915550246880447023,23);
(3227388291610041378,23);
(3538784523503596597,23);
(3849728513296748328,23);
(4160209858561236292,23);
(4470218184039641198,23);
(4779743141990192208,23);
(5088774412512074341,23)].
Definition mid_234 : list (Z * Z) := [
(5397301703883864219,23);
(5705314752900416748,23);
(6012803325194276179,23);
(6319757215573732379,23);
(6626166248348101806,23);
(6932020277652611406,23);
(7237309187778388417,23);
(7542022893494506361,23);
(7846151340368422351,23);
(8149684505092017015,23);
(8452612395799063798,23);
(8754925052381620841,23);
(9056612546811526740,23);
(9357664983453636040,23);
(9658072499377798412,23);
(9957825264675863105,23);
(1025691348276992982,22);
(1055532739072324638,22);
(1085305725954559193,22);
(1115009339450413528,22);
(1144642613542636370,22);
(1174204585700133123,22);
(1203694296908608944,22);
(1233110791700392842,22);
(1262453118184091280,22);
(1291720328074765867,22);
(1320911476723274705,22);
(1350025623145396372,22);
(1379061830051878036,22);
(1408019163876573490,22);
(1436896694805827462,22);
(1465693496807631176,22);
(1494408647659332110,22);
(1523041228976822355,22);
(1551590326242550325,22);
(1580055028833392348,22);
(1608434430049030569,22);
(1636727627139501718,22);
(1664933721332581887,22);
(1693051817861664619,22);
(1721081025992772181,22);
(1749020459051485248,22);
(1776869234450233627,22);
(1804626473714810147,22);
(1832291302511037702,22);
(1859862850670928333,22);
(1887340252219307985,22);
(1914722645399650060,22);
(1942009172699763961,22);
(1969198980877891300,22);
(1996291220988007380,22);
(2023285048404991216,22);
(2050179622850149016,22);
(2076974108416031564,22);
(2103667673590943422,22);
(2130259491284320315,22);
(2156748738850263088,22);
(2183134598112238813,22);
(2209416255387514376,22);
(2235592901510201726,22);
(2261663731855686858,22);
(2287627946363877268,22);
(2313484749562338288,22);
(2339233350589864997,22)].
Definition mid_235 : list (Z * Z) := [
(2364872963219185416,22);
(2390402805879580212,22);
(2415822101679853697,22);
(2441130078430523375,22);
(2466325968665815968,22);
(2491409009666123138,22);
(2516378443479499322,22);
(2541233516943481024,22);
(2565973481706226595,22);
(2590597594248182927,22);
(2615105115902947126,22);
(2639495312877900512,22);
(2663767456275328328,22);
(2687920822112623855,22);
(2711954691342454023,22);
(2735868349873153802,22);
(2759661088588475481,22);
(2783332203367077208,22);
(2806880995102372018,22);
(2830306769721676469,22);
(2853608838205087686,22);
(2876786516604782707,22);
(2899839126063509000,22);
(2922765992832912366,22);
(2945566448292232919,22);
(2968239828966126115,22);
(2990785476542692496,22);
(3013202737890967493,22);
(3035490965078737041,22);
(3057649515389691277,22);
(3079677751340319670,22);
(3101575040697167177,22);
(3123340756493348815,22);
(3144974277044852262,22);
(3166474985967178738,22);
(3187842272191221144,22);
(3209075529978961685,22);
(3230174158939708336,22);
(3251137564044837827,22);
(3271965155643439594,22);
(3292656349477634473,22);
(3313210566696717574,22);
(3333627233872442277,22);
(3353905783013171786,22);
(3374045651577999775,22);
(3394046282491060230,22);
(3413907124155172133,22);
(3433627630465302546,22);
(3453207260822255199,22);
(3472645480145729172,22);
(3491941758887091873,22);
(3511095573042519570,22);
(3530106404165289538,22);
(3548973739378270061,22);
(3567697071385853166,22);
(3586275898486170326,22);
(3604709724582657649,22);
(3622998059195475231,22);
(3641140417472995910,22);
(3659136320202863580,22);
(3676985293822643318,22);
(3694686870430808679,22);
(3712240587797045418,22);
(3729645989372330230,22)].
Definition mid_236 : list (Z * Z) := [
(3746902624299445345,22);
(3764010047422215927,22);
(3780967819295399089,22);
(3797775506194354424,22);
(3814432680123662337,22);
(3830938918826428665,22);
(3847293805793243439,22);
(3863496930270196930,22);
(3879547887267716447,22);
(3895446277568475040,22);
(3911191707735202643,22);
(3926783790118635437,22);
(3942222142864887889,22);
(3957506389922609566,22);
(3972636161050249835,22);
(3987611091822865564,22);
(4002430823638575925,22);
(4017095003725249750,22);
(4031603285146561884,22);
(4045955326808080982,22);
(4060150793462865616,22);
(4074189355717365048,22);
(4088070690036545336,22);
(4101794478748993760,22);
(4115360410052106184,22);
(4128768178016641792,22);
(4142017482591180241,22);
(4155108029606594542,22);
(4168039530780101630,22);
(4180811703718910173,22);
(4193424271924330775,22);
(4205876964794781929,22);
(4218169517629213926,22);
(4230301671630330566,22);
(4242273173907018849,22);
(4254083777477293132,22);
(4265733241270551349,22);
(4277221330129674028,22);
(4288547814813199201,22);
(4299712471996981235,22);
(4310715084275624142,22);
(4321555440164084037,22);
(4332233334098622686,22);
(4342748566437679212,22);
(4353100943462749920,22);
(4363290277378814390,22);
(4373316386314608155,22);
(4383179094322644923,22);
(4392878231379250737,22);
(4402413633384142755,22);
(4411785142159785236,22);
(4420992605450830095,22);
(4430035876923051129,22);
(4438914816162095557,22);
(4447629288672291402,22);
(4456179165874963178,22);
(4464564325106518822,22);
(4472784649616788144,22);
(4480840028566412622,22);
(4488730357024674276,22);
(4496455535966942382,22);
(4504015472271598124,22);
(4511410078717227601,22);
(4518639273979317716,22)].
Definition mid_237 : list (Z * Z) := [
(4525702982626724391,22);
(4532601135118208540,22);
(4539333667798478187,22);
(4545900522894110243,22);
(4552301648509383914,22);
(4558536998621819753,22);
(4564606533077386402,22);
(4570510217585829304,22);
(4576248023715507197,22);
(4581819928888074094,22);
(4587225916373142845,22);
(4592465975282551877,22);
(4597540100564493693,22);
(4602448292997426537,22);
(4607190559183878720,22);
(4611766911543958044,22);
(4616177368308614572,22);
(4620421953512901764,22);
(4624500696988885257,22);
(4628413634358270832,22);
(4632160807025117490,22);
(4635742262168107632,22);
(4639158052732666538,22);
(4642408237423050941,22);
(4645492880693974109,22);
(4648412052742233636,22);
(4651165829498146785,22);
(4653754292616635638,22);
(4656177529468281885,22);
(4658435633130129537,22);
(4660528702376251281,22);
(4662456841668207504,22);
(4664220161145283595,22);
(4665818776614450228,22);
(4667252809540293839,22);
(4668522387034660325,22);
(4669627641846072147,22);
(4670568712349087970,22);
(4671345742533333247,22);
(4671958881992458162,22);
(4672408285912818017,22);
(4672694115062051706,22);
(4672816535777399435,22);
(4672775719953896844,22);
(4672571845032351206,22);
(4672205093987145236,22);
(4671675655313846831,22);
(4670983723016658884,22);
(4670129496595690753,22);
(4669113181033992285,22);
(4667934986784483221,22);
(4666595129756697736,22);
(4665093831303249801,22);
(4663431318206253014,22);
(4661607822663494305,22);
(4659623582274440685,22);
(4657478840026049206,22);
(4655173844278470674,22);
(4652708848750484474,22);
(4650084112504843407,22);
(4647299899933398986,22);
(4644356480742053246,22);
(4641254129935572324,22);
(4637993127802194585,22)].
Definition mid_238 : list (Z * Z) := [
(4634573759898105391,22);
(4630996317031664121,22);
(4627261095247605727,22);
(4623368395810890995,22);
(4619318525190577954,22);
(4615111795043335503,22);
(4610748522197000935,22);
(4606229028633767762,22);
(4601553641473365942,22);
(4596722692955974854,22);
(4591736520425064171,22);
(4586595466309942000,22);
(4581299878108344224,22);
(4575850108368651956,22);
(4570246514672037983,22);
(4564489459614547075,22);
(4558579310788811456,22);
(4552516440765832953,22);
(4546301227076468619,22);
(4539934052192734753,22);
(4533415303509126092,22);
(4526745373323598910,22);
(4519924658818471165,22);
(4512953562041267363,22);
(4505832489885180144,22);
(4498561854069646807,22);
(4491142071120569120,22);
(4483573562350536934,22);
(4475856753838733577,22);
(4467992076410936121,22);
(4459979965619085759,22);
(4451820861720944380,22);
(4443515209659479001,22);
(4435063459042188207,22);
(4426466064120195476,22);
(4417723483767223790,22);
(4408836181458559403,22);
(4399804625249631798,22);
(4390629287754658702,22);
(4381310646125140935,22);
(4371849182028055849,22);
(4362245381624045354,22);
(4352499735545582249,22);
(4342612738874614521,22);
(4332584891120592357,22);
(4322416696197972576,22);
(4312108662403607053,22);
(4301661302394392430,22);
(4291075133164244920,22);
(4280350676021317958,22);
(4269488456565061576,22);
(4258489004662909341,22);
(4247352854427120339,22);
(4236080544191417872,22);
(4224672616487353850,22);
(4213129618020723601,22);
(4201452099647876590,22);
(4189640616351733332,22);
(4177695727217762721,22);
(4165617995409934965,22);
(4153407988146542258,22);
(4141066276675647016,22);
(4128593436250719857,22);
(4115990046106124704,22)].
Definition mid_239 : list (Z * Z) := [
(4103256689432263453,22);
(4090393953350821466,22);
(4077402428889936631,22);
(4064282710958981365,22);
(4051035398323516454,22);
(4037661093580081190,22);
(4024160403130726000,22);
(4010533937157509843,22);
(3996782309597162949,22);
(3982906138114988988,22);
(3968906044079513170,22);
(3954782652536374655,22);
(3940536592182181021,22);
(3926168495338786110,22);
(3911678997926778026,22);
(3897068739439286987,22);
(3882338362915720522,22);
(3867488514915060657,22);
(3852519845489371978,22);
(3837433008157242471,22);
(3822228659876809658,22);
(3806907461018970503,22);
(3791470075340564751,22);
(3775917169957095326,22);
(3760249415315750120,22);
(3744467485168102871,22);
(3728572056542912697,22);
(3712563809718577232,22);
(3696443428195687669,22);
(3680211598669621219,22);
(3663869011002663561,22);
(3647416358196356261,22);
(3630854336363811136,22);
(3614183644701632120,22);
(3597404985461995436,22);
(3580519063924802407,22);
(3563526588369090664,22);
(3546428270045379953,22);
(3529224823147112614,22);
(3511916964782126603,22);
(3494505414944692285,22);
(3476990896486621707,22);
(3459374135088842434,22);
(3441655859232905807,22);
(3423836800172041996,22);
(3405917691902502365,22);
(3387899271134843840,22);
(3369782277264827294,22);
(3351567452344539279,22);
(3333255541053511050,22);
(3314847290669380056,22);
(3296343451038909211,22);
(3277744774548732956,22);
(3259052016096209564,22);
(3240265933059882598,22);
(3221387285270224795,22);
(3202416834980367864,22);
(3183355346836296679,22);
(3164203587847511860,22);
(3144962327357511819,22);
(3125632337013957147,22);
(3106214390739068100,22);
(3086709264700072497,22);
(3067117737278970578,22)].
Definition mid_240 : list (Z * Z) := [
(3047440589043241485,22);
(3027678602715731717,22);
(3007832563144453592,22);
(2987903257273184397,22);
(2967891474111177029,22);
(2947798004702863054,22);
(2927623642098342886,22);
(2907369181322795571,22);
(2887035419346474572,22);
(2866623155054684588,22);
(2846133189217250415,22);
(2825566324458409742,22);
(2804923365226680461,22);
(2784205117764215688,22);
(2763412390076613618,22);
(2742545991902678036,22);
(2721606734683706128,22);
(2700595431533260918,22);
(2679512897206588642,22);
(2658359948070293066,22);
(2637137402071755565,22);
(2615846078708275479,22);
(2594486798997124445,22);
(2573060385444451482,22);
(2551567662014868950,22);
(2530009454100995685,22);
(2508386588492504655,22);
(2486699893345648742,22);
(2464950198152724196,22);
(2443138333711105271,22);
(2421265132092706592,22);
(2399331426613412718,22);
(2377338051802090557,22);
(2355285843370046853,22);
(2333175638180193473,22);
(2311008274216529016,22);
(2288784590553089428,22);
(2266505427323334200,22);
(2244171625689555063,22);
(2221784027811817388,22);
(2199343476817356682,22);
(2176850816769960453,22);
(2154306892638919362,22);
(2131712550268407733,22);
(2109068636346947000,22);
(2086375998376094484,22);
(2063635484640345132,22);
(2040847944176105719,22);
(2018014226740629739,22);
(1995135182781994224,22);
(1972211663407786360,22);
(1949244520354615449,22);
(1926234605957580963,22);
(1903182773119268428,22);
(1880089875279238618,22);
(1856956766383542233,22);
(1833784300853742884,22);
(1810573333556474325,22);
(1787324719772986567,22);
(1764039315168246930,22);
(1740717975760575607,22);
(1717361557891002315,22);
(1693970918192953085,22);
(1670546913561437512,22)].
Definition mid_241 : list (Z * Z) := [
(1647090401122718734,22);
(1623602238204041701,22);
(1600083282302875711,22);
(1576534391056663275,22);
(1552956422212641073,22);
(1529350233597161104,22);
(1505716683085541732,22);
(1482056628571951800,22);
(1458370927938849957,22);
(1434660439026914848,22);
(1410926019605108941,22);
(1387168527339910221,22);
(1363388819765940885,22);
(1339587754255551131,22);
(1315766187988467735,22);
(1291924977922529263,22);
(1268064980763105340,22);
(1244187052933432870,22);
(1220292050544901724,22);
(1196380829366912421,22);
(1172454244797248004,22);
(1148513151832536303,22);
(1124558405038200601,22);
(1100590858519014727,22);
(1076611365889665350,22);
(1052620780244888977,22);
(1028619954130201482,22);
(1004609739512355218,22);
(9805909877501749346,23);
(9565645495648902028,23);
(9325312750110331314,23);
(9084920134473885224,23);
(8844476135074806687,23);
(8603989230706530740,23);
(8363467892331827324,23);
(8122920582789540855,23);
(7882355756506970363,23);
(7641781859213564226,23);
(7401207327646574185,23);
(7160640589271114343,23);
(6920090061989899919,23);
(6679564153853753065,23);
(6439071262783644604,23);
(6198619776279526113,23);
(5958218071138609477,23);
(5717874513173604428,23);
(5477597456926659253,23);
(5237395245389007124,23);
(4997276209721475713,23);
(4757248668970427582,23);
(4517320929789675200,23);
(4277501286163184715,23);
(4037798019123245056,23);
(3798219396475260151,23);
(3558773672519759492,23);
(3319469087778752279,23);
(3080313868717025801,23);
(2841316227469468589,23);
(2602484361569175887,23);
(2363826453671236276,23);
(2125350671282456676,23);
(1887065166491977403,23);
(1648978075697524339,23);
(1411097519337696205,23)].
Definition mid_242 : list (Z * Z) := [
(1173431601625678239,23);
(9359884102752299179,24);
(6987760162412990763,24);
(4618024734506339166,24);
(2250758185332994009,24);
(-1139592943460997295,25);
(-2476047691976475657,24);
(-4835427175867579754,24);
(-7192018097732475792,24);
(-9545740995355304581,24);
(-1189651659516344231,23);
(-1424426581479630246,23);
(-1658890976571526115,23);
(-1893036975575310856,23);
(-2126856729165356046,23);
(-2360342408165203541,23);
(-2593486203799535086,23);
(-2826280327945194246,23);
(-3058717013386214143,23);
(-3290788514062223077,23);
(-3522487105319239124,23);
(-3753805084155972750,23);
(-3984734769474820968,23);
(-4215268502326642916,23);
(-4445398646154595577,23);
(-4675117587041871937,23);
(-4904417733953356099,23);
(-5133291518976179960,23);
(-5361731397564326680,23);
(-5589729848776915953,23);
(-5817279375515100150,23);
(-6044372504765935949,23);
(-6271001787831994635,23);
(-6497159800570334490,23);
(-6722839143630304954,23);
(-6948032442679744406,23);
(-7172732348643322351,23);
(-7396931537931442969,23);
(-7620622712668445272,23);
(-7843798600924763316,23);
(-8066451956942798042,23);
(-8288575561361803841,23);
(-8510162221446331313,23);
(-8731204771308690642,23);
(-8951696072130161362,23);
(-9171629012385885710,23);
(-9390996508063228295,23);
(-9609791502882000596,23);
(-9828006968510332396,23);
(-1004563590478474043,22);
(-1026267133992400486,22);
(-1047910633074188301,22);
(-1069493396286341579,22);
(-1091014735093504337,22);
(-1112473963883362719,22);
(-1133870399987890883,22);
(-1155203363703990961,22);
(-1176472178313953305,22);
(-1197676170106592606,22);
(-1218814668396951776,22);
(-1239887005546941225,22);
(-1260892516985776348,22);
(-1281830541229342997,22);
(-1302700419900651365,22)].
Definition mid_243 : list (Z * Z) := [
(-1323501497749413015,22);
(-1344233122671481984,22);
(-1364894645728694596,22);
(-1385485421168049811,22);
(-1406004806440810972,22);
(-1426452162221888086,22);
(-1446826852428661472,22);
(-1467128244239635187,22);
(-1487355708113438483,22);
(-1507508617807235289,22);
(-1527586350394968622,22);
(-1547588286285951674,22);
(-1567513809242809190,22);
(-1587362306399566565,22);
(-1607133168279312315,22);
(-1626825788812234319,22);
(-1646439565353026413,22);
(-1665973898698204188,22);
(-1685428193103691828,22);
(-1704801856301821046,22);
(-1724094299518231360,22);
(-1743304937489001025,22);
(-1762433188477262975,22);
(-1781478474289576277,22);
(-1800440220292915305,22);
(-1819317855430339719,22);
(-1838110812237446685,22);
(-1856818526858653427,22);
(-1875440439062452764,22);
(-1893975992257657440,22);
(-1912424633508784139,22);
(-1930785813551326642,22);
(-1949058986807341502,22);
(-1967243611400427115,22);
(-1985339149170557227,22);
(-2003345065689232120,22);
(-2021260830273986320,22);
(-2039085916002819328,22);
(-2056819799728869756,22);
(-2074461962094438668,22);
(-2092011887545202925,22);
(-2109469064343977242,22);
(-2126832984584741044,22);
(-2144103144206201302,22);
(-2161279043005096229,22);
(-2178360184649824789,22);
(-2195346076693506726,22);
(-2212236230586868304,22);
(-2229030161691393681,22);
(-2245727389291929572,22);
(-2262327436609087709,22);
(-2278829830812132752,22);
(-2295234103030713085,22);
(-2311539788367216657,22);
(-2327746425908999424,22);
(-2343853558739638829,22);
(-2359860733951051385,22);
(-2375767502654831261,22);
(-2391573419993466899,22);
(-2407278045151767687,22);
(-2422880941367792180,22);
(-2438381675943598502,22);
(-2453779820256201294,22);
(-2469074949768038335,22)].
Definition mid_244 : list (Z * Z) := [
(-2484266644037227360,22);
(-2499354486728099086,22);
(-2514338065621144771,22);
(-2529216972622859135,22);
(-2543990803775748638,22);
(-2558659159267800357,22);
(-2573221643442039769,22);
(-2587677864805675455,22);
(-2602027436039487749,22);
(-2616269974006728413,22);
(-2630405099761820814,22);
(-2644432438559275321,22);
(-2658351619862104340,22);
(-2672162277350069296,22);
(-2685864048928109766,22);
(-2699456576734278750,22);
(-2712939507147492553,22);
(-2726312490795658504,22);
(-2739575182562754797,22);
(-2752727241596490920,22);
(-2765768331315761547,22);
(-2778698119417266133,22);
(-2791516277882845711,22);
(-2804222482986127966,22);
(-2816816415299000466,22);
(-2829297759698325121,22);
(-2841666205372087245,22);
(-2853921445825464910,22);
(-2866063178886988304,22);
(-2878091106714275702,22);
(-2890004935799564520,22);
(-2901804376975452714,22);
(-2913489145420056865,22);
(-2925058960662293875,22);
(-2936513546586777762,22);
(-2947852631438808079,22);
(-2959075947829078058,22);
(-2970183232738041234,22);
(-2981174227520507923,22);
(-2992048677909770068,22);
(-3002806334021593270,22);
(-3013446950358265202,22);
(-3023970285812287314,22);
(-3034376103669809044,22);
(-3044664171614393255,22);
(-3054834261729900751,22);
(-3064886150503766198,22);
(-3074819618830130379,22);
(-3084634452012223818,22);
(-3094330439765360799,22);
(-3103907376219247637,22);
(-3113365059920235106,22);
(-3122703293833623992,22);
(-3131921885345585223,22);
(-3141020646264928193,22);
(-3149999392824904339,22);
(-3158857945684658344,22);
(-3167596129930534059,22);
(-3176213775077397767,22);
(-3184710715069595001,22);
(-3193086788281887826,22);
(-3201341837520082058,22);
(-3209475710021750423,22);
(-3217488257456560530,22)].
Definition mid_245 : list (Z * Z) := [
(-3225379335926461350,22);
(-3233148805965934758,22);
(-3240796532541876263,22);
(-3248322385053268669,22);
(-3255726237331009140,22);
(-3263007967637243504,22);
(-3270167458664689168,22);
(-3277204597535875630,22);
(-3284119275802105278,22);
(-3290911389442200048,22);
(-3297580838861458963,22);
(-3304127528889890344,22);
(-3310551368780754642,22);
(-3316852272208876875,22);
(-3323030157268494489,22);
(-3329084946471374097,22);
(-3335016566744514058,22);
(-3340824949427684959,22);
(-3346510030271022691,22);
(-3352071749432266982,22);
(-3357510051473851947,22);
(-3362824885360034028,22);
(-3368016204453670292,22);
(-3373083966512867705,22);
(-3378028133687669267,22);
(-3382848672516250085,22);
(-3387545553921413239,22);
(-3392118753206416139,22);
(-3396568250051043548,22);
(-3400894028507488154,22);
(-3405096076995764941,22);
(-3409174388299389012,22);
(-3413128959560680995,22);
(-3416959792275864284,22);
(-3420666892290225155,22);
(-3424250269792968233,22);
(-3427709939311909316,22);
(-3431045919708170921,22);
(-3434258234170579666,22);
(-3437346910209959031,22);
(-3440311979653319120,22);
(-3443153478637875657,22);
(-3445871447604909607,22);
(-3448465931293432187,22);
(-3450936978733858541,22);
(-3453284643241399531,22);
(-3455508982409302818,22);
(-3457610058102085818,22);
(-3459587936448474291,22);
(-3461442687834250941,22);
(-3463174386895036261,22);
(-3464783112508803740,22);
(-3466268947788322973,22);
(-3467631980073503030,22);
(-3468872300923437116,22);
(-3469990006108486275,22);
(-3470985195602179310,22);
(-3471857973572835157,22);
(-3472608448375257896,22);
(-3473236732542124929,22);
(-3473742942775333428,22);
(-3474127199937145647,22);
(-3474389629041271907,22);
(-3474530359243715050,22)].
Definition mid_246 : list (Z * Z) := [
(-3474549523833589957,22);
(-3474447260223739774,22);
(-3474223709941186809,22);
(-3473879018617541674,22);
(-3473413335979242756,22);
(-3472826815837561499,22);
(-3472119616078660274,22);
(-3471291898653342325,22);
(-3470343829566808775,22);
(-3469275578868154328,22);
(-3468087320639852682,22);
(-3466779232987000155,22);
(-3465351498026552810,22);
(-3463804301876283317,22);
(-3462137834643777925,22);
(-3460352290415146664,22);
(-3458447867243708072,22);
(-3456424767138495564,22);
(-3454283196052703093,22);
(-3452023363871887943,22);
(-3449645484402159433,22);
(-3447149775358203361,22);
(-3444536458351144903,22);
(-3441805758876352963,22);
(-3438957906301077019,22);
(-3435993133851945728,22);
(-3432911678602424874,22);
(-3429713781460032459,22);
(-3426399687153562461,22);
(-3422969644220061943,22);
(-3419423904991795147,22);
(-3415762725583007552,22);
(-3411986365876650364,22);
(-3408095089510884907,22);
(-3404089163865570752,22);
(-3399968860048563032,22);
(-3395734452881962588,22);
(-3391386220888159032,22);
(-3386924446275821777,22);
(-3382349414925830337,22);
(-3377661416376902693,22);
(-3372860743811352665,22);
(-3367947694040543177,22);
(-3362922567490312948,22);
(-3357785668186277425,22);
(-3352537303739060864,22);
(-3347177785329264951,22);
(-3341707427692584332,22);
(-3336126549104582247,22);
(-3330435471365414120,22);
(-3324634519784571752,22);
(-3318724023165340199,22);
(-3312704313789250309,22);
(-3306575727400449410,22);
(-3300338603189870330,22);
(-3293993283779351631,22);
(-3287540115205719350,22);
(-3280979446904600406,22);
(-3274311631694306474,22);
(-3267537025759531923,22);
(-3260655988634914601,22);
(-3253668883188602580,22);
(-3246576075605667492,22);
(-3239377935371342220,22)].
Definition mid_247 : list (Z * Z) := [
(-3232074835254289489,22);
(-3224667151289711624,22);
(-3217155262762384955,22);
(-3209539552189528337,22);
(-3201820405303666792,22);
(-3193998211035420343,22);
(-3186073361496017460,22);
(-3178046251959928308,22);
(-3169917280847345123,22);
(-3161686849706443585,22);
(-3153355363195760189,22);
(-3144923229066344658,22);
(-3136390858143763265,22);
(-3127758664310251245,22);
(-3119027064486582217,22);
(-3110196478613769027,22);
(-3101267329635019367,22);
(-3092240043477244705,22);
(-3083115049032666803,22);
(-3073892778140380308,22);
(-3064573665567624791,22);
(-3055158148991206401,22);
(-3045646668978766098,22);
(-3036039668969818593,22);
(-3026337595256923000,22);
(-3016540896966719604,22);
(-3006650026040731888,22);
(-2996665437216319817,22);
(-2986587588007351760,22);
(-2976416938685037426,22);
(-2966153952258385120,22);
(-2955799094454812409,22);
(-2945352833700679821,22);
(-2934815641101539926,22);
(-2924187990422545810,22);
(-2913470358068745696,22);
(-2902663223065145011,22);
(-2891767067036858977,22);
(-2880782374189269548,22);
(-2869709631287710710,22);
(-2858549327637701309,22);
(-2847301955064623848,22);
(-2835968007893348536,22);
(-2824547982928240055,22);
(-2813042379432560431,22);
(-2801451699108123438,22);
(-2789776446074848171,22);
(-2778017126850119631,22);
(-2766174250328198099,22);
(-2754248327759651824,22);
(-2742239872730473115,22);
(-2730149401141329971,22);
(-2717977431186827998,22);
(-2705724483334443278,22);
(-2693391080303630340,22);
(-2680977747044793508,22);
(-2668485010718276698,22);
(-2655913400673114134,22);
(-2643263448425881902,22);
(-2630535687639590160,22);
(-2617730654102196422,22);
(-2604848885705368200,22);
(-2591890922423171388,22);
(-2578857306290453983,22)].
Definition mid_248 : list (Z * Z) := [
(-2565748581381476455,22);
(-2552565293788432621,22);
(-2539307991599698382,22);
(-2525977224878305969,22);
(-2512573545640386214,22);
(-2499097507833110995,22);
(-2485549667313339335,22);
(-2471930581825615143,22);
(-2458240810980175258,22);
(-2444480916231409062,22);
(-2430651460855632337,22);
(-2416753009929237066,22);
(-2402786130306762088,22);
(-2388751390598696229,22);
(-2374649361149466017,22);
(-2360480614015408754,22);
(-2346245722942464794,22);
(-2331945263344053847,22);
(-2317579812278978133,22);
(-2303149948428945509,22);
(-2288656252076453105,22);
(-2274099305082379031,22);
(-2259479690863772225,22);
(-2244797994371286953,22);
(-2230054802066868845,22);
(-2215250701901428189,22);
(-2200386283292193120,22);
(-2185462137100298611,22);
(-2170478855608389847,22);
(-2155437032497881621,22);
(-2140337262826512909,22);
(-2125180143005880309,22);
(-2109966270778476530,22);
(-2094696245195501927,22);
(-2079370666594009790,22);
(-2063990136574038892,22);
(-2048555257976375152,22);
(-2033066634859470047,22);
(-2017524872476864550,22);
(-2001930577254539868,22);
(-1986284356767997143,22);
(-1970586819719535008,22);
(-1954838575915635035,22);
(-1939040236243918364,22);
(-1923192412650470977,22);
(-1907295718117106348,22);
(-1891350766638361385,22);
(-1875358173198774262,22);
(-1859318553749967642,22);
(-1843232525187964448,22);
(-1827100705330078915,22);
(-1810923712892176262,22);
(-1794702167465910946,22);
(-1778436689495616627,22);
(-1762127900255543611,22);
(-1745776421827086272,22);
(-1729382877075663790,22);
(-1712947889627954620,22);
(-1696472083849151014,22);
(-1679956084819648674,22);
(-1663400518312669902,22);
(-1646806010771129439,22);
(-1630173189284529571,22);
(-1613502681566538833,22)].
Definition mid_249 : list (Z * Z) := [
(-1596795115931883588,22);
(-1580051121273238265,22);
(-1563271327038883742,22);
(-1546456363209392393,22);
(-1529606860274956338,22);
(-1512723449212647925,22);
(-1495806761463344930,22);
(-1478857428909037118,22);
(-1461876083850123325,22);
(-1444863358982375408,22);
(-1427819887374256471,22);
(-1410746302444266999,22);
(-1393643237937954352,22);
(-1376511327905296307,22);
(-1359351206677910317,22);
(-1342163508846486110,22);
(-1324948869237844789,22);
(-1307707922892377666,22);
(-1290441305041498381,22);
(-1273149651084755666,22);
(-1255833596567337775,22);
(-1238493777157573391,22);
(-1221130828624121371,22);
(-1203745386813520168,22);
(-1186338087627821419,22);
(-1168909567001617328,22);
(-1151460460880099395,22);
(-1133991405196329877,22);
(-1116503035848572754,22);
(-1098995988678417635,22);
(-1081470899447932921,22);
(-1063928403817494535,22);
(-1046369137323567919,22);
(-1028793735356176953,22);
(-1011202833136759125,22);
(-9935970656960644817,23);
(-9759770678517043681,23);
(-9583434741861026924,23);
(-9406969190244984097,23);
(-9230380364125933396,23);
(-9053674600946567030,23);
(-8876858234914139034,23);
(-8699937596782250605,23);
(-8522919013628890879,23);
(-8345808808638402519,23);
(-8168613300884085629,23);
(-7991338805107395910,23);
(-7813991631501132694,23);
(-7636578085493227338,23);
(-7459104467527134016,23);
(-7281577072846352663,23);
(-7104002191279907381,23);
(-6926386107021868506,23);
(-6748735098421495789,23);
(-6571055437765771837,23);
(-6393353391062474940,23);
(-6215635217831653114,23);
(-6037907170887482622,23);
(-5860175496126965783,23);
(-5682446432318681627,23);
(-5504726210888180279,23);
(-5327021055707770381,23);
(-5149337182886793741,23);
(-4971680800558536233,23)].
Definition mid_250 : list (Z * Z) := [
(-4794058108671611038,23);
(-4616475298781709156,23);
(-4438938553840276205,23);
(-4261454047987333585,23);
(-4084027946344990140,23);
(-3906666404807705955,23);
(-3729375569837272444,23);
(-3552161578255872028,23);
(-3375030557042293532,23);
(-3197988623124410466,23);
(-3021041883176161461,23);
(-2844196433415065007,23);
(-2667458359396532411,23);
(-2490833735812642244,23);
(-2314328626291511102,23);
(-2137949083193460548,23);
(-1961701147411656389,23);
(-1785590848173807080,23);
(-1609624202838127720,23);
(-1433807216700148944,23);
(-1258145882792123937,23);
(-1082646181683097320,23);
(-9073140812876971144,24);
(-7321555366654213098,24);
(-5571764898269951198,24);
(-3823828695409499071,24);
(-2077805911371170882,24);
(-3337555631462109005,25);
(1408263470494281391,24);
(3148192450947390809,24);
(4885972781656096202,24);
(6621546010042845337,24);
(8354853829393779218,24);
(1008583808073136904,23);
(1181444075474264899,23);
(1354060399359919871,23);
(1526427009284940045,23);
(1698538150330287396,23);
(1870388083282798202,23);
(2041971084824172869,23);
(2213281447712934361,23);
(2384313480966037145,23);
(2555061510043408568,23);
(2725519877027979271,23);
(2895682940804879444,23);
(3065545077243629521,23);
(3235100679375700638,23);
(3404344157571324300,23);
(3573269939719221584,23);
(3741872471401271841,23);
(3910146216068953722,23);
(4078085655216379780,23);
(4245685288556682609,23);
(4412939634193747729,23);
(4579843228793225468,23);
(4746390627756269618,23);
(4912576405388786139,23);
(5078395155069788749,23);
(5243841489422560565,23);
(5408910040481267517,23);
(5573595459856728118,23);
(5737892418904863920,23);
(5901795608890704747,23);
(6065299741151007498,23)].
Definition mid_251 : list (Z * Z) := [
(6228399547262131305,23);
(6391089779197211608,23);
(6553365209490185034,23);
(6715220631398753799,23);
(6876650859059009197,23);
(7037650727648529488,23);
(7198215093542717784,23);
(7358338834470490775,23);
(7518016849672695570,23);
(7677244060055888871,23);
(7836015408345385657,23);
(7994325859240618585,23);
(8152170399566256796,23);
(8309544038422206640,23);
(8466441807336241594,23);
(8622858760411755978,23);
(8778789974476800743,23);
(8934230549229964225,23);
(9089175607388921396,23);
(9243620294834814359,23);
(9397559780755341283,23);
(9550989257790557202,23);
(9703903942174033070,23);
(9856299073873128487,23);
(1000816991673172420,22);
(1015951175860831828,22);
(1031031991151302324,22);
(1046058971174895134,22);
(1061031652004372435,22);
(1075949572168700583,22);
(1090812272666689389,22);
(1105619296979858064,22);
(1120370191086031663,22);
(1135064503472337823,22);
(1149701785148090195,22);
(1164281589657927631,22);
(1178803473094499336,22);
(1193266994111055447,22);
(1207671713934262570,22);
(1222017196376570054,22);
(1236303007848491020,22);
(1250528717371095081,22);
(1264693896588017915,22);
(1278798119777601076,22);
(1292840963864697328,22);
(1306822008432736190,22);
(1320740835735343332,22);
(1334597030707871063,22);
(1348390180979125062,22);
(1362119876882666102,22);
(1375785711468011216,22);
(1389387280512034077,22);
(1402924182529940924,22);
(1416396018786102824,22);
(1429802393305299119,22);
(1443142912883029817,22);
(1456417187096335655,22);
(1469624828314567485,22);
(1482765451709362552,22);
(1495838675265184032,22);
(1508844119789691691,22);
(1521781408923413243,22);
(1534650169150062425,22);
(1547450029806271077,22)].
Definition mid_252 : list (Z * Z) := [
(1560180623091243410,22);
(1572841584076566145,22);
(1585432550715660312,22);
(1597953163853056062,22);
(1610403067233911144,22);
(1622781907513069148,22);
(1635089334264041845,22);
(1647324999988141424,22);
(1659488560123206151,22);
(1671579673052372376,22);
(1683598000112571157,22);
(1695543205603179378,22);
(1707414956794345881,22);
(1719212923935127860,22);
(1730936780261838406,22);
(1742586202005990184,22);
(1754160868402104671,22);
(1765660461695719801,22);
(1777084667150960679,22);
(1788433173058005669,22);
(1799705670740855241,22);
(1810901854564287946,22);
(1822021421941263345,22);
(1833064073340197006,22);
(1844029512291565736,22);
(1854917445395107766,22);
(1865727582326443977,22);
(1876459635843636504,22);
(1887113321793897785,22);
(1897688359119871612,22);
(1908184469865865397,22);
(1918601379184174324,22);
(1928938815341040393,22);
(1939196509722520396,22);
(1949374196840444418,22);
(1959471614338028484,22);
(1969488502995489368,22);
(1979424606735411668,22);
(1989279672628242268,22);
(1999053450897450329,22);
(2008745694924540641,22);
(2018356161254214963,22);
(2027884609599164205,22);
(2037330802844741057,22);
(2046694507053757866,22);
(2055975491470918575,22);
(2065173528527125719,22);
(2074288393844034349,22);
(2083319866237904195,22);
(2092267727723780084,22);
(2101131763519565286,22);
(2109911762049535412,22);
(2118607514948268108,22);
(2127218817064139872,22);
(2135745466462707419,22);
(2144187264430180099,22);
(2152544015476567344,22);
(2160815527338730692,22);
(2169001610983474037,22);
(2177102080610353069,22);
(2185116753654365446,22);
(2193045450788706297,22);
(2200887995927198733,22);
(2208644216226643311,22)].
Definition mid_253 : list (Z * Z) := [
(2216313942089217647,22);
(2223897007164534227,22);
(2231393248351739157,22);
(2238802505801342564,22);
(2246124622917153085,22);
(2253359446357891429,22);
(2260506826038725340,22);
(2267566615132812411,22);
(2274538670072590561,22);
(2281422850550943009,22);
(2288219019522401193,22);
(2294927043204088844,22);
(2301546791076483091,22);
(2308078135884433074,22);
(2314520953637461077,22);
(2320875123610491655,22);
(2327140528344266886,22);
(2333317053645474573,22);
(2339404588587064564,22);
(2345403025508244416,22);
(2351312260014386420,22);
(2357132190976906174,22);
(2362862720532959548,22);
(2368503754084961025,22);
(2374055200300155717,22);
(2379516971109948780,22);
(2384888981709089013,22);
(2390171150554883084,22);
(2395363399366166619,22);
(2400465653122224065,22);
(2405477840061526955,22);
(2410399891680482462,22);
(2415231742731948857,22);
(2419973331223648511,22);
(2424624598416571944,22);
(2429185488823155286,22);
(2433655950205341990,22);
(2438035933572666781,22);
(2442325393180082098,22);
(2446524286525663923,22);
(2450632574348449340,22);
(2454650220625743647,22);
(2458577192570688763,22);
(2462413460629618318,22);
(2466158998479121628,22);
(2469813783023258927,22);
(2473377794390515844,22);
(2476851015930616384,22);
(2480233434211388506,22);
(2483525039015336416,22);
(2486725823336194971,22);
(2489835783375405481,22);
(2492854918538394728,22);
(2495783231430794892,22);
(2498620727854570242,22);
(2501367416804008842,22);
(2504023310461557040,22);
(2506588424193689204,22);
(2509062776546506948,22);
(2511446389241341060,22);
(2513739287170174003,22);
(2515941498391026094,22);
(2518053054123185557,22);
(2520073988742323645,22)].
Definition mid_254 : list (Z * Z) := [
(2522004339775543095,22);
(2523844147896320321,22);
(2525593456919275766,22);
(2527252313794938290,22);
(2528820768604318195,22);
(2530298874553403273,22);
(2531686687967628835,22);
(2532984268286067467,22);
(2534191678055681680,22);
(2535308982925446987,22);
(2536336251640243511,22);
(2537273556034816977,22);
(2538120971027521783,22);
(2538878574613999558,22);
(2539546447860787791,22);
(2540124674898752819,22);
(2540613342916483780,22);
(2541012542153570563,22);
(2541322365893778756,22);
(2541542910458098820,22);
(2541674275197747029,22);
(2541716562487030331,22);
(2541669877716125564,22);
(2541534329283751331,22);
(2541310028589737965,22);
(2540997090027559001,22);
(2540595630976642556,22);
(2540105771794701141,22);
(2539527635809943297,22);
(2538861349313109583,22);
(2538107041549536765,22);
(2537264844711015991,22);
(2536334893927610326,22);
(2535317327259405053,22);
(2534212285688066074,22);
(2533019913108423794,22);
(2531740356319878106,22);
(2530373765017760552,22);
(2528920291784547952,22);
(2527380092081051629,22);
(2525753324237468953,22);
(2524040149444354642,22);
(2522240731743521599,22);
(2520355238018808387,22);
(2518383837986798456,22);
(2516326704187434754,22);
(2514184011974527526,22);
(2511955939506217684,22);
(2509642667735295413,22);
(2507244380399485184,22);
(2504761264011613666,22);
(2502193507849666504,22);
(2499541303946834262,22);
(2496804847081407117,22);
(2493984334766581189,22);
(2491079967240238851,22);
(2488091947454601103,22);
(2485020481065775325,22);
(2481865776423268868,22);
(2478628044559419712,22);
(2475307499178667201,22);
(2471904356646838501,22);
(2468418835980331510,22);
(2464851158835113464,22)].
Definition mid_255 : list (Z * Z) := [
(2461201549495815486,22);
(2457470234864609759,22);
(2453657444450025975,22);
(2449763410355772675,22);
(2445788367269378059,22);
(2441732552450798276,22);
(2437596205720983695,22);
(2433379569450259245,22);
(2429082888546761393,22);
(2424706410444718466,22);
(2420250385092651273,22);
(2415715064941538232,22);
(2411100704932906487,22);
(2406407562486783172,22);
(2401635897489653722,22);
(2396785972282298202,22);
(2391858051647607051,22);
(2386852402798212498,22);
(2381769295364192900,22);
(2376609001380633143,22);
(2371371795275066334,22);
(2366057953854931479,22);
(2360667756294951736,22);
(2355201484124377703,22);
(2349659421214198702,22);
(2344041853764384435,22);
(2338349070290809506,22);
(2332581361612411585,22);
(2326739020838106988,22);
(2320822343353571540,22);
(2314831626808217142,22);
(2308767171101835751,22);
(2302629278371346095,22);
(2296418252977360951,22);
(2290134401490810797,22);
(2283778032679431949,22);
(2277349457494174181,22);
(2270848989055589660,22);
(2264276942640204788,22);
(2257633635666698524,22);
(2250919387682129768,22);
(2244134520348128956,22);
(2237279357426851683,22);
(2230354224767161085,22);
(2223359450290488220,22);
(2216295363976716296,22);
(2209162297850169254,22);
(2201960585965246362,22);
(2194690564392264161,22);
(2187352571203150147,22);
(2179946946456994418,22);
(2172474032185700533,22);
(2164934172379514936,22);
(2157327712972447148,22);
(2149655001827733051,22);
(2141916388723227166,22);
(2134112225336661840,22);
(2126242865230963620,22);
(2118308663839513261,22);
(2110309978451221946,22);
(2102247168195730035,22);
(2094120594028465402,22);
(2085930618715713157,22);
(2077677606819526806,22)].
Definition mid_256 : list (Z * Z) := [
(2069361924682697684,22);
(2060983940413735230,22);
(2052544023871569168,22);
(2044042546650445759,22);
(2035479882064720233,22);
(2026856405133484163,22);
(2018172492565295561,22);
(2009428522742874818,22);
(2000624875707536921,22);
(1991761933143927242,22);
(1982840078364487895,22);
(1973859696293771239,22);
(1964821173453162374,22);
(1955724897945040311,22);
(1946571259437248128,22);
(1937360649147434649,22);
(1928093459827275513,22);
(1918770085746745460,22);
(1909390922678429387,22);
(1899956367881556118,22);
(1890466820086241417,22);
(1880922679477648883,22);
(1871324347679953243,22);
(1861672227740477931,22);
(1851966724113680070,22);
(1842208242645230587,22);
(1832397190555826801,22);
(1822533976425216710,22);
(1812619010176148729,22);
(1802652703058122482,22);
(1792635467631297072,22);
(1782567717750380653,22);
(1772449868548298005,22);
(1762282336420009090,22);
(1752065539006359047,22);
(1741799895177535706,22);
(1731485825017057276,22);
(1721123749805319851,22);
(1710714092003098289,22);
(1700257275235466953,22);
(1689753724275153688,22);
(1679203865026223112,22);
(1668608124507696226,22);
(1657966930836964287,22);
(1647280713213367478,22);
(1636549901901793646,22);
(1625774928216002185,22);
(1614956224502179399,22);
(1604094224122458630,22);
(1593189361438209720,22);
(1582242071793559955,22);
(1571252791498758603,22);
(1560221957813655031,22);
(1549150008930939924,22);
(1538037383959586801,22);
(1526884522908265624,22);
(1515691866668553926,22);
(1504459856998329543,22);
(1493188936505160911,22);
(1481879548629491086,22);
(1470532137627978710,22);
(1459147148556897788,22);
(1447725027255245282,22);
(1436266220328107275,22)].
Definition mid_257 : list (Z * Z) := [
(1424771175130018367,22);
(1413240339747959219,22);
(1401674162984926550,22);
(1390073094343048860,22);
(1378437584006663385,22);
(1366768082825908868,22);
(1355065042299668078,22);
(1343328914558912025,22);
(1331560152350018693,22);
(1319759209017845668,22);
(1307926538489037214,22);
(1296062595255340034,22);
(1284167834356670734,22);
(1272242711364437822,22);
(1260287682364849863,22);
(1248303203941986757,22);
(1236289733161153974,22);
(1224247727552074444,22);
(1212177645092228976,22);
(1200079944189948124,22);
(1187955083667757759,22);
(1175803522745720575,22);
(1163625721024517923,22);
(1151422138468843767,22);
(1139193235390733856,22);
(1126939472432705159,22);
(1114661310551135181,22);
(1102359210999678146,22);
(1090033635312273645,22);
(1077685045286839836,22);
(1065313902968447433,22);
(1052920670632483271,22);
(1040505810768396620,22);
(1028069786062748772,22);
(1015613059382719616,22);
(1003136093759594014,22);
(9906393523720000410,23);
(9781232985294319551,23);
(9655883956557731712,23);
(9530351072725912805,23);
(9404638969827012747,23);
(9278752284537424575,23);
(9152695654015217117,23);
(9026473715736677960,23);
(8900091107331022761,23);
(8773552466417485743,23);
(8646862430439302587,23);
(8520025636500784668,23);
(8393046721204431226,23);
(8265930320485759296,23);
(8138681069450903781,23);
(8011303602214466879,23);
(7883802551734986341,23);
(7756182549653232138,23);
(7628448226130869043,23);
(7500604209686519846,23);
(7372655127034890080,23);
(7244605602926513447,23);
(7116460259983033057,23);
(6988223718540192682,23);
(6859900596485298593,23);
(6731495509094953793,23);
(6603013068878831266,23);
(6474457885416511028,23)].
Definition mid_258 : list (Z * Z) := [
(6345834565199078199,23);
(6217147711470825413,23);
(6088401924068444633,23);
(5959601799263318424,23);
(5830751929604122261,23);
(5701856903757009733,23);
(5572921306348851825,23);
(5443949717810833298,23);
(5314946714219649594,23);
(5185916867142081036,23);
(5056864743478076249,23);
(4927794905306088005,23);
(4798711909725599640,23);
(4669620308702950143,23);
(4540524648917313078,23);
(4411429471604436624,23);
(4282339312403530505,23);
(4153258701204434825,23);
(4024192161992546632,23);
(3895144212696797825,23);
(3766119365038407606,23);
(3637122124375397715,23);
(3508156989554928843,23);
(3379228452760169271,23);
(3250340999357636493,23);
(3121499107750768938,23);
(2992707249226543207,23);
(2863969887807180632,23);
(2735291480101950727,23);
(2606676475156658178,23);
(2478129314306364820,23);
(2349654431028547663,23);
(2221256250793961470,23);
(2092939190920728174,23);
(1964707660428885745,23);
(1836566059892662587,23);
(1708518781296296948,23);
(1580570207888476006,23);
(1452724714039143925,23);
(1324986665093697166,23);
(1197360417230447818,23);
(1069850317318606996,23);
(9424607027739795737,24);
(8151959014179596208,24);
(6880602313370171242,24);
(5610580007399637890,24);
(4341935078184899107,24);
(3074710406085300690,24);
(1808948768475808304,24);
(5446928383989096508,25);
(-7180148168362075570,25);
(-1979131737048930197,24);
(-3238615570522119734,24);
(-4496424075386408844,24);
(-5752515120998873115,24);
(-7006846689258187335,24);
(-8259376875987296666,24);
(-9510063892264602613,24);
(-1075886606575263161,23);
(-1200574184204806324,23);
(-1325064978599878937,23);
(-1449354858301492638,23);
(-1573439704040153166,23);
(-1697315408865764387,23)].
Definition mid_259 : list (Z * Z) := [
(-1820977878276983439,23);
(-1944423030352651952,23);
(-2067646795879647204,23);
(-2190645118481880153,23);
(-2313413954746912636,23);
(-2435949274354964214,23);
(-2558247060204550530,23);
(-2680303308537577888,23);
(-2802114029066407334,23);
(-2923675245097673259,23);
(-3044982993655440635,23);
(-3166033325606376153,23);
(-3286822305781628134,23);
(-3407346013097800114,23);
(-3527600540681618846,23);
(-3647581995986938350,23);
(-3767286500916668611,23);
(-3886710191944030718,23);
(-4005849220227566319,23);
(-4124699751732548614,23);
(-4243257967347268458,23);
(-4361520062999010112,23);
(-4479482249771946035,23);
(-4597140754021680130,23);
(-4714491817489179773,23);
(-4831531697416636370,23);
(-4948256666659907966,23);
(-5064663013800463793,23);
(-5180747043259000526,23);
(-5296505075405724623,23);
(-5411933446671401727,23);
(-5527028509656192946,23);
(-5641786633240519273,23);
(-5756204202692676101,23);
(-5870277619775746402,23);
(-5984003302856355690,23);
(-6097377687010093063,23);
(-6210397224126283763,23);
(-6323058383014574374,23);
(-6435357649508150228,23);
(-6547291526566067826,23);
(-6658856534378977427,23);
(-6770049210467434431,23);
(-6880866109784741379,23);
(-6991303804819054047,23);
(-7101358885689487840,23);
(-7211027960248054473,23);
(-7320307654176841730,23);
(-7429194611084508808,23);
(-7537685492604744074,23);
(-7645776978491243883,23);
(-7753465766712103224,23);
(-7860748573545866538,23);
(-7967622133674323235,23);
(-8074083200274496822,23);
(-8180128545112448721,23);
(-8285754958633706154,23);
(-8390959250053051696,23);
(-8495738247445779219,23);
(-8600088797835758216,23);
(-8704007767283999562,23);
(-8807492040975105731,23);
(-8910538523305462514,23);
(-9013144137968244528,23)].
Definition mid_260 : list (Z * Z) := [
(-9115305828037637405,23);
(-9217020556054804175,23);
(-9318285304110298186,23);
(-9419097073926184646,23);
(-9519452886939276171,23);
(-9619349784381526385,23);
(-9718784827359122462,23);
(-9817755096934835705,23);
(-9916257694203322096,23);
(-1001428974037043575,22);
(-1011184837683172381,22);
(-1020893076524557482,22);
(-1030553408761100215,22);
(-1040165554634148897,22);
(-1049729236433791441,22);
(-1059244178506295558,22);
(-1068710107261247144,22);
(-1078126751178599897,22);
(-1087493840815880928,22);
(-1096811108815070424,22);
(-1106078289909413835,22);
(-1115295120930364010,22);
(-1124461340814203241,22);
(-1133576690608719642,22);
(-1142640913479660861,22);
(-1151653754717347307,22);
(-1160614961742975702,22);
(-1169524284114851755,22);
(-1178381473534741549,22);
(-1187186283853938334,22);
(-1195938471079232413,22);
(-1204637793379019538,22);
(-1213284011089104509,22);
(-1221876886718401499,22);
(-1230416184954905576,22);
(-1238901672671010028,22);
(-1247333118929212661,22);
(-1255710294987587088,22);
(-1264032974305102908,22);
(-1272300932546930165,22);
(-1280513947589578198,22);
(-1288671799526124745,22);
(-1296774270671184842,22);
(-1304821145565805186,22);
(-1312812210982427878,22);
(-1320747255929631645,22);
(-1328626071656733459,22);
(-1336448451658530572,22);
(-1344214191679748451,22);
(-1351923089719428005,22);
(-1359574946035365934,22);
(-1367169563148357212,22);
(-1374706745846251629,22);
(-1382186301188279216,22);
(-1389608038508802126,22);
(-1396971769421342718,22);
(-1404277307822541707,22);
(-1411524469895631404,22);
(-1418713074114345352,22);
(-1425842941246375302,22);
(-1432913894356834699,22);
(-1439925758811756858,22);
(-1446878362281358687,22);
(-1453771534743216040,22)].
Definition mid_261 : list (Z * Z) := [
(-1460605108485528523,22);
(-1467378918110107556,22);
(-1474092800535296670,22);
(-1480746594998980710,22);
(-1487340143061296072,22);
(-1493873288607390807,22);
(-1500345877849973582,22);
(-1506757759331978921,22);
(-1513108783928950008,22);
(-1519398804851365659,22);
(-1525627677647030172,22);
(-1531795260203213001,22);
(-1537901412748724731,22);
(-1543945997856018535,22);
(-1549928880443109482,22);
(-1555849927775345039,22);
(-1561709009467364222,22);
(-1567505997484549890,22);
(-1573240766144746387,22);
(-1578913192119859557,22);
(-1584523154437074573,22);
(-1590070534480365959,22);
(-1595555215991698072,22);
(-1600977085072144001,22);
(-1606336030183057588,22);
(-1611631942147045418,22);
(-1616864714148802190,22);
(-1622034241736069430,22);
(-1627140422820305254,22);
(-1632183157677305886,22);
(-1637162348947869734,22);
(-1642077901638237846,22);
(-1646929723120502381,22);
(-1651717723132891758,22);
(-1656441813780085614,22);
(-1661101909533315639,22);
(-1665697927230395654,22);
(-1670229786075785048,22);
(-1674697407640450260,22);
(-1679100715861622740,22);
(-1683439637042634417,22);
(-1687714099852501094,22);
(-1691924035325449466,22);
(-1696069376860520302,22);
(-1700150060220808419,22);
(-1704166023532863389,22);
(-1708117207285957974,22);
(-1712003554331125354,22);
(-1715825009880269812,22);
(-1719581521505229708,22);
(-1723273039136506257,22);
(-1726899515062232178,22);
(-1730460903926834605,22);
(-1733957162729666006,22);
(-1737388250823631317,22);
(-1740754129913643492,22);
(-1744054764054994494,22);
(-1747290119651748229,22);
(-1750460165454943489,22);
(-1753564872560722343,22);
(-1756604214408476693,22);
(-1759578166778806184,22);
(-1762486707791445473,22);
(-1765329817903072524,22)].
Definition mid_262 : list (Z * Z) := [
(-1768107479905120137,22);
(-1770819678921413745,22);
(-1773466402405756901,22);
(-1776047640139495881,22);
(-1778563384228910014,22);
(-1781013629102586016,22);
(-1783398371508690676,22);
(-1785717610512195031,22);
(-1787971347491934548,22);
(-1790159586137734095,22);
(-1792282332447294108,22);
(-1794339594723093573,22);
(-1796331383569258031,22);
(-1798257711888182563,22);
(-1800118594877267528,22);
(-1801914050025463752,22);
(-1803644097109737487,22);
(-1805308758191553800,22);
(-1806908057613164538,22);
(-1808442021993881654,22);
(-1809910680226299573,22);
(-1811314063472383123,22);
(-1812652205159478482,22);
(-1813925140976337677,22);
(-1815132908868963117,22);
(-1816275549036418225,22);
(-1817353103926566259,22);
(-1818365618231754916,22);
(-1819313138884383297,22);
(-1820195715052398135,22);
(-1821013398134776193,22);
(-1821766241756863822,22);
(-1822454301765652008,22);
(-1823077636225030275,22);
(-1823636305410920519,22);
(-1824130371806331958,22);
(-1824559900096393860,22);
(-1824924957163258170,22);
(-1825225612080964995,22);
(-1825461936110244399,22);
(-1825634002693198661,22);
(-1825741887447973697,22);
(-1825785668163316629,22);
(-1825765424793094065,22);
(-1825681239450706284,22);
(-1825533196403450475,22);
(-1825321382066837615,22);
(-1825045884998782774,22);
(-1824706795893784304,22);
(-1824304207576995151,22);
(-1823838214998261913,22);
(-1823308915226047339,22);
(-1822716407441320587,22);
(-1822060792931381058,22);
(-1821342175083605266,22);
(-1820560659379111300,22);
(-1819716353386392391,22);
(-1818809366754839884,22);
(-1817839811208264050,22);
(-1816807800538262831,22);
(-1815713450597606585,22);
(-1814556879293510608,22);
(-1813338206580860767,22);
(-1812057554455368392,22)].
Definition mid_263 : list (Z * Z) := [
(-1810715046946656049,22);
(-1809310810111300751,22);
(-1807844972025789360,22);
(-1806317662779418417,22);
(-1804729014467158733,22);
(-1803079161182383379,22);
(-1801368239009649064,22);
(-1799596386017289409,22);
(-1797763742250039392,22);
(-1795870449721572782,22);
(-1793916652406948506,22);
(-1791902496235038035,22);
(-1789828129080874171,22);
(-1787693700757942371,22);
(-1785499363010407557,22);
(-1783245269505291056,22);
(-1780931575824585471,22);
(-1778558439457310185,22);
(-1776126019791501821,22);
(-1773634478106175967,22);
(-1771083977563196743,22);
(-1768474683199085652,22);
(-1765806761916838296,22);
(-1763080382477592010,22);
(-1760295715492312199,22);
(-1757452933413390856,22);
(-1754552210526194665,22);
(-1751593722940540730,22);
(-1748577648582191283,22);
(-1745504167184149164,22);
(-1742373460278082598,22);
(-1739185711185566193,22);
(-1735941105009274781,22);
(-1732639828624223609,22);
(-1729282070668846435,22);
(-1725868021536064684,22);
(-1722397873364351186,22);
(-1718871820028644831,22);
(-1715290057131288806,22);
(-1711652781992939834,22);
(-1707960193643319924,22);
(-1704212492812016110,22);
(-1700409881919235722,22);
(-1696552565066424792,22);
(-1692640748026914637,22);
(-1688674638236499059,22);
(-1684654444783993655,22);
(-1680580378401653910,22);
(-1676452651455659696,22);
(-1672271477936518726,22);
(-1668037073449352104,22);
(-1663749655204242760,22);
(-1659409442006490364,22);
(-1655016654246796318,22);
(-1650571513891427062,22);
(-1646074244472387404,22);
(-1641525071077430957,22);
(-1636924220340138872,22);
(-1632271920429934878,22);
(-1627568401041943659,22);
(-1622813893387030555,22);
(-1618008630181590006,22);
(-1613152845637352427,22);
(-1608246775451269140,22)].
Definition mid_264 : list (Z * Z) := [
(-1603290656795160413,22);
(-1598284728305475173,22);
(-1593229230072979970,22);
(-1588124403632332475,22);
(-1582970491951708378,22);
(-1577767739422375698,22);
(-1572516391848175312,22);
(-1567216696435003653,22);
(-1561868901780303536,22);
(-1556473257862415398,22);
(-1551030016029978948,22);
(-1545539428991258386,22);
(-1540001750803473310,22);
(-1534417236862029065,22);
(-1528786143889750886,22);
(-1523108729926141082,22);
(-1517385254316474131,22);
(-1511615977700947607,22);
(-1505801162003850193,22);
(-1499941070422536695,22);
(-1494035967416507691,22);
(-1488086118696474263,22);
(-1482091791213196140,22);
(-1476053253146584381,22);
(-1469970773894543577,22);
(-1463844624061801049,22);
(-1457675075448910593,22);
(-1451462401040951847,22);
(-1445206874996382248,22);
(-1438908772635859724,22);
(-1432568370430905463,22);
(-1426185945992657750,22);
(-1419761778060623378,22);
(-1413296146491254215,22);
(-1406789332246638708,22);
(-1400241617383160314,22);
(-1393653285040007941,22);
(-1387024619427811880,22);
(-1380355905817142045,22);
(-1373647430527111116,22);
(-1366899480913779264,22);
(-1360112345358680040,22);
(-1353286313257320785,22);
(-1346421675007523119,22);
(-1339518721997900585,22);
(-1332577746596274757,22);
(-1325599042137975351,22);
(-1318582902914237356,22);
(-1311529624160579746,22);
(-1304439502045035384,22);
(-1297312833656484999,22);
(-1290149916993015033,22);
(-1282951050949993576,22);
(-1275716535308531478,22);
(-1268446670723617927,22);
(-1261141758712232708,22);
(-1253802101641751209,22);
(-1246428002717956936,22);
(-1239019765973267077,22);
(-1231577696254946143,22);
(-1224102099213130140,22);
(-1216593281289018254,22);
(-1209051549703030242,22);
(-1201477212442807164,22)].
Definition mid_265 : list (Z * Z) := [
(-1193870578251345196,22);
(-1186231956615130527,22);
(-1178561657752098888,22);
(-1170859992599766926,22);
(-1163127272803225206,22);
(-1155363810703263490,22);
(-1147569919324271714,22);
(-1139745912362324069,22);
(-1131892104173229732,22);
(-1124008809760428161,22);
(-1116096344763034813,22);
(-1108155025443885786,22);
(-1100185168677391767,22);
(-1092187091937578478,22);
(-1084161113286116805,22);
(-1076107551360083378,22);
(-1068026725360152662,22);
(-1059918955038434781,22);
(-1051784560686322293,22);
(-1043623863122651645,22);
(-1035437183681457658,22);
(-1027224844199966933,22);
(-1018987167006602239,22);
(-1010724474908790389,22);
(-1002437091180949412,22);
(-9941253395524840032,23);
(-9857895441955837686,23);
(-9774300297132163689,23);
(-9690471211271142868,23);
(-9606411438655779590,23);
(-9522124237514915479,23);
(-9437612869902159266,23);
(-9352880601575852060,23);
(-9267930701877419861,23);
(-9182766443611142316,23);
(-9097391102924314498,23);
(-9011807959185397492,23);
(-8926020294864151709,23);
(-8840031395411717351,23);
(-8753844549139025205,23);
(-8667463047096955709,23);
(-8580890182956689113,23);
(-8494129252888212489,23);
(-8407183555440741725,23);
(-8320056391423181455,23);
(-8232751063782899059,23);
(-8145270877486337742,23);
(-8057619139399704151,23);
(-7969799158168016132,23);
(-7881814244096163049,23);
(-7793667709028861555,23);
(-7705362866232014067,23);
(-7616903030272012662,23);
(-7528291516897048761,23);
(-7439531642918523094,23);
(-7350626726090823937,23);
(-7261580084992840087,23);
(-7172395038909805853,23);
(-7083074907713423545,23);
(-6993623011743750476,23);
(-6904042671691702630,23);
(-6814337208478443936,23);
(-6724509943139868600,23);
(-6634564196707426953,23)].
Definition mid_266 : list (Z * Z) := [
(-6544503290088958081,23);
(-6454330543953721027,23);
(-6364049278612536240,23);
(-6273662813901244686,23);
(-6183174469064137136,23);
(-6092587562635654838,23);
(-6001905412324112224,23);
(-5911131334895745545,23);
(-5820268646056820803,23);
(-5729320660338046951,23);
(-5638290690979031112,23);
(-5547182049811131215,23);
(-5455998047142553603,23);
(-5364741991642378637,23);
(-5273417190226172620,23);
(-5182026947939526195,23);
(-5090574567843844482,23);
(-4999063350902295110,23);
(-4907496595864112326,23);
(-4815877599150988192,23);
(-4724209654743732802,23);
(-4632496054067239074,23);
(-4540740085877575293,23);
(-4448945036149627881,23);
(-4357114187961620320,23);
(-4265250821385204182,23);
(-4173358213371594866,23);
(-4081439637638023104,23);
(-3989498364558491427,23);
(-3897537661049697800,23);
(-3805560790460379240,23);
(-3713571012460757073,23);
(-3621571582930308459,23);
(-3529565753847758492,23);
(-3437556773181348106,23);
(-3345547884777428906,23);
(-3253542328251334833,23);
(-3161543338878512684,23);
(-3069554147484003959,23);
(-2977577980334398359,23);
(-2885618059028785404,23);
(-2793677600391348290,23);
(-2701759816362029885,23);
(-2609867913889508769,23);
(-2518005094824508650,23);
(-2426174555811442190,23);
(-2334379488182336724,23);
(-2242623077851109645,23);
(-2150908505206193760,23);
(-2059238945005458792,23);
(-1967617566271486932,23);
(-1876047532185217014,23);
(-1784531999981886515,23);
(-1693074120847545477,23);
(-1601677039812668827,23);
(-1510343895651326084,23);
(-1419077820776580416,23);
(-1327881941136239376,23);
(-1236759376113135585,23);
(-1145713238420517479,23);
(-1054746634001075531,23);
(-9638626619261631142,24);
(-8730644142933770109,24);
(-7823549761265219694,24)].
Definition mid_267 : list (Z * Z) := [
(-6917374252759404239,24);
(-6012148323172715587,24);
(-5107902604525509790,24);
(-4204667654117172963,24);
(-3302473953525395900,24);
(-2401351907631273461,24);
(-1501331843635360604,24);
(-6024440100907752780,25);
(2952814240813488971,25);
(1191814370550560616,24);
(2087124822544718775,24);
(2981182855800449203,24);
(3873958629533237150,24);
(4765422387370817619,24);
(5655544458312672488,24);
(6544295257674329934,24);
(7431645288005860712,24);
(8317565140049265089,24);
(9202025493650286029,24);
(1008499711868988624,23);
(1096645087600670940,23);
(1184635771831740180,23);
(1272468869110877350,23);
(1360141493356852997,23);
(1447650767946839209,23);
(1534993825807918981,23);
(1622167809504512388,23);
(1709169871329599150,23);
(1795997173391202393,23);
(1882646887700788730,23);
(1969116196260968364,23);
(2055402291153119961,23);
(2141502374622265733,23);
(2227413659165448814,23);
(2313133367615436721,23);
(2398658733226025704,23);
(2483986999757942419,23);
(2569115421561321566,23);
(2654041263660582986,23);
(2738761801837843408,23);
(2823274322713895842,23);
(2907576123831658591,23);
(2991664513738264263,23);
(3075536812064811308,23);
(3159190349608258556,23);
(3242622468411841504,23);
(3325830521842883816,23);
(3408811874674232763,23);
(3491563903161259936,23);
(3574083995120635993,23);
(3656369550008192634,23);
(3738417978996398335,23);
(3820226705049147969,23);
(3901793163000071338,23);
(3983114799626283998,23);
(4064189073725000368,23);
(4145013456186270824,23);
(4225585430069115050,23);
(4305902490673210845,23);
(4385962145612164501,23);
(4465761914886132026,23);
(4545299330954223513,23);
(4624571938804247838,23);
(4703577296025655071,23)].
Definition mid_268 : list (Z * Z) := [
(4782312972877953019,23);
(4860776552360599644,23);
(4938965630283344066,23);
(5016877815333190276,23);
(5094510729143668170,23);
(5171862006362476922,23);
(5248929294716893546,23);
(5325710255081278033,23);
(5402202561543325557,23);
(5478403901467974774,23);
(5554311975563655285,23);
(5629924497944692956,23);
(5705239196197055263,23);
(5780253811439589059,23);
(5854966098386711859,23);
(5929373825411444641,23);
(6003474774605410918,23);
(6077266741839936951,23);
(6150747536827406070,23);
(6223914983179369882,23);
(6296766918465726733,23);
(6369301194274349439,23);
(6441515676267491584,23);
(6513408244240155543,23);
(6584976792177056463,23);
(6656219228307079028,23);
(6727133475160919070,23);
(6797717469624548284,23);
(6867969162994176505,23);
(6937886521030273439,23);
(7007467524011137729,23);
(7076710166783914098,23);
(7145612458818644886,23);
(7214172424258097273,23);
(7282388101970076037,23);
(7350257545596115068,23);
(7417778823603089463,23);
(7484950019330741523,23);
(7551769231040494251,23);
(7618234571963618381,23);
(7684344170348963033,23);
(7750096169508325500,23);
(7815488727864462434,23);
(7880520018995008165,23);
(7945188231677633079,23);
(8009491569935304990,23);
(8073428253078868469,23);
(8136996515750435975,23);
(8200194607966915857,23);
(8263020795160580490,23);
(8325473358220520747,23);
(8387550593534295624,23);
(8449250813026791399,23);
(8510572344200524142,23);
(8571513530174807870,23);
(8632072729722484606,23);
(8692248317309331067,23);
(8752038683129901024,23);
(8811442233144304160,23);
(8870457389114338456,23);
(8929082588638862286,23);
(8987316285187106537,23);
(9045156948134251338,23);
(9102603062793538779,23)].
Definition mid_269 : list (Z * Z) := [
(9159653130450137965,23);
(9216305668392023092,23);
(9272559209943155459,23);
(9328412304492929037,23);
(9383863517526969946,23);
(9438911430656809717,23);
(9493554641649538212,23);
(9547791764454981872,23);
(9601621429235263126,23);
(9655042282390628803,23);
(9708052986586289553,23);
(9760652220779222682,23);
(9812838680242494871,23);
(9864611076590789718,23);
(9915968137804796864,23);
(9966908608253591284,23);
(1001743124871836511,22);
(1006753483641505495,22);
(1011721816501509347,22);
(1016648004466722905,22);
(1021531930201818650,22);
(1026373478023125444,22);
(1031172533900710195,22);
(1035928985460102687,22);
(1040642721984211093,22);
(1045313634414944215,22);
(1049941615355039177,22);
(1054526559069498941,22);
(1059068361487303583,22);
(1063566920202775173,22);
(1068022134477129804,22);
(1072433905239719281,22);
(1076802135089481642,22);
(1081126728296077813,22);
(1085407590801087480,22);
(1089644630219215672,22);
(1093837755839255533,22);
(1097986878625127665,22);
(1102091911216893311,22);
(1106152767931523875,22);
(1110169364763758927,22);
(1114141619386907023,22);
(1118069451153470476,22);
(1121952781095839519,22);
(1125791531926881702,22);
(1129585628040368796,22);
(1133334995511501008,22);
(1137039562097310843,22);
(1140699257236937680,22);
(1144314012051948288,22);
(1147883759346569253,22);
(1151408433607740240,22);
(1154887971005323107,22);
(1158322309392037936,22);
(1161711388303520364,22);
(1165055148958135504,22);
(1168353534256955583,22);
(1171606488783407714,22);
(1174813958803127119,22);
(1177975892263542019,22);
(1181092238793556910,22);
(1184162949703029973,22);
(1187187977982362983,22);
(1190167278301852000,22)].
Definition mid_270 : list (Z * Z) := [
(1193100807011072902,22);
(1195988522138254984,22);
(1198830383389472417,22);
(1201626352147854541,22);
(1204376391472792771,22);
(1207080466098931610,22);
(1209738542435215096,22);
(1212350588563896518,22);
(1214916574239373304,22);
(1217436470887086827,22);
(1219910251602316097,22);
(1222337891148846220,22);
(1224719365957710460,22);
(1227054654125758813,22);
(1229343735414234321,22);
(1231586591247274835,22);
(1233783204710379956,22);
(1235933560548721033,22);
(1238037645165556062,22);
(1240095446620432347,22);
(1242106954627461807,22);
(1244072160553410340,22);
(1245991057415880973,22);
(1247863639881286672,22);
(1249689904262876012,22);
(1251469848518637956,22);
(1253203472249227505,22);
(1254890776695720585,22);
(1256531764737451066,22);
(1258126440889665361,22);
(1259674811301178380,22);
(1261176883752020540,22);
(1262632667650915913,22);
(1264042174032825963,22);
(1265405415556367791,22);
(1266722406501169496,22);
(1267993162765220384,22);
(1269217701862141486,22);
(1270396042918389679,22);
(1271528206670432789,22);
(1272614215461862364,22);
(1273654093240424320,22);
(1274647865555052825,22);
(1275595559552792258,22);
(1276497203975718612,22);
(1277352829157760346,22);
(1278162467021519769,22);
(1278926151074969212,22);
(1279643916408172396,22);
(1280315799689897116,22);
(1280941839164217891,22);
(1281522074647016432,22);
(1282056547522501897,22);
(1282545300739606185,22);
(1282988378808358910,22);
(1283385827796232825,22);
(1283737695324414709,22);
(1284044030564011473,22);
(1284304884232255993,22);
(1284520308588603171,22);
(1284690357430805935,22);
(1284815086090963592,22);
(1284894551431463663,22);
(1284928811840932927,22)].
Definition mid_271 : list (Z * Z) := [
(1284917927230116367,22);
(1284861959027673725,22);
(1284760970175989592,22);
(1284615025126892719,22);
(1284424189837336003,22);
(1284188531765034476,22);
(1283908119864055856,22);
(1283583024580350375,22);
(1283213317847250535,22);
(1282799073080907422,22);
(1282340365175699932,22);
(1281837270499577570,22);
(1281289866889366677,22);
(1280698233646027041,22);
(1280062451529876257,22);
(1279382602755736839,22);
(1278658770988078184,22);
(1277891041336076130,22);
(1277079500348651917,22);
(1276224236009459653,22);
(1275325337731827698,22);
(1274382896353649084,22);
(1273397004132248639,22);
(1272367754739175559,22);
(1271295243254984600,22);
(1270179566163950056,22);
(1269020821348746655,22);
(1267819108085093880,22);
(1266574527036339287,22);
(1265287180248019611,22);
(1263957171142360064,22);
(1262584604512751135,22);
(1261169586518176339,22);
(1259712224677588725,22);
(1258212627864269779,22);
(1256670906300113503,22);
(1255087171549896141,22);
(1253461536515512828,22);
(1251794115430136995,22);
(1250085023852383836,22);
(1248334378660397612,22);
(1246542298045934076,22);
(1244708901508351825,22);
(1242834309848641326,22);
(1240918645163340103,22);
(1238962030838462291,22);
(1236964591543354729,22);
(1234926453224550894,22);
(1232847743099538902,22);
(1230728589650547408,22);
(1228569122618265632,22);
(1226369472995509724,22);
(1224129773020896984,22);
(1221850156172453407,22);
(1219530757161173793,22);
(1217171711924584841,22);
(1214773157620262429,22);
(1212335232619264738,22);
(1209858076499619996,22);
(1207341830039695355,22);
(1204786635211565782,22);
(1202192635174392153,22);
(1199559974267663017,22);
(1196888798004520926,22)].
Definition mid_272 : list (Z * Z) := [
(1194179253064969905,22);
(1191431487289076695,22);
(1188645649670141090,22);
(1185821890347872241,22);
(1182960360601446778,22);
(1180061212842623588,22);
(1177124600608760467,22);
(1174150678555863162,22);
(1171139602451523425,22);
(1168091529167905303,22);
(1165006616674679399,22);
(1161885024031892341,22);
(1158726911382824601,22);
(1155532439946868644,22);
(1152301772012276424,22);
(1149035070928978856,22);
(1145732501101350112,22);
(1142394227980874630,22);
(1139020418058898806,22);
(1135611238859260056,22);
(1132166858930924123,22);
(1128687447840643682,22);
(1125173176165511903,22);
(1121624215485506521,22);
(1118040738376078509,22);
(1114422918400608334,22);
(1110770930102897308,22);
(1107084948999681993,22);
(1103365151572992199,22);
(1099611715262632718,22);
(1095824818458501212,22);
(1092004640493029560,22);
(1088151361633424768,22);
(1084265163074088901,22);
(1080346226928835464,22);
(1076394736223217042,22);
(1072410874886718234,22);
(1068394827745053479,22);
(1064346780512280842,22);
(1060266919783064195,22);
(1056155433024818857,22);
(1052012508569847866,22);
(1047838335607436663,22);
(1043633104176028129,22);
(1039397005155208437,22);
(1035130230257845225,22);
(1030832972022132136,22);
(1026505423803556361,22);
(1022147779766975569,22);
(1017760234878557670,22);
(1013342984897746207,22);
(1008896226369277094,22);
(1004420156615070016,22);
(9999149737261256313,23);
(9953808765544943542,23);
(9908180647051075636,23);
(9862267385276454106,23);
(9816070991084661532,23);
(9769593482623487371,23);
(9722836885244083062,23);
(9675803231418238757,23);
(9628494560657163031,23);
(9580912919428301528,23);
(9533060361074271170,23)].
Definition mid_273 : list (Z * Z) := [
(9484938945729212603,23);
(9436550740237209403,23);
(9387897818068666276,23);
(9338982259238482961,23);
(9289806150221876775,23);
(9240371583872346458,23);
(9190680659338318706,23);
(9140735481979174004,23);
(9090538163282673790,23);
(9040090820781176019,23);
(8989395577967375036,23);
(8938454564211442785,23);
(8887269914677176606,23);
(8835843770237281037,23);
(8784178277390430412,23);
(8732275588176149504,23);
(8680137860091756863,23);
(8627767256006760278,23);
(8575165944079697112,23);
(8522336097673384936,23);
(8469279895270370013,23);
(8415999520388011237,23);
(8362497161494898983,23);
(8308775011924755902,23);
(8254835269792869332,23);
(8200680137911156250,23);
(8146311823702630565,23);
(8091732539117420817,23);
(8036944500547171062,23);
(7981949928739913382,23);
(7926751048716019175,23);
(7871350089682433349,23);
(7815749284947355732,23);
(7759950871835902351,23);
(7703957091604317928,23);
(7647770189354594962,23);
(7591392413950464322,23);
(7534826017930776982,23);
(7478073257425246604,23);
(7421136392068941221,23);
(7364017684916770860,23);
(7306719402358060537,23);
(7249243814032418887,23);
(7191593192743057548,23);
(7133769814372726192,23);
(7075775957797366669,23);
(7017613904802144252,23);
(6959285939994649126,23);
(6900794350720966942,23);
(6842141426980163726,23);
(6783329461339003888,23);
(6724360748846380928,23);
(6665237586949324285,23);
(6605962275406314669,23);
(6546537116203540285,23);
(6486964413469693445,23);
(6427246473390174945,23);
(6367385604123233735,23);
(6307384115714270224,23);
(6247244320010872777,23);
(6186968530579037349,23);
(6126559062617670010,23);
(6066018232873614631,23);
(6005348359557971457,23)].
Definition mid_274 : list (Z * Z) := [
(5944551762260716853,23);
(5883630761866076592,23);
(5822587680469341111,23);
(5761424841290975024,23);
(5700144568593581458,23);
(5638749187596620071,23);
(5577241024393500140,23);
(5515622405865875061,23);
(5453895659601687505,23);
(5392063113809588597,23);
(5330127097236401671,23);
(5268089939082399323,23);
(5205953968918941317,23);
(5143721516603453481,23);
(5081394912197322435,23);
(5018976485882552967,23);
(4956468567877652244,23);
(4893873488355664800,23);
(4831193577360924787,23);
(4768431164725405710,23);
(4705588579987165387,23);
(4642668152307624028,23);
(4579672210388313099,23);
(4516603082389661800,23);
(4453463095847968187,23);
(4390254577593236975,23);
(4326979853668558263,23);
(4263641249246714773,23);
(4200241088549816715,23);
(4136781694767275794,23);
(4073265389974401959,23);
(4009694495050920865,23);
(3946071329601255194,23);
(3882398211872058891,23);
(3818677458672821028,23);
(3754911385294185409,23);
(3691102305428816007,23);
(3627252531089499038,23);
(3563364372531120389,23);
(3499440138169012998,23);
(3435482134500644248,23);
(3371492666024863239,23);
(3307474035163948005,23);
(3243428542182762658,23);
(3179358485111165100,23);
(3115266159665085920,23);
(3051153859167018086,23);
(2987023874468685547,23);
(2922878493872556820,23);
(2858720003052916093,23);
(2794550684979286022,23);
(2730372819838677219,23);
(2666188684957304119,23);
(2602000554724588161,23);
(2537810700515306993,23);
(2473621390612689978,23);
(2409434890133213189,23);
(2345253460948628331,23);
(2281079361611086382,23);
(2216914847276788082,23);
(2152762169630188368,23);
(2088623576808264857,23);
(2024501313326714172,23);
(1960397620003284614,23)].
Definition mid_275 : list (Z * Z) := [
(1896314733884459027,23);
(1832254888169719884,23);
(1768220312138699715,23);
(1704213231075473977,23);
(1640235866196212581,23);
(1576290434575326077,23);
(1512379149072065329,23);
(1448504218257062422,23);
(1384667846340775344,23);
(1320872233099333137,23);
(1257119573803645674,23);
(1193412059147283715,23);
(1129751875173838041,23);
(1066141203206686703,23);
(1002582219776904043,23);
(9390770965521807415,24);
(8756280002674018430,24);
(8122370926533653768,24);
(7489065303663868882,24);
(6856384649195353557,24);
(6224350426121986744,24);
(5592984044606705769,24);
(4962306861305528297,24);
(4332340178664007615,24);
(3703105244246982238,24);
(3074623250045389130,24);
(2446915331811808288,24);
(1820002568367166485,24);
(1193905980949734002,24);
(5686465325277691493,25);
(-5575487285304644198,26);
(-6792773907448401563,25);
(-1301900236944085969,24);
(-1923602688165210920,24);
(-2544364082680986205,24);
(-3164163820976385644,24);
(-3782981366397813248,24);
(-4400796245802158099,24);
(-5017588050186235963,24);
(-5633336435341474612,24);
(-6248021122475436530,24);
(-6861621898845164503,24);
(-7474118618394712831,24);
(-8085491202368466090,24);
(-8695719639942215106,24);
(-9304783988843304504,24);
(-9912664375954183488,24);
(-1051934099793345803,23);
(-1112479412182761974,23);
(-1172900408566606791,23);
(-1233195129907195915,23);
(-1293361624386246407,23);
(-1353397947463050106,23);
(-1413302161935288219,23);
(-1473072337996534868,23);
(-1532706553295916325,23);
(-1592202892994946760,23);
(-1651559449827052120,23);
(-1710774324152980488,23);
(-1769845624019637497,23);
(-1828771465215499564,23);
(-1887549971328155552,23);
(-1946179273799034581,23);
(-2004657511980633609,23)].
Definition mid_276 : list (Z * Z) := [
(-2062982833190547631,23);
(-2121153392766515300,23);
(-2179167354121897552,23);
(-2237022888798842138,23);
(-2294718176522451720,23);
(-2352251405255091217,23);
(-2409620771248360396,23);
(-2466824479095987345,23);
(-2523860741787020118,23);
(-2580727780756699865,23);
(-2637423825938933511,23);
(-2693947115817652075,23);
(-2750295897476430872,23);
(-2806468426650501405,23);
(-2862462967775755948,23);
(-2918277794038877664,23);
(-2973911187426810042,23);
(-3029361438776029481,23);
(-3084626847819818535,23);
(-3139705723238017584,23);
(-3194596382703590294,23);
(-3249297152931071537,23);
(-3303806369722434559,23);
(-3358122378015165860,23);
(-3412243531927313121,23);
(-3466168194803569889,23);
(-3519894739260904230,23);
(-3573421547233996282,23);
(-3626747010018807605,23);
(-3679869528318357541,23);
(-3732787512285343890,23);
(-3785499381565763066,23);
(-3838003565342774887,23);
(-3890298502378413190,23);
(-3942382641056034373,23);
(-3994254439423548607,23);
(-4045912365232555468,23);
(-4097354895980823651,23);
(-4148580518953054268,23);
(-4199587731260208921,23);
(-4250375039880140181,23);
(-4300940961697082297,23);
(-4351284023539532541,23);
(-4401402762220268434,23);
(-4451295724573500642,23);
(-4500961467493005047,23);
(-4550398557969644270,23);
(-4599605573128578848,23);
(-4648581100264606125,23);
(-4697323736879700751,23);
(-4745832090717593281,23);
(-4794104779800016403,23);
(-4842140432460515111,23);
(-4889937687380196914,23);
(-4937495193620665830,23);
(-4984811610657907774,23);
(-5031885608415570142,23);
(-5078715867298121454,23);
(-5125301078222226135,23);
(-5171639942649958372,23);
(-5217731172619310883,23);
(-5263573490775318294,23);
(-5309165630401457673,23);
(-5354506335448944344,23)].
Definition mid_277 : list (Z * Z) := [
(-5399594360567233208,23);
(-5444428471133557152,23);
(-5489007443280881170,23);
(-5533330063927232743,23);
(-5577395130803952081,23);
(-5621201452482593887,23);
(-5664747848402928239,23);
(-5708033148899782042,23);
(-5751056195228484579,23);
(-5793815839592066753,23);
(-5836310945165795229,23);
(-5878540386123149239,23);
(-5920503047659557156,23);
(-5962197826017918615,23);
(-6003623628510942461,23);
(-6044779373545825906,23);
(-6085663990646246214,23);
(-6126276420475775398,23);
(-6166615614858962538,23);
(-6206680536804276170,23);
(-6246470160524302299,23);
(-6285983471456668822,23);
(-6325219466285137327,23);
(-6364177152958735192,23);
(-6402855550711508399,23);
(-6441253690082210642,23);
(-6479370612932165555,23);
(-6517205372463561277,23);
(-6554757033237868327,23);
(-6592024671192342521,23);
(-6629007373657662232,23);
(-6665704239374386575,23);
(-6702114378508195228,23);
(-6738236912666610893,23);
(-6774070974913359551,23);
(-6809615709783453077,23);
(-6844870273297710766,23);
(-6879833832976684556,23);
(-6914505567853355039,23);
(-6948884668487257256,23);
(-6982970336976173818,23);
(-7016761786969062664,23);
(-7050258243676985818,23);
(-7083458943885569581,23);
(-7116363135964506208,23);
(-7148970079879194176,23);
(-7181279047199880716,23);
(-7213289321111999682,23);
(-7245000196424561921,23);
(-7276410979579796539,23);
(-7307520988660740318,23);
(-7338329553399098183,23);
(-7368836015183327279,23);
(-7399039727064959232,23);
(-7428940053765422486,23);
(-7458536371682649162,23);
(-7487828068896246702,23);
(-7516814545172741341,23);
(-7545495211971084502,23);
(-7573869492446410907,23);
(-7601936821454512269,23);
(-7629696645555583212,23);
(-7657148423016670209,23);
(-7684291623815294175,23)].
Definition mid_278 : list (Z * Z) := [
(-7711125729641124201,23);
(-7737650233898160873,23);
(-7763864641706328686,23);
(-7789768469902625303,23);
(-7815361247041097159,23);
(-7840642513393934504,23);
(-7865611820950585073,23);
(-7890268733417691736,23);
(-7914612826217439097,23);
(-7938643686486866378,23);
(-7962360913075390014,23);
(-7985764116542591888,23);
(-8008852919155679581,23);
(-8031626954886464159,23);
(-8054085869407389287,23);
(-8076229320088036028,23);
(-8098056975990718272,23);
(-8119568517865204029,23);
(-8140763638144178041,23);
(-8161642040937130949,23);
(-8182203442024758031,23);
(-8202447568852058257,23);
(-8222374160522193641,23);
(-8241982967788378048,23);
(-8261273753047048080,23);
(-8280246290329136604,23);
(-8298900365292210927,23);
(-8317235775211005006,23);
(-8335252328968763443,23);
(-8352949847047152988,23);
(-8370328161516191656,23);
(-8387387116023904080,23);
(-8404126565785606886,23);
(-8420546377572122058,23);
(-8436646429698789907,23);
(-8452426612012838112,23);
(-8467886825881031304,23);
(-8483026984177053666,23);
(-8497847011267900834,23);
(-8512346843000541505,23);
(-8526526426687825518,23);
(-8540385721093718375,23);
(-8553924696418820366,23);
(-8567143334285144370,23);
(-8580041627720267532,23);
(-8592619581141530368,23);
(-8604877210339833367,23);
(-8616814542462326344,23);
(-8628431615995866232,23);
(-8639728480749045067,23);
(-8650705197834629987,23);
(-8661361839650910882,23);
(-8671698489863530527,23);
(-8681715243385848318,23);
(-8691412206360001980,23);
(-8700789496136810514,23);
(-8709847241255837084,23);
(-8718585581424549290,23);
(-8727004667497822326,23);
(-8735104661456318637,23);
(-8742885736384824202,23);
(-8750348076450507569,23);
(-8757491876880262743,23);
(-8764317343938039871,23)].
Definition mid_279 : list (Z * Z) := [
(-8770824694901854736,23);
(-8777014158040174834,23);
(-8782885972588042533,23);
(-8788440388723046438,23);
(-8793677667540564995,23);
(-8798598081029018216,23);
(-8803201912044573247,23);
(-8807489454285378301,23);
(-8811461012265841316,23);
(-8815116901290020925,23);
(-8818457447425140751,23);
(-8821482987474516880,23);
(-8824193868950264423,23);
(-8826590450045338659,23);
(-8828673099605780807,23);
(-8830442197102115424,23);
(-8831898132600694937,23);
(-8833041306734530542,23);
(-8833872130674032296,23);
(-8834391026097091913,23);
(-8834598425159074760,23);
(-8834494770462315827,23);
(-8834080515025570979,23);
(-8833356122252653691,23);
(-8832322065901227653,23);
(-8830978830050965098,23);
(-8829326909071538449,23);
(-8827366807590174215,23);
(-8825099040459032053,23);
(-8822524132722051222,23);
(-8819642619581737411,23);
(-8816455046365366793,23);
(-8812961968491066765,23);
(-8809163951433589040,23);
(-8805061570689537930,23);
(-8800655411742644701,23);
(-8795946070028372440,23);
(-8790934150898470779,23);
(-8785620269585141652,23);
(-8780005051164863539,23);
(-8774089130521977177,23);
(-8767873152311891807,23);
(-8761357770924130142,23);
(-8754543650444930169,23);
(-8747431464619596225,23);
(-8740021896814629176,23);
(-8732315639979467629,23);
(-8724313396607997399,23);
(-8716015878699776378,23);
(-8707423807720901607,23);
(-8698537914564708309,23);
(-8689358939512097568,23);
(-8679887632191602461,23);
(-8670124751539183127,23);
(-8660071065757758918,23);
(-8649727352276470865,23);
(-8639094397709622933,23);
(-8628172997815373925,23);
(-8616963957454220669,23);
(-8605468090547117995,23);
(-8593686220033350709,23);
(-8581619177828221244,23);
(-8569267804780515056,23);
(-8556632950629352089,23)].
Definition mid_280 : list (Z * Z) := [
(-8543715473961318771,23);
(-8530516242166929174,23);
(-8517036131396897775,23);
(-8503276026518465092,23);
(-8489236821071021279,23);
(-8474919417221874753,23);
(-8460324725721427204,23);
(-8445453665858462453,23);
(-8430307165414772594,23);
(-8414886160620121589,23);
(-8399191596106253413,23);
(-8383224424861417904,23);
(-8366985608183923539,23);
(-8350476115636145584,23);
(-8333696924997654673,23);
(-8316649022218722156,23);
(-8299333401373212870,23);
(-8281751064611290883,23);
(-8263903022112106269,23);
(-8245790292036086144,23);
(-8227413900476843525,23);
(-8208774881413384344,23);
(-8189874276661666648,23);
(-8170713135825959225,23);
(-8151292516250347950,23);
(-8131613482969531981,23);
(-8111677108659741929,23);
(-8091484473589571284,23);
(-8071036665570124804,23);
(-8050334779905507065,23);
(-8029379919342759426,23);
(-8008173194021726523,23);
(-7986715721424518890,23);
(-7965008626325439088,23);
(-7943053040739763988,23);
(-7920850103873197916,23);
(-7898400962070459784,23);
(-7875706768764412322,23);
(-7852768684424013600,23);
(-7829587876503348682,23);
(-7806165519389264020,23);
(-7782502794349749938,23);
(-7758600889481486937,23);
(-7734460999657814828,23);
(-7710084326475896851,23);
(-7685472078204253778,23);
(-7660625469730052714,23);
(-7635545722505783321,23);
(-7610234064496386702,23);
(-7584691730125947887,23);
(-7558919960223839450,23);
(-7532920001971573915,23);
(-7506693108848959569,23);
(-7480240540579838847,23);
(-7453563563078505715,23);
(-7426663448395130990,23);
(-7399541474661395027,23);
(-7372198926036468698,23);
(-7344637092651743479,23);
(-7316857270556582037,23);
(-7288860761663183837,23);
(-7260648873691578149,23);
(-7232222920114266039,23);
(-7203584220101474933,23)].
Definition mid_281 : list (Z * Z) := [
(-7174734098465177195,23);
(-7145673885603995041,23);
(-7116404917447121531,23);
(-7086928535399056078,23);
(-7057246086283091766,23);
(-7027358922285829943,23);
(-6997268400900919622,23);
(-6966975884872874118,23);
(-6936482742140422846,23);
(-6905790345780647797,23);
(-6874900073951732248,23);
(-6843813309836921063,23);
(-6812531441587643438,23);
(-6781055862266379525,23);
(-6749387969790195173,23);
(-6717529166873340203,23);
(-6685480860970044546,23);
(-6653244464217917468,23);
(-6620821393380185347,23);
(-6588213069788209978,23);
(-6555420919284555767,23);
(-6522446372164990335,23);
(-6489290863120848328,23);
(-6455955831181954953,23);
(-6422442719658088542,23);
(-6388752976081866141,23);
(-6354888052150154580,23);
(-6320849403666927596,23);
(-6286638490484205272,23);
(-6252256776445088706,23);
(-6217705729324737396,23);
(-6182986820772794039,23);
(-6148101526254557076,23);
(-6113051324993372968,23);
(-6077837699911396740,23);
(-6042462137571917851,23);
(-6006926128120685201,23);
(-5971231165227442887,23);
(-5935378746027074288,23);
(-5899370371061640614,23);
(-5863207544221014065,23);
(-5826891772684785598,23);
(-5790424566863610945,23);
(-5753807440339950833,23);
(-5717041909810034999,23);
(-5680129495024546841,23);
(-5643071718729775638,23);
(-5605870106609462652,23);
(-5568526187225433609,23);
(-5531041491958633684,23);
(-5493417554950761510,23);
(-5455655913044964677,23);
(-5417758105726791366,23);
(-5379725675066096769,23);
(-5341560165657167344,23);
(-5303263124560543882,23);
(-5264836101243477800,23);
(-5226280647521728461,23);
(-5187598317499646092,23);
(-5148790667512404820,23);
(-5109859256066130311,23);
(-5070805643779714711,23);
(-5031631393325230924,23);
(-4992338069369868845,23)].
Definition mid_282 : list (Z * Z) := [
(-4952927238516060290,23);
(-4913400469243442339,23);
(-4873759331849922808,23);
(-4834005398392349326,23);
(-4794140242628299191,23);
(-4754165439957169250,23);
(-4714082567360894431,23);
(-4673893203345903628,23);
(-4633598927884416250,23);
(-4593201322355216999,23);
(-4552701969485745245,23);
(-4512102453292990423,23);
(-4471404359024867863,23);
(-4430609273102518233,23);
(-4389718783060873604,23);
(-4348734477490947403,23);
(-4307657945981225835,23);
(-4266490779059236833,23);
(-4225234568133118344,23);
(-4183890905434221337,23);
(-4142461383957948286,23);
(-4100947597406484250,23);
(-4059351140130022952,23);
(-4017673607069634071,23);
(-3975916593698287384,23);
(-3934081695963874555,23);
(-3892170510231242943,23);
(-3850184633224354772,23);
(-3808125661968411740,23);
(-3765995193733019788,23);
(-3723794825973633372,23);
(-3681526156275023129,23);
(-3639190782293836202,23);
(-3596790301700766249,23);
(-3554326312124045508,23);
(-3511800411092171135,23);
(-3469214195976345590,23);
(-3426569263934300057,23);
(-3383867211853393482,23);
(-3341109636293315872,23);
(-3298298133430213266,23);
(-3255434298999571280,23);
(-3212519728239682096,23);
(-3169556015836203790,23);
(-3126544755864805352,23);
(-3083487541735845951,23);
(-3040385966138062153,23);
(-2997241620982529574,23);
(-2954056097346664857,23);
(-2910830985419444997,23);
(-2867567874444683585,23);
(-2824268352666494753,23);
(-2780934007273126764,23);
(-2737566424342652630,23);
(-2694167188786718311,23);
(-2650737884296492533,23);
(-2607280093287594054,23);
(-2563795396845234767,23);
(-2520285374669323152,23);
(-2476751605020780685,23);
(-2433195664666105564,23);
(-2389619128824027250,23);
(-2346023571111360736,23);
(-2302410563488442377,23)].
Definition mid_283 : list (Z * Z) := [
(-2258781676206124937,23);
(-2215138477751522086,23);
(-2171482534794368170,23);
(-2127815412134465237,23);
(-2084138672647828009,23);
(-2040453877233409233,23);
(-1996762584760853335,23);
(-1953066352017126907,23);
(-1909366733653743809,23);
(-1865665282135244225,23);
(-1821963547685721466,23);
(-1778263078237570386,23);
(-1734565419378691814,23);
(-1690872114301532339,23);
(-1647184703750179317,23);
(-1603504725970282581,23);
(-1559833716656460479,23);
(-1516173208902037270,23);
(-1472524733147193533,23);
(-1428889817128959880,23);
(-1385269985829893536,23);
(-1341666761427490312,23);
(-1298081663244770738,23);
(-1254516207699006446,23);
(-1210971908252558378,23);
(-1167450275362782243,23);
(-1123952816432302429,23);
(-1080481035759382310,23);
(-1037036434489603729,23);
(-9936205105656713152,24);
(-9502347586794675395,24);
(-9068806702225443175,24);
(-8635597332385602451,24);
(-8202734323737344228,24);
(-7770232488301851052,24);
(-7338106603167762090,24);
(-6906371410023311096,24);
(-6475041614672838314,24);
(-6044131886572840882,24);
(-5613656858349518961,24);
(-5183631125338718259,24);
(-4754069245117851155,24);
(-4324985737034575381,24);
(-3896395081750927663,24);
(-3468311720780319843,24);
(-3040750056022464431,24);
(-2613724449314812633,24);
(-2187249221976859945,24);
(-1761338654351428049,24);
(-1336006985362486935,24);
(-9112684120607396110,25);
(-4871370891765281596,25);
(-6362712868514867777,26);
(3592474006461222205,25);
(7814724736893390697,25);
(1203034109396238965,24);
(1623918371234312678,24);
(2044111367621653878,24);
(2463599252348319692,24);
(2882368225015842866,24);
(3300404531454056893,24);
(3717694464152948560,24);
(4134224362674899989,24);
(4549980614084981797,24)].
Definition mid_284 : list (Z * Z) := [
(4964949653358522058,24);
(5379117963797626287,24);
(5792472077444214839,24);
(6204998575492761743,24);
(6616684088689541133,24);
(7027515297748717792,24);
(7437478933745757524,24);
(7846561778518595522,24);
(8254750665071460160,24);
(8662032477962061081,24);
(9068394153700423124,24);
(9473822681140410366,24);
(9878305101859544168,24);
(1028182851055056278,23);
(1068438005540629619,23);
(1108594693849336179,23);
(1148651641613593131,23);
(1188607579929227252,23);
(1228461245391885483,23);
(1268211380135157338,23);
(1307856731866475892,23);
(1347396053904449399,23);
(1386828105214237114,23);
(1426151650444757083,23);
(1465365459963077372,23);
(1504468309891088697,23);
(1543458982139872109,23);
(1582336264445461402,23);
(1621098950402690211,23);
(1659745839500719795,23);
(1698275737156351991,23);
(1736687454748169388,23);
(1774979809650293318,23);
(1813151625266070014,23);
(1851201731060441504,23);
(1889128962593864870,23);
(1926932161554044816,23);
(1964610175788376385,23);
(2002161859336546579,23);
(2039586072461596413,23);
(2076881681681987549,23);
(2114047559802952679,23);
(2151082585946703093,23);
(2187985645583708248,23);
(2224755630563299749,23);
(2261391439143162324,23);
(2297891976019795501,23);
(2334256152358166536,23);
(2370482885820233404,23);
(2406571100594982616,23);
(2442519727426381985,23);
(2478327703642591747,23);
(2513993973183369459,23);
(2549517486629057164,23);
(2584897201226992895,23);
(2620132080919957088,23);
(2655221096372413665,23);
(2690163224998076214,23);
(2724957450985603916,23);
(2759602765325790965,23);
(2794098165836768173,23);
(2828442657189735149,23);
(2862635250934865617,23);
(2896674965525785993,23)].
Definition mid_285 : list (Z * Z) := [
(2930560826344599446,23);
(2964291865726884550,23);
(2997867122985263473,23);
(3031285644433437716,23);
(3064546483410373956,23);
(3097648700302972342,23);
(3130591362569682453,23);
(3163373544763383008,23);
(3195994328553100134,23);
(3228452802747200481,23);
(3260748063314599575,23);
(3292879213406703354,23);
(3324845363378757469,23);
(3356645630811147790,23);
(3388279140529373439,23);
(3419745024625429973,23);
(3451042422477251835,23);
(3482170480769270187,23);
(3513128353511246852,23);
(3543915202058470291,23);
(3574530195130046776,23);
(3604972508827759402,23);
(3635241326654588978,23);
(3665335839533057365,23);
(3695255245822428350,23);
(3724998751337124848,23);
(3754565569363236562,23);
(3783954920675574479,23);
(3813166033554747734,23);
(3842198143803048527,23);
(3871050494760574210,23);
(3899722337321544528,23);
(3928212929949080650,23);
(3956521538690510039,23);
(3984647437192675388,23);
(4012589906715901172,23);
(4040348236148758455,23);
(4067921722022118178,23);
(4095309668522154132,23);
(4122511387504577859,23);
(4149526198507145596,23);
(4176353428762668028,23);
(4202992413211622267,23);
(4229442494514452125,23);
(4255703023062904806,23);
(4281773356992375225,23);
(4307652862192619278,23);
(4333340912319348030,23);
(4358836888804293856,23);
(4384140180866454294,23);
(4409250185521558485,23);
(4434166307592094690,23);
(4458887959716879048,23);
(4483414562360520664,23);
(4507745543821877030,23);
(4531880340243355122,23);
(4555818395618758997,23);
(4579559161801409104,23);
(4603102098512264998,23);
(4626446673346891334,23);
(4649592361783085910,23);
(4672538647187733180,23);
(4695285020822945578,23);
(4717830981852738143,23)].
Definition mid_286 : list (Z * Z) := [
(4740176037349154935,23);
(4762319702297518608,23);
(4784261499602224113,23);
(4806000960091929999,23);
(4827537622523838295,23);
(4848871033588886487,23);
(4870000747915456842,23);
(4890926328073801310,23);
(4911647344579150474,23);
(4932163375895805057,23);
(4952474008439376155,23);
(4972578836580294662,23);
(4992477462645732346,23);
(5012169496922321156,23);
(5031654557657491543,23);
(5050932271061777057,23);
(5070002271309582108,23);
(5088864200540324436,23);
(5107517708859487469,23);
(5125962454338732130,23);
(5144198103016188217,23);
(5162224328896624487,23);
(5180040813950653798,23);
(5197647248114103599,23);
(5215043329287366759,23);
(5232228763333718346,23);
(5249203264078074215,23);
(5265966553305267126,23);
(5282518360757452113,23);
(5298858424132104098,23);
(5314986489079369728,23);
(5330902309198812732,23);
(5346605646036413400,23);
(5362096269081196025,23);
(5377373955760846025,23);
(5392438491438283861,23);
(5407289669406800355,23);
(5421927290885821530,23);
(5436351165015556035,23);
(5450561108852343243,23);
(5464556947362574264,23);
(5478338513417402392,23);
(5491905647786407980,23);
(5505258199131555363,23);
(5518396024000298016,23);
(5531318986819138388,23);
(5544026959886113703,23);
(5556519823363515549,23);
(5568797465270359408,23);
(5580859781474214521,23);
(5592706675683065592,23);
(5604338059437037617,23);
(5615753852099311622,23);
(5626953980847224725,23);
(5637938380663098454,23);
(5648706994324421981,23);
(5659259772394273873,23);
(5669596673211207836,23);
(5679717662878609242,23);
(5689622715254450774,23);
(5699311811940129208,23);
(5708784942269410614,23);
(5718042103297065213,23);
(5727083299787233883,23)].
Definition mid_287 : list (Z * Z) := [
(5735908544201247147,23);
(5744517856685724702,23);
(5752911265059880089,23);
(5761088804803107252,23);
(5769050519041601488,23);
(5776796458535618712,23);
(5784326681665611226,23);
(5791641254418643340,23);
(5798740250374357730,23);
(5805623750690911306,23);
(5812291844090194823,23);
(5818744626843379790,23);
(5824982202755745061,23);
(5831004683151426172,23);
(5836812186858104381,23);
(5842404840191012645,23);
(5847782776937210630,23);
(5852946138339276948,23);
(5857895073078676825,23);
(5862629737259223946,23);
(5867150294390146577,23);
(5871456915368717289,23);
(5875549778462953155,23);
(5879429069294002212,23);
(5883094980817970198,23);
(5886547713308034604,23);
(5889787474335898040,23);
(5892814478753169097,23);
(5895628948672607003,23);
(5898231113449013918,23);
(5900621209659740298,23);
(5902799481085329854,23);
(5904766178689603437,23);
(5906521560599746311,23);
(5908065892085935988,23);
(5909399445541035808,23);
(5910522500459784349,23);
(5911435343417868293,23);
(5912138268050813014,23);
(5912631575032668515,23);
(5912915572054258976,23);
(5912990573801620009,23);
(5912856901933723723,23);
(5912514885060392848,23);
(5911964858719771689,23);
(5911207165355637170,23);
(5910242154294564172,23);
(5909070181722801538,23);
(5907691610662864828,23);
(5906106810950152106,23);
(5904316159209094207,23);
(5902320038829237233,23);
(5900118839941093985,23);
(5897712959391811758,23);
(5895102800720508770,23);
(5892288774133601110,23);
(5889271296479792227,23);
(5886050791224880141,23);
(5882627688426410144,23);
(5879002424708054431,23);
(5875175443233900921,23);
(5871147193682424952,23);
(5866918132220346453,23);
(5862488721476300099,23)].
Definition mid_288 : list (Z * Z) := [
(5857859430514220176,23);
(5853030734806640751,23);
(5848003116207734951,23);
(5842777062926228200,23);
(5837353069498028222,23);
(5831731636758804205,23);
(5825913271816212253,23);
(5819898488022093736,23);
(5813687804944393773,23);
(5807281748338935382,23);
(5800680850121014065,23);
(5793885648336808070,23);
(5786896687134602992,23);
(5779714516735814434,23);
(5772339693405923258,23);
(5764772779425156725,23);
(5757014343059021913,23);
(5749064958528656856,23);
(5740925205981056993,23);
(5732595671459043448,23);
(5724076946871207587,23);
(5715369629961506608,23);
(5706474324278856407,23);
(5697391639146483894,23);
(5688122189631100419,23);
(5678666596512036563,23);
(5669025486249976462,23);
(5659199490955803258,23);
(5649189248359164008,23);
(5638995401776813018,23);
(5628618600080973465,23);
(5618059497667358856,23);
(5607318754423160605,23);
(5596397035694954288,23);
(5585295012256154609,23);
(5574013360274778005,23);
(5562552761280663819,23);
(5550913902132734791,23);
(5539097474986008846,23);
(5527104177258780295,23);
(5514934711599149162,23);
(5502589785851900837,23);
(5490070113024868705,23);
(5477376411255516323,23);
(5464509403776987665,23);
(5451469818884427057,23);
(5438258389900918965,23);
(5424875855143335628,23);
(5411322957888049166,23);
(5397600446336713476,23);
(5383709073581504040,23);
(5369649597570647743,23);
(5355422781073782619,23);
(5341029391646770746,23);
(5326470201597022745,23);
(5311745987948206330,23);
(5296857532404957553,23);
(5281805621317798736,23);
(5266591045647481094,23);
(5251214600929433743,23);
(5235677087238186966,23);
(5219979309151482407,23);
(5204122075714320925,23);
(5188106200403242205,23)].
Definition mid_289 : list (Z * Z) := [
(5171932501089898269,23);
(5155601800005105400,23);
(5139114923702278070,23);
(5122472703021336524,23);
(5105675973051784956,23);
(5088725573096577760,23);
(5071622346635020162,23);
(5054367141286250940,23);
(5036960808772141700,23);
(5019404204880568852,23);
(5001698189427992368,23);
(4983843626222595624,23);
(4965841383027034921,23);
(4947692331520852228,23);
(4929397347263366332,23);
(4910957309656069993,23);
(4892373101904846179,23);
(4873645610982596971,23);
(4854775727591486222,23);
(4835764346124900325,23);
(4816612364629839949,23);
(4797320684768808976,23);
(4777890211781632971,23);
(4758321854447769599,23);
(4738616525047842490,23);
(4718775139325350604,23);
(4698798616448652041,23);
(4678687878972309519,23);
(4658443852798705554,23);
(4638067467139804002,23);
(4617559654478235336,23);
(4596921350529023628,23);
(4576153494200597965,23);
(4555257027556411012,23);
(4534232895775703090,23);
(4513082047115256947,23);
(4491805432869964645,23);
(4470404007334332285,23);
(4448878727763113983,23);
(4427230554332725111,23);
(4405460450101624198,23);
(4383569380971692292,23);
(4361558315648929952,23);
(4339428225604044471,23);
(4317180085033535142,23);
(4294814870820305556,23);
(4272333562494094283,23);
(4249737142192482221,23);
(4227026594621511663,23);
(4204202907015930634,23);
(4181267069100180587,23);
(4158220073048627871,23);
(4135062913446013386,23);
(4111796587248371161,23);
(4088422093742937949,23);
(4064940434509025724,23);
(4041352613378188094,23);
(4017659636394659115,23);
(3993862511775557656,23);
(3969962249871726015,23);
(3945959863127493816,23);
(3921856366041492919,23);
(3897652775126532443,23);
(3873350108870356754,23)].
Definition mid_290 : list (Z * Z) := [
(3848949387695388354,23);
(3824451633919472314,23);
(3799857871716051492,23);
(3775169127074362086,23);
(3750386427759596654,23);
(3725510803273531315,23);
(3700543284814239507,23);
(3675484905236826925,23);
(3650336699013658924,23);
(3625099702194274170,23);
(3599774952366119590,23);
(3574363488614524327,23);
(3548866351482874972,23);
(3523284582933404707,23);
(3497619226307146270,23);
(3471871326284139698,23);
(3446041928844178792,23);
(3420132081226799988,23);
(3394142831891605979,23);
(3368075230479130081,23);
(3341930327770664514,23);
(3315709175649080720,23);
(3289412827059142141,23);
(3263042335967892221,23);
(3236598757325051881,23);
(3210083147024035683,23);
(3183496561861872255,23);
(3156840059500297028,23);
(3130114698425890855,23);
(3103321537911246609,23);
(3076461637974981769,23);
(3049536059343004621,23);
(3022545863409091988,23);
(2995492112195628916,23);
(2968375868314240956,23);
(2941198194927150143,23);
(2913960155707353612,23);
(2886662814800181173,23);
(2859307236784160359,23);
(2831894486631692071,23);
(2804425629670637636,23);
(2776901731545046635,23);
(2749323858176280455,23);
(2721693075724719292,23);
(2694010450550694279,23);
(2666277049175654073,23);
(2638493938244008732,23);
(2610662184484173655,23);
(2582782854670034661,23);
(2554857015583039543,23);
(2526885733973121385,23);
(2498870076520983574,23);
(2470811109799267406,23);
(2442709900234972620,23);
(2414567514070556229,23);
(2386385017326736924,23);
(2358163475763749761,23);
(2329903954843998102,23);
(2301607519693657955,23);
(2273275235065494579,23);
(2244908165300413285,23);
(2216507374290424453,23);
(2188073925440996636,23);
(2159608881633185044,23)].
Definition mid_291 : list (Z * Z) := [
(2131113305186678545,23);
(2102588257822330653,23);
(2074034800624520434,23);
(2045453994004501729,23);
(2016846897663246871,23);
(1988214570554065083,23);
(1959558070846185144,23);
(1930878455887556080,23);
(1902176782168012064,23);
(1873454105283225751,23);
(1844711479897403585,23);
(1815949959707348230,23);
(1787170597405879276,23);
(1758374444645473511,23);
(1729562552001940752,23);
(1700735968938912502,23);
(1671895743771121377,23);
(1643042923629095753,23);
(1614178554422816638,23);
(1585303680806613569,23);
(1556419346142845879,23);
(1527526592466975800,23);
(1498626460452061686,23);
(1469719989373398455,23);
(1440808217073114155,23);
(1411892179925660315,23);
(1382972912802073083,23);
(1354051449035746828,23);
(1325128820387594320,23);
(1296206057011024967,23);
(1267284187417882569,23);
(1238364238443892984,23);
(1209447235213986258,23);
(1180534201108638582,23);
(1151626157729743988,23);
(1122724124866271219,23);
(1093829120460977544,23);
(1064942160576292805,23);
(1036064259360675446,23);
(1007196429015752710,23);
(9783396797622446745,24);
(9494950198072855542,24);
(9206634553111385210,24);
(8918459903541568469,24);
(8630436269038206003,24);
(8342573647826393487,24);
(8054882016348239532,24);
(7767371328944549014,24);
(7480051517526239506,24);
(7192932491258548766,24);
(6906024136233123714,24);
(6619336315154956213,24);
(6332878867023199875,24);
(6046661606814069725,24);
(5760694325163667328,24);
(5474986788059783613,24);
(5189548736522045681,24);
(4904389886297172988,24);
(4619519927548758298,24);
(4334948524545081837,24);
(4050685315357956351,24);
(3766739911553316981,24);
(3483121897886810749,24);
(3199840832006893728,24)].
Definition mid_292 : list (Z * Z) := [
(2916906244149839882,24);
(2634327636839011763,24);
(2352114484591655819,24);
(2070276233618403059,24);
(1788822301527623846,24);
(1507762077038085314,24);
(1227104919679563336,24);
(9468601595085163266,25);
(6670370968137836451,25);
(3876450018353160248,25);
(1086931144702606842,25);
(-1698093560018521464,25);
(-4478532312098952914,25);
(-7254293639662186061,25);
(-1002528638551576897,24);
(-1279141970987068832,24);
(-1555260309317894086,24);
(-1830874633882091118,24);
(-2105975957585071664,24);
(-2380555326171853736,24);
(-2654603818498988850,24);
(-2928112546797570409,24);
(-3201072656947214984,24);
(-3473475328735126493,24);
(-3745311776120159143,24);
(-4016573247498492282,24);
(-4287251025958453486,24);
(-4557336429542851009,24);
(-4826820811506356610,24);
(-5095695560565298952,24);
(-5363952101154910054,24);
(-5631581893682354355,24);
(-5898576434772019296,24);
(-6164927257517767660,24);
(-6430625931730005223,24);
(-6695664064174694817,24);
(-6960033298823574099,24);
(-7223725317089608687,24);
(-7486731838071820257,24);
(-7749044618787265151,24);
(-8010655454414945982,24);
(-8271556178521036852,24);
(-8531738663299270450,24);
(-8791194819795910008,24);
(-9049916598143935273,24);
(-9307895987784455227,24);
(-9565125017699310108,24);
(-9821595756628929982,24);
(-1007730031329480286,23);
(-1033223083662351661,23);
(-1058637951596039761,23);
(-1083973858128730663,23);
(-1109230030344108184,23);
(-1134405699432125504,23);
(-1159500100710169298,23);
(-1184512473644348723,23);
(-1209442061869731206,23);
(-1234288113211256028,23);
(-1259049879704165429,23);
(-1283726617613612245,23);
(-1308317587455350712,23);
(-1332822054015033236,23);
(-1357239286368014872,23);
(-1381568557898861505,23)].
Definition mid_293 : list (Z * Z) := [
(-1405809146320699640,23);
(-1429960333693731871,23);
(-1454021406444781480,23);
(-1477991655385414374,23);
(-1501870375730928207,23);
(-1525656867118111272,23);
(-1549350433624004282,23);
(-1572950383783306894,23);
(-1596456030606204708,23);
(-1619866691595988565,23);
(-1643181688766585420,23);
(-1666400348659236082,23);
(-1689522002360119936,23);
(-1712545985516603068,23);
(-1735471638353872976,23);
(-1758298305691688817,23);
(-1781025336960175180,23);
(-1803652086215882174,23);
(-1826177912158235482,23);
(-1848602178144122946,23);
(-1870924252203938389,23);
(-1893143507056892585,23);
(-1915259320125619488,23);
(-1937271073551397421,23);
(-1959178154208821037,23);
(-1980979953719763816,23);
(-2002675868468247212,23);
(-2024265299614053497,23);
(-2045747653106753637,23);
(-2067122339699562723,23);
(-2088388774962347680,23);
(-2109546379295527087,23);
(-2130594577942659772,23);
(-2151532801003356647,23);
(-2172360483446336875,23);
(-2193077065121439473,23);
(-2213681990772286456,23);
(-2234174710048388628,23);
(-2254554677516660156,23);
(-2274821352673400010,23);
(-2294974199955927154,23);
(-2315012688753498800,23);
(-2334936293418761612,23);
(-2354744493278682161,23);
(-2374436772644813301,23);
(-2394012620824371670,23);
(-2413471532130090033,23);
(-2432813005890737773,23);
(-2452036546460598175,23);
(-2471141663229792397,23);
(-2490127870633087603,23);
(-2508994688159829603,23);
(-2527741640362635113,23);
(-2546368256866695555,23);
(-2564874072378069521,23);
(-2583258626692767361,23);
(-2601521464704629273,23);
(-2619662136413498490,23);
(-2637680196933493406,23);
(-2655575206500357787,23);
(-2673346730479126760,23);
(-2690994339371744688,23);
(-2708517608823830930,23);
(-2725916119631662440,23)].
Definition mid_294 : list (Z * Z) := [
(-2743189457749224474,23);
(-2760337214294374274,23);
(-2777358985555466902,23);
(-2794254372997564330,23);
(-2811022983267956398,23);
(-2827664428202468163,23);
(-2844178324830592242,23);
(-2860564295381045683,23);
(-2876821967286956520,23);
(-2892950973190916493,23);
(-2908950950949363258,23);
(-2924821543637630398,23);
(-2940562399553942028,23);
(-2956173172223929517,23);
(-2971653520404256448,23);
(-2987003108086840568,23);
(-3002221604502082681,23);
(-3017308684122346594,23);
(-3032264026665203936,23);
(-3047087317096562752,23);
(-3061778245633137120,23);
(-3076336507745541863,23);
(-3090761804160300363,23);
(-3105053840862156278,23);
(-3119212329096316148,23);
(-3133236985370020135,23);
(-3147127531454255059,23);
(-3160883694385442367,23);
(-3174505206466401042,23);
(-3187991805267412828,23);
(-3201343233627337604,23);
(-3214559239654001666,23);
(-3227639576724888225,23);
(-3240584003487468093,23);
(-3253392283858986904,23);
(-3266064187026751752,23);
(-3278599487447570116,23);
(-3290997964847389363,23);
(-3303259404220663167,23);
(-3315383595829574272,23);
(-3327370335202652811,23);
(-3339219423133970611,23);
(-3350930665681366486,23);
(-3362503874165126221,23);
(-3373938865165871770,23);
(-3385235460522961374,23);
(-3396393487331991838,23);
(-3407412777942495948,23);
(-3418293169955479983,23);
(-3429034506220716598,23);
(-3439636634833599953,23);
(-3450099409132391848,23);
(-3460422687694624200,23);
(-3470606334333660767,23);
(-3480650218095256843,23);
(-3490554213253399979,23);
(-3500318199306509865,23);
(-3509942060973237038,23);
(-3519425688187838763,23);
(-3528768976095758878,23);
(-3537971825048960301,23);
(-3547034140600743222,23);
(-3555955833500824180,23);
(-3564736819690044481,23)].
Definition mid_295 : list (Z * Z) := [
(-3573377020294620535,23);
(-3581876361620835332,23);
(-3590234775148909316,23);
(-3598452197527195830,23);
(-3606528570565787039,23);
(-3614463841230403774,23);
(-3622257961635504066,23);
(-3629910889037861287,23);
(-3637422585829442294,23);
(-3644793019530503096,23);
(-3652022162782147835,23);
(-3659109993339133078,23);
(-3666056494062071720,23);
(-3672861652909671453,23);
(-3679525462930946132,23);
(-3686047922256895196,23);
(-3692429034092315913,23);
(-3698668806707444858,23);
(-3704767253429120305,23);
(-3710724392632068638,23);
(-3716540247730001689,23);
(-3722214847166347492,23);
(-3727748224405059632,23);
(-3733140417921138613,23);
(-3738391471190890972,23);
(-3743501432682177566,23);
(-3748470355844503958,23);
(-3753298299098769289,23);
(-3757985325827048348,23);
(-3762531504362167647,23);
(-3766936907976918965,23);
(-3771201614873441617,23);
(-3775325708172118876,23);
(-3779309275900654628,23);
(-3783152410982569314,23);
(-3786855211226036034,23);
(-3790417779312012600,23);
(-3793840222782755768,23);
(-3797122654029673434,23);
(-3800265190281483106,23);
(-3803267953591799152,23);
(-3806131070826953818,23);
(-3808854673653297153,23);
(-3811438898524590452,23);
(-3813883886669212670,23);
(-3816189784077084939,23);
(-3818356741486556472,23);
(-3820384914371198975,23);
(-3822274462926269708,23);
(-3824025552055112202,23);
(-3825638351355523093,23);
(-3827113035105732030,23);
(-3828449782250458166,23);
(-3829648776386752499,23);
(-3830710205749539369,23);
(-3831634263197275167,23);
(-3832421146197270950,23);
(-3833071056810936450,23);
(-3833584201678908208,23);
(-3833960792005982552,23);
(-3834201043545896109,23);
(-3834305176586069047,23);
(-3834273415932072524,23);
(-3834105990892075808,23)].
Definition mid_296 : list (Z * Z) := [
(-3833803135261071136,23);
(-3833365087305009124,23);
(-3832792089744784425,23);
(-3832084389740051978,23);
(-3831242238872969395,23);
(-3830265893131780110,23);
(-3829155612894236604,23);
(-3827911662910946382,23);
(-3826534312288503819,23);
(-3825023834472583386,23);
(-3823380507230846520,23);
(-3821604612635725852,23);
(-3819696437047086105,23);
(-3817656271094812479,23);
(-3815484409661135454,23);
(-3813181151862972515,23);
(-3810746801034077449,23);
(-3808181664707048681,23);
(-3805486054595296966,23);
(-3802660286574763022,23);
(-3799704680665662282,23);
(-3796619561013968752,23);
(-3793405255872869054,23);
(-3790062097584093143,23);
(-3786590422559055289,23);
(-3782990571259976082,23);
(-3779262888180826225,23);
(-3775407721828165293,23);
(-3771425424701849036,23);
(-3767316353275689238,23);
(-3763080867977940119,23);
(-3758719333171660039,23);
(-3754232117135019681,23);
(-3749619592041501803,23);
(-3744882133939888907,23);
(-3740020122734271897,23);
(-3735033942163888671,23);
(-3729923979782845465,23);
(-3724690626939756901,23);
(-3719334278757299283,23);
(-3713855334111611434,23);
(-3708254195611651491,23);
(-3702531269578359209,23);
(-3696686966023811507,23);
(-3690721698630285158,23);
(-3684635884729119598,23);
(-3678429945279568881,23);
(-3672104304847539121,23);
(-3665659391584187696,23);
(-3659095637204473660,23);
(-3652413476965642435,23);
(-3645613349645506526,23);
(-3638695697520760123,23);
(-3631660966345107356,23);
(-3624509605327396649,23);
(-3617242067109475209,23);
(-3609858807744277304,23);
(-3602360286673441585,23);
(-3594746966705206914,23);
(-3587019313991897553,23);
(-3579177798007636706,23);
(-3571222891525629778,23);
(-3563155070595697669,23);
(-3554974814521563421,23)].
Definition mid_297 : list (Z * Z) := [
(-3546682605837993843,23);
(-3538278930288024491,23);
(-3529764276800040991,23);
(-3521139137464642839,23);
(-3512404007511674581,23);
(-3503559385287060478,23);
(-3494605772229446723,23);
(-3485543672847070667,23);
(-3476373594694198395,23);
(-3467096048347729001,23);
(-3457711547383739901,23);
(-3448220608353755686,23);
(-3438623750761184340,23);
(-3428921497037548140,23);
(-3419114372518656283,23);
(-3409202905420671121,23);
(-3399187626816404113,23);
(-3389069070611016823,23);
(-3378847773518211839,23);
(-3368524275035904633,23);
(-3358099117422232198,23);
(-3347572845671053468,23);
(-3336946007487949148,23);
(-3326219153265589994,23);
(-3315392836059495411,23);
(-3304467611563422739,23);
(-3293444038084974735,23);
(-3282322676520823526,23);
(-3271104090332221188,23);
(-3259788845520339570,23);
(-3248377510601324831,23);
(-3236870656581705707,23);
(-3225268856933483964,23);
(-3213572687569119819,23);
(-3201782726816760635,23);
(-3189899555395216851,23);
(-3177923756388845768,23);
(-3165855915222595245,23);
(-3153696619636775668,23);
(-3141446459661879356,23);
(-3129106027593559207,23);
(-3116675917967164181,23);
(-3104156727532612231,23);
(-3091549055229013876,23);
(-3078853502159270702,23);
(-3066070671564654205,23);
(-3053201168799575733,23);
(-3040245601305837357,23);
(-3027204578587398763,23);
(-3014078712184599669,23);
(-3000868615648847427,23);
(-2987574904516730344,23);
(-2974198196284626682,23);
(-2960739110383007712,23);
(-2947198268150718746,23);
(-2933576292809198839,23);
(-2919873809436979338,23);
(-2906091444943594593,23);
(-2892229828044059155,23);
(-2878289589233058349,23);
(-2864271360758929790,23);
(-2850175776598046733,23);
(-2836003472428799259,23);
(-2821755085605663884,23)].
Definition mid_298 : list (Z * Z) := [
(-2807431255133525922,23);
(-2793032621641609167,23);
(-2778559827357468599,23);
(-2764013516081242268,23);
(-2749394333159515250,23);
(-2734702925459331322,23);
(-2719939941342441463,23);
(-2705106030638993318,23);
(-2690201844621788852,23);
(-2675228035980021583,23);
(-2660185258793539654,23);
(-2645074168506421461,23);
(-2629895421901388473,23);
(-2614649677073380520,23);
(-2599337593403773126,23);
(-2583959831534102207,23);
(-2568517053340283436,23);
(-2553009921906197017,23);
(-2537439101497928053,23);
(-2521805257537656250,23);
(-2506109056577553071,23);
(-2490351166273647719,23);
(-2474532255360027873,23);
(-2458652993622448846,23);
(-2442714051872582094,23);
(-2426716101921969968,23);
(-2410659816555775484,23);
(-2394545869507050818,23);
(-2378374935430530447,23);
(-2362147689876585899,23);
(-2345864809265536265,23);
(-2329526970861445738,23);
(-2313134852746119027,23);
(-2296689133793368832,23);
(-2280190493642827624,23);
(-2263639612674341831,23);
(-2247037171981685025,23);
(-2230383853346973454,23);
(-2213680339214814605,23);
(-2196927312666208077,23);
(-2180125457392975358,23);
(-2163275457671906679,23);
(-2146377998338756430,23);
(-2129433764762761697,23);
(-2112443442820884665,23);
(-2095407718871895107,23);
(-2078327279730956347,23);
(-2061202812643770082,23);
(-2044035005260891300,23);
(-2026824545612481953,23);
(-2009572122082317884,23);
(-1992278423382543863,23);
(-1974944138528079296,23);
(-1957569956811059514,23);
(-1940156567775348217,23);
(-1922704661191454792,23);
(-1905214927030744870,23);
(-1887688055440437271,23);
(-1870124736718004635,23);
(-1852525661286237785,23);
(-1834891519667597237,23);
(-1817223002459377170,23);
(-1799520800308471643,23);
(-1781785603886230928,23)].
Definition mid_299 : list (Z * Z) := [
(-1764018103863261602,23);
(-1746218990884743327,23);
(-1728388955544989407,23);
(-1710528688362864870,23);
(-1692638879756865405,23);
(-1674720220020020457,23);
(-1656773399295423456,23);
(-1638799107551217919,23);
(-1620798034555883405,23);
(-1602770869853862304,23);
(-1584718302740742118,23);
(-1566641022238606117,23);
(-1548539717071813624,23);
(-1530415075642301549,23);
(-1512267786005164933,23);
(-1494098535844642385,23);
(-1475908012449409821,23);
(-1457696902688660254,23);
(-1439465892987799030,23);
(-1421215669304296277,23);
(-1402946917103519525,23);
(-1384660321335127581,23);
(-1366356566408647518,23);
(-1348036336169977977,23);
(-1329700313877223832,23);
(-1311349182177320447,23);
(-1292983623081866644,23);
(-1274604317943864158,23);
(-1256211947434076103,23);
(-1237807191517469630,23);
(-1219390729429639614,23);
(-1200963239653789849,23);
(-1182525399896950913,23);
(-1164077887067119590,23);
(-1145621377250057962,23);
(-1127156545685922414,23);
(-1108684066746581107,23);
(-1090204613912394776,23);
(-1071718859749296523,23);
(-1053227475886297502,23);
(-1034731132992496245,23);
(-1016230500754335315,23);
(-9977262478532865684,24);
(-9792190419430813771,24);
(-9607095496272283466,24);
(-9421984364370238302,24);
(-9236863668087909684,24);
(-9051740040620555463,24);
(-8866620103770735315,24);
(-8681510467731490640,24);
(-8496417730861525073,24);
(-8311348479472294284,24);
(-8126309287604658639,24);
(-7941306716815481714,24);
(-7756347315957696500,24);
(-7571437620968535307,24);
(-7386584154649924615,24);
(-7201793426458470873,24);
(-7017071932291848962,24);
(-6832426154274008185,24);
(-6647862560546742027,24);
(-6463387605058422042,24);
(-6279007727351578086,24);
(-6094729352357750321,24)].
Definition mid_300 : list (Z * Z) := [
(-5910558890189114880,24);
(-5726502735928916053,24);
(-5542567269428886503,24);
(-5358758855101453138,24);
(-5175083841715077019,24);
(-4991548562194799960,24);
(-4808159333415089077,24);
(-4624922456001809798,24);
(-4441844214130421960,24);
(-4258930875325916552,24);
(-4076188690263356400,24);
(-3893623892574035218,24);
(-3711242698644000656,24);
(-3529051307422225055,24);
(-3347055900222299362,24);
(-3165262640532555452,24);
(-2983677673818009492,24);
(-2802307127334631336,24);
(-2621157109933241574,24);
(-2440233711873597538,24);
(-2259543004632077439,24);
(-2079091040717726835,24);
(-1898883853480690478,24);
(-1718927456930304158,24);
(-1539227845549882901,24);
(-1359790994110375839,24);
(-1180622857490685532,24);
(-1001729370495117759,24);
(-8231164476701934886,25);
(-6447899831284926051,25);
(-4667558503697162356,25);
(-2890199021006317412,25);
(-1115879700621159867,25);
(6553413514875661085,26);
(2423406242533919959,25);
(4188257294610106690,25);
(5949837046454449168,25);
(7708088255127391433,25);
(9462953897723443870,25);
(1121437717306370856,24);
(1296230150338159768,24);
(1470667053595075139,24);
(1644742814478691551,24);
(1818451843225367247,24);
(1991788573072934707,24);
(2164747460419015343,24);
(2337322984986742554,24);
(2509509649980827757,24);
(2681301982247215299,24);
(2852694532431100262,24);
(3023681875134739602,24);
(3194258609069374275,24);
(3364419357214090274,24);
(3534158766965082771,24);
(3703471510287963654,24);
(3872352283871004184,24);
(4040795809271372273,24);
(4208796833066042412,24);
(4376350126999426738,24);
(4543450488126117025,24);
(4710092738958259105,24);
(4876271727610091408,24);
(5041982327937555483,24);
(5207219439682118796,24)].
Definition mid_301 : list (Z * Z) := [
(5371977988611340702,24);
(5536252926654062284,24);
(5700039232042755331,24);
(5863331909446321847,24);
(6026125990108750813,24);
(6188416531979610384,24);
(6350198619851843206,24);
(6511467365487804081,24);
(6672217907754643773,24);
(6832445412749991763,24);
(6992145073933239581,24);
(7151312112248778165,24);
(7309941776256052997,24);
(7468029342250372178,24);
(7625570114386874781,24);
(7782559424802884760,24);
(7938992633739787977,24);
(8094865129659387432,24);
(8250172329366438427,24);
(8404909678122115412,24);
(8559072649760172391,24);
(8712656746803802967,24);
(8865657500575736000,24);
(9018070471312618930,24);
(9169891248276180689,24);
(9321115449859551278,24);
(9471738723698001157,24);
(9621756746776539843,24);
(9771165225533018454,24);
(9919959895964938868,24);
(1006813652373300689,23);
(1021569090425964897,23);
(1036261886283389517,23);
(1050891625470748699,23);
(1065457896519577753,23);
(1079960290977150490,23);
(1094398403416473696,23);
(1108771831445203512,23);
(1123080175715398342,23);
(1137323039932354420,23);
(1151500030863975353,23);
(1165610758349336807,23);
(1179654835307897482,23);
(1193631877747840527,23);
(1207541504774645677,23);
(1221383338599714935,23);
(1235157004548413281,23);
(1248862131068278115,23);
(1262498349737275632,23);
(1276065295271404631,23);
(1289562605532508193,23);
(1302989921536115174,23);
(1316346887458679457,23);
(1329633150645173602,23);
(1342848361616370449,23);
(1355992174075666306,23);
(1369064244916441500,23);
(1382064234228673668,23);
(1394991805305760607,23);
(1407846624651175076,23);
(1420628361985013882,23);
(1433336690250032485,23);
(1445971285618254562,23);
(1458531827496751316,23)].
Definition mid_302 : list (Z * Z) := [
(1471017998533879870,23);
(1483429484624811347,23);
(1495765974917623744,23);
(1508027161818546932,23);
(1520212740997507670,23);
(1532322411393468456,23);
(1544355875219714365,23);
(1556312837968662168,23);
(1568193008417141068,23);
(1579996098630915354,23);
(1591721823969386105,23);
(1603369903090322721,23);
(1614940057954072339,23);
(1626432013827868174,23);
(1637845499290346924,23);
(1649180246234997204,23);
(1660435989874440793,23);
(1671612468744200912,23);
(1682709424706155409,23);
(1693726602952234906,23);
(1704663752007838710,23);
(1715520623734827555,23);
(1726296973334999818,23);
(1736992559352839641,23);
(1747607143678500853,23);
(1758140491550580156,23);
(1768592371558803578,23);
(1778962555646259588,23);
(1789250819112083514,23);
(1799456940613454507,23);
(1809580702167926238,23);
(1819621889155157555,23);
(1829580290319101214,23);
(1839455697769471623,23);
(1849247906983420608,23);
(1858956716807035983,23);
(1868581929456809631,23);
(1878123350520603119,23);
(1887580788959099173,23);
(1896954057106507090,23);
(1906242970671462284,23);
(1915447348737898733,23);
(1924567013765472831,23);
(1933601791590164784,23);
(1942551511424682134,23);
(1951416005858473652,23);
(1960195110858001407,23);
(1968888665766764816,23);
(1977496513304982504,23);
(1986018499569497774,23);
(1994454474033385580,23);
(2002804289545245090,23);
(2011067802328814113,23);
(2019244871982018053,23);
(2027335361476271614,23);
(2035339137155255004,23);
(2043256068734108244,23);
(2051086029297814682,23);
(2058828895300142888,23);
(2066484546561956308,23);
(2074052866269771617,23);
(2081533740973832904,23);
(2088927060586533822,23);
(2096232718380204116,23)].
Definition mid_303 : list (Z * Z) := [
(2103450610985089963,23);
(2110580638387247568,23);
(2117622703926080668,23);
(2124576714291940722,23);
(2131442579523668481,23);
(2138220213005790986,23);
(2144909531465678587,23);
(2151510454970810720,23);
(2158022906925539564,23);
(2164446814068080027,23);
(2170782106467260186,23);
(2177028717518956293,23);
(2183186583942755131,23);
(2189255645778323967,23);
(2195235846381582643,23);
(2201127132420952569,23);
(2206929453873427514,23);
(2212642764020308623,23);
(2218267019443251483,23);
(2223802180019767021,23);
(2229248208918961272,23);
(2234605072596852976,23);
(2239872740791926320,23);
(2245051186520152415,23);
(2250140386070312656,23);
(2255140318998893491,23);
(2260050968125086208,23);
(2264872319525502813,23);
(2269604362528977273,23);
(2274247089711057437,23);
(2278800496888460351,23);
(2283264583113537075,23);
(2287639350668438991,23);
(2291924805059266165,23);
(2296120955010145907,23);
(2300227812457197152,23);
(2304245392542205500,23);
(2308173713606504921,23);
(2312012797184468145,23);
(2315762667997103085,23);
(2319423353945349424,23);
(2322994886103497169,23);
(2326477298712278585,23);
(2329870629171963863,23);
(2333174918035359882,23);
(2336390209000734102,23);
(2339516548904475523,23);
(2342553987713908125,23);
(2345502578519764131,23);
(2348362377528641687,23);
(2351133444055462541,23);
(2353815840515641395,23);
(2356409632417335551,23);
(2358914888353495678,23);
(2361331679993769532,23);
(2363660082076426343,23);
(2365900172400159230,23);
(2368052031815677216,23);
(2370115744217360932,23);
(2372091396534726224,23);
(2373979078723741724,23);
(2375778883758215541,23);
(2377490907620903449,23);
(2379115249294684158,23)].
Definition mid_304 : list (Z * Z) := [
(2380652010753467942,23);
(2382101296953253661,23);
(2383463215822764647,23);
(2384737878254324464,23);
(2385925398094386737,23);
(2387025892134153081,23);
(2388039480099941658,23);
(2388966284643639080,23);
(2389806431332901934,23);
(2390560048641332216,23);
(2391227267938589069,23);
(2391808223480409038,23);
(2392303052398456927,23);
(2392711894690223060,23);
(2393034893208719301,23);
(2393272193652108318,23);
(2393423944553323704,23);
(2393490297269499682,23);
(2393471405971395730,23);
(2393367427632713126,23);
(2393178522019268506,23);
(2392904851678197929,23);
(2392546581926992873,23);
(2392103880842453919,23);
(2391576919249628153,23);
(2390965870710606991,23);
(2390270911513241666,23);
(2389492220659819414,23);
(2388629979855643099,23);
(2387684373497507835,23);
(2386655588662116968,23);
(2385543815094455018,23);
(2384349245196004780,23);
(2383072074012966785,23);
(2381712499224361877,23);
(2380270721130055183,23);
(2378746942638718082,23);
(2377141369255730878,23);
(2375454209070969943,23);
(2373685672746560633,23);
(2371835973504540429,23);
(2369905327114455319,23);
(2367893951880875551,23);
(2365802068630852432,23);
(2363629900701291774,23);
(2361377673926277882,23);
(2359045616624309098,23);
(2356633959585465260,23);
(2354142936058544993,23);
(2351572781738052575,23);
(2348923734751219022,23);
(2346196035644875104,23);
(2343389927372313195,23);
(2340505655280062031,23);
(2337543467094591349,23);
(2334503612908945364,23);
(2331386345169361344,23);
(2328191918661771969,23);
(2324920590498261278,23);
(2321572620103479949,23);
(2318148269200976565,23);
(2314647801799475337,23);
(2311071484179094541,23);
(2307419584877514469,23)].
Definition mid_305 : list (Z * Z) := [
(2303692374676077957,23);
(2299890126585827898,23);
(2296013115833513572,23);
(2292061619847485522,23);
(2288035918243628368,23);
(2283936292811136409,23);
(2279763027498289574,23);
(2275516408398186671,23);
(2271196723734400383,23);
(2266804263846520441,23);
(2262339321175831994,23);
(2257802190250726655,23);
(2253193167672166395,23);
(2248512552099131857,23);
(2243760644233930063,23);
(2238937746807496357,23);
(2234044164564716006,23);
(2229080204249561135,23);
(2224046174590296461,23);
(2218942386284580311,23);
(2213769151984532456,23);
(2208526786281750771,23);
(2203215605692341117,23);
(2197835928641778824,23);
(2192388075449905373,23);
(2186872368315656386,23);
(2181289131301998672,23);
(2175638690320576908,23);
(2169921373116537181,23);
(2164137509253184169,23);
(2158287430096642056,23);
(2152371468800409729,23);
(2146389960290039312,23);
(2140343241247542622,23);
(2134231650095986697,23);
(2128055526983953444,23);
(2121815213769892913,23);
(2115511054006619882,23);
(2109143392925587503,23);
(2102712577421207707,23);
(2096218956035237677,23);
(2089662878940965742,23);
(2083044697927429798,23);
(2076364766383668933,23);
(2069623439282864257,23);
(2062821073166416720,23);
(2055958026128188910,23);
(2049034657798457502,23);
(2042051329328059515,23);
(2035008403372327824,23);
(2027906244075206241,23);
(2020745217053060346,23);
(2013525689378813913,23);
(2006248029565710272,23);
(1998912607551331849,23);
(1991519794681377112,23);
(1984069963693618104,23);
(1976563488701615391,23);
(1969000745178610203,23);
(1961382109941329843,23);
(1953707961133661634,23);
(1945978678210504747,23);
(1938194641921472605,23);
(1930356234294522112,23)].
Definition mid_306 : list (Z * Z) := [
(1922463838619768546,23);
(1914517839433135788,23);
(1906518622499943537,23);
(1898466574798666977,23);
(1890362084504488413,23);
(1882205540972878047,23);
(1873997334723369567,23);
(1865737857422948481,23);
(1857427501869769764,23);
(1849066661976682060,23);
(1840655732754759662,23);
(1832195110296811456,23);
(1823685191761068768,23);
(1815126375354541159,23);
(1806519060316660224,23);
(1797863646902665206,23);
(1789160536367261702,23);
(1780410130947906311,23);
(1771612833848529712,23);
(1762769049222837241,23);
(1753879182157905923,23);
(1744943638657549433,23);
(1735962825625933078,23);
(1726937150850846940,23);
(1717867022987333740,23);
(1708752851541130361,23);
(1699595046852034154,23);
(1690394020077466434,23);
(1681150183175921455,23);
(1671863948890303918,23);
(1662535730731544304,23);
(1653165942962043442,23);
(1643755000579026287,23);
(1634303319298180624,23);
(1624811315536986783,23);
(1615279406398197791,23);
(1605708009653492309,23);
(1596097543726745393,23);
(1586448427677683131,23);
(1576761081185333992,23);
(1567035924531503887,23);
(1557273378584253949,23);
(1547473864781619878,23);
(1537637805114907099,23);
(1527765622112435182,23);
(1517857738822912957,23);
(1507914578799205467,23);
(1497936566081667068,23);
(1487924125181926680,23);
(1477877681066443828,23);
(1467797659140105846,23);
(1457684485229793409,23);
(1447538585568187123,23);
(1437360386777206001,23);
(1427150315851847425,23);
(1416908800143883124,23);
(1406636267345419953,23);
(1396333145472803049,23);
(1385999862850220665,23);
(1375636848093454683,23);
(1365244530093824097,23);
(1354823338001849465,23);
(1344373701211039183,23);
(1333896049341878351,23)].
Definition mid_307 : list (Z * Z) := [
(1323390812225551688,23);
(1312858419887807208,23);
(1302299302533071648,23);
(1291713890528113739,23);
(1281102614386189446,23);
(1270465904750942413,23);
(1259804192380390124,23);
(1249117908130890082,23);
(1238407482941406677,23);
(1227673347817340312,23);
(1216915933814824091,23);
(1206135672024679995,23);
(1195332993556785368,23);
(1184508329524003682,23);
(1173662111026608621,23);
(1162794769136494878,23);
(1151906734881412497,23);
(1140998439229219518,23);
(1130070313072396858,23);
(1119122787212162884,23);
(1108156292343087231,23);
(1097171259037500992,23);
(1086168117729825251,23);
(1075147298701251645,23);
(1064109232064147473,23);
(1053054347746589551,23);
(1041983075477171152,23);
(1030895844769490121,23);
(1019793084906782850,23);
(1008675224926811519,23);
(9975426936064558852,24);
(9863959194464877006,24);
(9752353306566170191,24);
(9640613551400839916,24);
(9528744204787876777,24);
(9416749539180357251,24);
(9304633823517478907,24);
(9192401323071813253,24);
(9080056299303519514,24);
(8967603009708400468,24);
(8855045707671638493,24);
(8742388642317743683,24);
(8629636058365221623,24);
(8516792195976455440,24);
(8403861290613386632,24);
(8290847572890793716,24);
(8177755268428994891,24);
(8064588597710186171,24);
(7951351775932936368,24);
(7838049012866245011,24);
(7724684512707476287,24);
(7611262473938566723,24);
(7497787089181416341,24);
(7384262545057384519,24);
(7270693022043545966,24);
(7157082694330919421,24);
(7043435729685557647,24);
(6929756289305138815,24);
(6816048527680886589,24);
(6702316592457180339,24);
(6588564624292186883,24);
(6474796756718737017,24);
(6361017116008632536,24);
(6247229821032179367,24)].
Definition mid_308 : list (Z * Z) := [
(6133438983123528816,24);
(6019648705942142784,24);
(5905863085339135362,24);
(5792086209219025189,24);
(5678322157407190049,24);
(5564575001515090371,24);
(5450848804806159351,24);
(5337147622061865870,24);
(5223475499451135892,24);
(5109836474395393010,24);
(4996234575439402866,24);
(4882673822120103317,24);
(4769158224834579108,24);
(4655691784712203944,24);
(4542278493484839462,24);
(4428922333356677609,24);
(4315627276878344444,24);
(4202397286819125215,24);
(4089236316038654115,24);
(3976148307362718922,24);
(3863137193456065452,24);
(3750206896697139170,24);
(3637361329056045534,24);
(3524604391967867745,24);
(3411939976211584235,24);
(3299371961786785985,24);
(3186904217791437391,24);
(3074540602300088594,24);
(2962284962245597495,24);
(2850141133296198591,24);
(2738112939738512482,24);
(2626204194356701368,24);
(2514418698316729628,24);
(2402760241046049136,24);
(2291232600119179089,24);
(2179839541141053054,24);
(2068584817631273606,24);
(1957472170908511394,24);
(1846505329978235789,24);
(1735688011417616450,24);
(1625023919262481062,24);
(1514516744897550025,24);
(1404170166942085317,24);
(1293987851141493778,24);
(1183973450255115155,24);
(1074130603949209010,24);
(9644629386850627366,25);
(8549740676146555146,25);
(7456675904701764205,25);
(6365470934597509637,25);
(5276161491594079634,25);
(4188783164102114739,25);
(3103371402108453072,25);
(2019961516161545790,25);
(9385886763377096312,26);
(-1407120887985109076,26);
(-1217905893192894663,25);
(-2292957994316432546,25);
(-3365833794183395030,25);
(-4436498840325718396,25);
(-5504918826783609991,25);
(-6571059595101858821,25);
(-7634887135282474450,25);
(-8696367586766381244,25)].
Definition mid_309 : list (Z * Z) := [
(-9755467239394675300,25);
(-1081215253433690268,24);
(-1186639006506335581,24);
(-1291814657826114387,24);
(-1396738897477108534,24);
(-1501408431051205810,24);
(-1605819979740030973,24);
(-1709970280423336600,24);
(-1813856085761725033,24);
(-1917474164283543585,24);
(-2020821300475335795,24);
(-2123894294867226167,24);
(-2226689964122856429,24);
(-2329205141121998989,24);
(-2431436675048983361,24);
(-2533381431475018453,24);
(-2635036292444089751,24);
(-2736398156553769653,24);
(-2837463939040303621,24);
(-2938230571857904324,24);
(-3038695003759765681,24);
(-3138854200379595289,24);
(-3238705144309056523,24);
(-3338244835176744624,24);
(-3437470289727350393,24);
(-3536378541896539602,24);
(-3634966642887346467,24);
(-3733231661246981753,24);
(-3831170682939380721,24);
(-3928780811420458191,24);
(-4026059167711330735,24);
(-4123002890468281591,24);
(-4219609136056849793,24);
(-4315875078620500825,24);
(-4411797910151173452,24);
(-4507374840558520431,24);
(-4602603097738638457,24);
(-4697479927639311723,24);
(-4792002594329335637,24);
(-4886168380062160338,24);
(-4979974585342869825,24);
(-5073418528990297424,24);
(-5166497548203035915,24);
(-5259208998619991913,24);
(-5351550254382690228,24);
(-5443518708196553308,24);
(-5535111771391841871,24);
(-5626326873981242137,24);
(-5717161464721026685,24);
(-5807613011166785836,24);
(-5897678999730726042,24);
(-5987356935739235094,24);
(-6076644343486445941,24);
(-6165538766290217101,24);
(-6254037766546213173,24);
(-6342138925778936028,24);
(-6429839844695381809,24);
(-6517138143236806501,24);
(-6604031460627693751,24);
(-6690517455426898720,24);
(-6776593805576725172,24);
(-6862258208449132812,24);
(-6947508380895431866,24);
(-7032342059290811599,24)].
Definition mid_310 : list (Z * Z) := [
(-7116756999581770778,24);
(-7200750977329073245,24);
(-7284321787754370315,24);
(-7367467245780485652,24);
(-7450185186076384258,24);
(-7532473463096870360,24);
(-7614329951125164369,24);
(-7695752544310966849,24);
(-7776739156711943648,24);
(-7857287722330266052,24);
(-7937396195150590896,24);
(-8017062549176968330,24);
(-8096284778469479382,24);
(-8175060897177658186,24);
(-8253388939577119380,24);
(-8331266960101213416,24);
(-8408693033373872814,24);
(-8485665254242844642,24);
(-8562181737809004641,24);
(-8638240619457924441,24);
(-8713840054889521110,24);
(-8788978220145060558,24);
(-8863653311636210771,24);
(-8937863546172551744,24);
(-9011607160986285131,24);
(-9084882413758905612,24);
(-9157687582645996941,24);
(-9230020966299256493,24);
(-9301880883891684333,24);
(-9373265675137930637,24);
(-9444173700317411228,24);
(-9514603340292949069,24);
(-9584552996532990249,24);
(-9654021091127875485,24);
(-9723006066810289187,24);
(-9791506386970971927,24);
(-9859520535676753763,24);
(-9927047017684755597,24);
(-9994084358459280707,24);
(-1006063110418440504,23);
(-1012668582177755855,23);
(-1019224709890322000,23);
(-1025731354398342191,23);
(-1032188378620919052,23);
(-1038595647555174365,23);
(-1044953028277051031,23);
(-1051260389942204836,23);
(-1057517603786881968,23);
(-1063724543128492975,23);
(-1069881083366342730,23);
(-1075987101982201509,23);
(-1082042478540611778,23);
(-1088047094689476888,23);
(-1094000834160236573,23);
(-1099903582768154611,23);
(-1105755228412500252,23);
(-1111555661076649184,23);
(-1117304772827958517,23);
(-1123002457817852496,23);
(-1128648612281541798,23);
(-1134243134537914943,23);
(-1139785924989093937,23);
(-1145276886120225397,23);
(-1150715922498889320,23)].
Definition mid_311 : list (Z * Z) := [
(-1156102940774580530,23);
(-1161437849678122871,23);
(-1166720560021030543,23);
(-1171950984694617531,23);
(-1177129038669325742,23);
(-1182254638993682810,23);
(-1187327704793321745,23);
(-1192348157270005147,23);
(-1197315919700379226,23);
(-1202230917434799809,23);
(-1207093077896118712,23);
(-1211902330578208720,23);
(-1216658607044537520,23);
(-1221361840926753156,23);
(-1226011967922964383,23);
(-1230608925796179077,23);
(-1235152654372581371,23);
(-1239643095539603636,23);
(-1244080193244185154,23);
(-1248463893490737035,23);
(-1252794144339125599,23);
(-1257070895902612057,23);
(-1261294100345693590,23);
(-1265463711881757241,23);
(-1269579686770896936,23);
(-1273641983317414234,23);
(-1277650561867479497,23);
(-1281605384806466109,23);
(-1285506416556505429,23);
(-1289353623573698530,23);
(-1293146974345408062,23);
(-1296886439387451869,23);
(-1300571991241262201,23);
(-1304203604470853344,23);
(-1307781255659910363,23);
(-1311304923408608326,23);
(-1314774588330464220,23);
(-1318190233049179721,23);
(-1321551842195254927,23);
(-1324859402402703222,23);
(-1328112902305609955,23);
(-1331312332534562531,23);
(-1334457685713147085,23);
(-1337548956454335208,23);
(-1340586141356709231,23);
(-1343569239000753911,23);
(-1346498249945053765,23);
(-1349373176722269493,23);
(-1352194023835308710,23);
(-1354960797753199712,23);
(-1357673506907069084,23);
(-1360332161685897898,23);
(-1362936774432406993,23);
(-1365487359438648678,23);
(-1367983932941739552,23);
(-1370426513119377833,23);
(-1372815120085429130,23);
(-1375149775885301479,23);
(-1377430504491427092,23);
(-1379657331798531854,23);
(-1381830285618886176,23);
(-1383949395677576688,23);
(-1386014693607583452,23);
(-1388026212944881572,23)].
Definition mid_312 : list (Z * Z) := [
(-1389983989123508241,23);
(-1391888059470451411,23);
(-1393738463200573347,23);
(-1395535241411474396,23);
(-1397278437078218169,23);
(-1398968095048100947,23);
(-1400604262035310797,23);
(-1402186986615466410,23);
(-1403716319220204736,23);
(-1405192312131688646,23);
(-1406615019476963834,23);
(-1407984497222373819,23);
(-1409300803167881434,23);
(-1410563996941250900,23);
(-1411774139992320523,23);
(-1412931295587089054,23);
(-1414035528801840156,23);
(-1415086906517111360,23);
(-1416085497411741291,23);
(-1417031371956709024,23);
(-1417924602409053067,23);
(-1418765262805631776,23);
(-1419553428956931038,23);
(-1420289178440689160,23);
(-1420972590595620357,23);
(-1421603746514952904,23);
(-1422182729039972548,23);
(-1422709622753539819,23);
(-1423184513973487583,23);
(-1423607490746025704,23);
(-1423978642839077772,23);
(-1424298061735542787,23);
(-1424565840626517376,23);
(-1424782074404510710,23);
(-1424946859656528662,23);
(-1425060294657195887,23);
(-1425122479361761711,23);
(-1425133515399070262,23);
(-1425093506064518407,23);
(-1425002556312921193,23);
(-1424860772751354593,23);
(-1424668263631940810,23);
(-1424425138844613944,23);
(-1424131509909761647,23);
(-1423787489970923020,23);
(-1423393193787361318,23);
(-1422948737726639709,23);
(-1422454239757111650,23);
(-1421909819440407533,23);
(-1421315597923849167,23);
(-1420671697932810048,23);
(-1419978243763070550,23);
(-1419235361273099253,23);
(-1418443177876293609,23);
(-1417601822533197406,23);
(-1416711425743653347,23);
(-1415772119538917681,23);
(-1414784037473747391,23);
(-1413747314618428425,23);
(-1412662087550782251,23);
(-1411528494348110063,23);
(-1410346674579111407,23);
(-1409116769295767407,23);
(-1407838921025161135,23)].
Definition mid_313 : list (Z * Z) := [
(-1406513273761285447,23);
(-1405139972956804403,23);
(-1403719165514760814,23);
(-1402250999780270406,23);
(-1400735625532159062,23);
(-1399173193974581604,23);
(-1397563857728580431,23);
(-1395907770823627044,23);
(-1394205088689116148,23);
(-1392455968145840768,23);
(-1390660567397405201,23);
(-1388819046021641012,23);
(-1386931564961937658,23);
(-1384998286518592241,23);
(-1383019374340087954,23);
(-1380994993414360828,23);
(-1378925310060021937,23);
(-1376810491917553667,23);
(-1374650707940470257,23);
(-1372446128386453932,23);
(-1370196924808432435,23);
(-1367903270045676872,23);
(-1365565338214827402,23);
(-1363183304700889787,23);
(-1360757346148231764,23);
(-1358287640451533523,23);
(-1355774366746677182,23);
(-1353217705401681000,23);
(-1350617838007536168,23);
(-1347974947369049711,23);
(-1345289217495659091,23);
(-1342560833592212761,23);
(-1339789982049708368,23);
(-1336976850436059588,23);
(-1334121627486762158,23);
(-1331224503095604129,23);
(-1328285668305292771,23);
(-1325305315298112811,23);
(-1322283637386502855,23);
(-1319220829003668233,23);
(-1316117085694107270,23);
(-1312972604104185165,23);
(-1309787581972607754,23);
(-1306562218120952524,23);
(-1303296712444106292,23);
(-1299991265900727274,23);
(-1296646080503685131,23);
(-1293261359310445963,23);
(-1289837306413482705,23);
(-1286374126930631323,23);
(-1282872026995437853,23);
(-1279331213747478681,23);
(-1275751895322715208,23);
(-1272134280843730102,23);
(-1268478580410057060,23);
(-1264785005088391142,23);
(-1261053766902879739,23);
(-1257285078825291402,23);
(-1253479154765280043,23);
(-1249636209560553257,23);
(-1245756458967060968,23);
(-1241840119649132239,23);
(-1237887409169679334,23);
(-1233898545980259995,23)].
Definition mid_314 : list (Z * Z) := [
(-1229873749411257273,23);
(-1225813239661997538,23);
(-1221717237790777851,23);
(-1217585965705020052,23);
(-1213419646151322699,23);
(-1209218502705475563,23);
(-1204982759762563915,23);
(-1200712642527018427,23);
(-1196408377002568176,23);
(-1192070189982339000,23);
(-1187698309038812767,23);
(-1183292962513814941,23);
(-1178854379508574814,23);
(-1174382789873619391,23);
(-1169878424198821092,23);
(-1165341513803322800,23);
(-1160772290725499846,23);
(-1156170987712889123,23);
(-1151537838212213414,23);
(-1146873076359224955,23);
(-1142176936968711971,23);
(-1137449655524374262,23);
(-1132691468168799417,23);
(-1127902611693305020,23);
(-1123083323527922830,23);
(-1118233841731293334,23);
(-1113354404980563021,23);
(-1108445252561270464,23);
(-1103506624357308139,23);
(-1098538760840726005,23);
(-1093541903061713819,23);
(-1088516292638489428,23);
(-1083462171747128606,23);
(-1078379783111546018,23);
(-1073269369993332514,23);
(-1068131176181627158,23);
(-1062965445983099705,23);
(-1057772424211785364,23);
(-1052552356178963427,23);
(-1047305487683121116,23);
(-1042032064999794779,23);
(-1036732334871471394,23);
(-1031406544497572062,23);
(-1026054941524253227,23);
(-1020677774034415921,23);
(-1015275290537532894,23);
(-1009847739959664136,23);
(-1004395371633261642,23);
(-9989184352872384638,24);
(-9934171810367785647,24);
(-9878918593733770646,24);
(-9823427211546985468,24);
(-9767700175946281480,24);
(-9711740002531117362,24);
(-9655549210262264826,24);
(-9599130321361358981,24);
(-9542485861210113265,24);
(-9485618358251031944,24);
(-9428530343887141734,24);
(-9371224352381416804,24);
(-9313702920757855496,24);
(-9255968588701730333,24);
(-9198023898459097724,24);
(-9139871394738386293,24)].
Definition mid_315 : list (Z * Z) := [
(-9081513624610204732,24);
(-9022953137407908612,24);
(-8964192484629383517,24);
(-8905234219837349270,24);
(-8846080898560023298,24);
(-8786735078193281547,24);
(-8727199317901135502,24);
(-8667476178517132467,24);
(-8607568222447024706,24);
(-8547478013569068580,24);
(-8487208117137132451,24);
(-8426761099681565024,24);
(-8366139528912553975,24);
(-8305345973620928226,24);
(-8244383003582358516,24);
(-8183253189458508661,24);
(-8121959102700900701,24);
(-8060503315452955536,24);
(-7998888400454152848,24);
(-7937116930942007362,24);
(-7875191480556620091,24);
(-7813114623244291074,24);
(-7750888933160513767,24);
(-7688516984574959975,24);
(-7626001351775381423,24);
(-7563344608971258059,24);
(-7500549330199428426,24);
(-7437618089228823014,24);
(-7374553459464549639,24);
(-7311358013854282751,24);
(-7248034324792887525,24);
(-7184584964027791029,24);
(-7121012502566128785,24);
(-7057319510579317183,24);
(-6993508557310410953,24);
(-6929582210980173986,24);
(-6865543038693727828,24);
(-6801393606347233218,24);
(-6737136478536295334,24);
(-6672774218461890616,24);
(-6608309387839307337,24);
(-6543744546804962664,24);
(-6479082253825755730,24);
(-6414325065606069349,24);
(-6349475536997549143,24);
(-6284536220907820503,24);
(-6219509668209529949,24);
(-6154398427649328057,24);
(-6089205045758714153,24);
(-6023932066762442414,24);
(-5958582032490061125,24);
(-5893157482286228840,24);
(-5827660952920657831,24);
(-5762094978500356398,24);
(-5696462090380049205,24);
(-5630764817073703838,24);
(-5565005684167559159,24);
(-5499187214231509565,24);
(-5433311926731222782,24);
(-5367382337942021172,24);
(-5301400960861037644,24);
(-5235370305120476093,24);
(-5169292876902587077,24);
(-5103171178852093930,24)].
Definition mid_316 : list (Z * Z) := [
(-5037007709991598732,24);
(-4970804965635773639,24);
(-4904565437306151908,24);
(-4838291612646055295,24);
(-4771985975337445917,24);
(-4705651005015213287,24);
(-4639289177184708887,24);
(-4572902963137025930,24);
(-4506494829867235268,24);
(-4440067239989918422,24);
(-4373622651658005732,24);
(-4307163518480360894,24);
(-4240692289439770390,24);
(-4174211408811092995,24);
(-4107723316081253280,24);
(-4041230445866843946,24);
(-3974735227835052750,24);
(-3908240086623402752,24);
(-3841747441759117315,24);
(-3775259707580980045,24);
(-3708779293159354132,24);
(-3642308602217397696,24);
(-3575850033053969811,24);
(-3509405978464784870,24);
(-3442978825664532561,24);
(-3376570956210725373,24);
(-3310184745925999836,24);
(-3243822564821433787,24);
(-3177486777021876599,24);
(-3111179740688543924,24);
(-3044903807945070447,24);
(-2978661324801340447,24);
(-2912454631080273234,24);
(-2846286060341835399,24);
(-2780157939811371242,24);
(-2714072590304354054,24);
(-2648032326154760168,24);
(-2582039455141228437,24);
(-2516096278416180939,24);
(-2450205090432364896,24);
(-2384368178872734856,24);
(-2318587824579320990,24);
(-2252866301481645491,24);
(-2187205876527602984,24);
(-2121608809613320700,24);
(-2056077353512826362,24);
(-1990613753810302492,24);
(-1925220248831316651,24);
(-1859899069573744208,24);
(-1794652439641236446,24);
(-1729482575174964525,24);
(-1664391684786535112,24);
(-1599381969492874299,24);
(-1534455622648481904,24);
(-1469614829880963588,24);
(-1404861769025376054,24);
(-1340198610059256238,24);
(-1275627515037949703,24);
(-1211150638032036296,24);
(-1146770125062153075,24);
(-1082488114037271026,24);
(-1018306734690843806,24);
(-9542281085199710878,25);
(-8902543487218015255,25)].
Definition mid_317 : list (Z * Z) := [
(-8263875601343361630,25);
(-7626298391737098795,25);
(-6989832737751242877,25);
(-6354499433316156165,25);
(-5720319186358712767,25);
(-5087312618194472000,25);
(-4455500262954725190,25);
(-3824902567002777208,25);
(-3195539888347248571,25);
(-2567432496079552391,25);
(-1940600569802213045,25);
(-1315064199055783535,25);
(-6908433827714173601,26);
(-6795802871439582754,27);
(5535720470752680232,26);
(1173727120816574063,25);
(1792487561537736774,25);
(2409833831614232718,25);
(3025746487287260703,25);
(3640206179207551096,25);
(4253193652946031667,25);
(4864689749516357177,25);
(5474675405889767777,25);
(6083131655506686842,25);
(6690039628767349458,25);
(7295380553547482429,25);
(7899135755679503698,25);
(8501286659454289839,25);
(9101814788092998822,25);
(9700701764243819894,25);
(1029792931044428099,24);
(1089347924959520071,24);
(1148733350542840724,24);
(1207947410297249631,24);
(1266988316899775013,24);
(1325854293248425644,24);
(1384543572505563178,24);
(1443054398142295566,24);
(1501385023983092615,24);
(1559533714247895589,24);
(1617498743595774353,24);
(1675278397167371552,24);
(1732870970625587304,24);
(1790274770197762918,24);
(1847488112716836534,24);
(1904509325660705590,24);
(1961336747192977998,24);
(2017968726202504238,24);
(2074403622341018644,24);
(2130639806063139699,24);
(2186675658663011402,24);
(2242509572312909764,24);
(2298139950098927877,24);
(2353565206059147038,24);
(2408783765217655280,24);
(2463794063621745248,24);
(2518594548375641360,24);
(2573183677676146341,24);
(2627559920845437063,24);
(2681721758366097413,24);
(2735667681912958676,24);
(2789396194385899199,24);
(2842905809942093048,24);
(2896195054027954587,24)].
Definition mid_318 : list (Z * Z) := [
(2949262463409156057,24);
(3002106586202714027,24);
(3054725981905856279,24);
(3107119221425796288,24);
(3159284887109610613,24);
(3211221572771865301,24);
(3262927883723475145,24);
(3314402436799513898,24);
(3365643860385298645,24);
(3416650794443830289,24);
(3467421890542230295,24);
(3517955811876505811,24);
(3568251233297473966,24);
(3618306841335610423,24);
(3668121334224060723,24);
(3717693421923770064,24);
(3767021826145546808,24);
(3816105280373762891,24);
(3864942529887502117,24);
(3913532331783751496,24);
(3961873454996910956,24);
(4009964680321029224,24);
(4057804800428972187,24);
(4105392619893167571,24);
(4152726955203748390,24);
(4199806634788781787,24);
(4246630499031346909,24);
(4293197400287546220,24);
(4339506202904529509,24);
(4385555783236483340,24);
(4431345029661199007,24);
(4476872842596713348,24);
(4522138134515610052,24);
(4567139829960088368,24);
(4611876865557067402,24);
(4656348190031120309,24);
(4700552764218612118,24);
(4744489561080753360,24);
(4788157565715010445,24);
(4831555775368315145,24);
(4874683199447634714,24);
(4917538859531329756,24);
(4960121789379774322,24);
(5002431034945596540,24);
(5044465654382218400,24);
(5086224718054219202,24);
(5127707308544807235,24);
(5168912520664920298,24);
(5209839461459900318,24);
(5250487250217348738,24);
(5290855018473898540,24);
(5330941910020542934,24);
(5370747080908983020,24);
(5410269699457119104,24);
(5449508946253051232,24);
(5488464014160028408,24);
(5527134108320382212,24);
(5565518446157890022,24);
(5603616257381895830,24);
(5641426783988786620,24);
(5678949280264292063,24);
(5716183012785083714,24);
(5753127260419931215,24);
(5789781314329349924,24)].
Definition mid_319 : list (Z * Z) := [
(5826144477966822343,24);
(5862216067077408131,24);
(5897995409697789000,24);
(5933481846153965632,24);
(5968674729060630875,24);
(6003573423318008614,24);
(6038177306109331310,24);
(6072485766897830489,24);
(6106498207423363857,24);
(6140214041697550793,24);
(6173632696000366427,24);
(6206753608874221726,24);
(6239576231118649210,24);
(6272100025784989517,24);
(6304324468169304273,24);
(6336249045806109748,24);
(6367873258461242293,24);
(6399196618123435446,24);
(6430218648996748306,24);
(6460938887492114683,24);
(6491356882217805509,24);
(6521472193970363887,24);
(6551284395724859137,24);
(6580793072623731366,24);
(6609997821966972667,24);
(6638898253200128043,24);
(6667493987903296694,24);
(6695784659778339270,24);
(6723769914637296393,24);
(6751449410388255067,24);
(6778822817023021803,24);
(6805889816602504527,24);
(6832650103243157514,24);
(6859103383101530656,24);
(6885249374360169753,24);
(6911087807211246755,24);
(6936618423840737185,24);
(6961840978412596719,24);
(6986755237051362281,24);
(7011360977825115667,24);
(7035657990728420070,24);
(7059646077663543051,24);
(7083325052422180111,24);
(7106694740667073228,24);
(7129754979912064077,24);
(7152505619502967182,24);
(7174946520597496080,24);
(7197077556144200998,24);
(7218898610862311168,24);
(7240409581219900854,24);
(7261610375412445021,24);
(7282500913340772762,24);
(7303081126588752214,24);
(7323350958399773533,24);
(7343310363654294057,24);
(7362959308845503041,24);
(7382297772055809725,24);
(7401325742931882959,24);
(7420043222660490441,24);
(7438450223942713340,24);
(7456546770968550549,24);
(7474332899390909697,24);
(7491808656299555800,24);
(7508974100193796991,24)].
Definition mid_320 : list (Z * Z) := [
(7525829300956125702,24);
(7542374339824161545,24);
(7558609309362868630,24);
(7574534313436769495,24);
(7590149467180819882,24);
(7605454896971666366,24);
(7620450740398671051,24);
(7635137146233752115,24);
(7649514274401409010,24);
(7663582295948651098,24);
(7677341393013908149,24);
(7690791758796076377,24);
(7703933597523239201,24);
(7716767124420317365,24);
(7729292565677532207,24);
(7741510158417430666,24);
(7753420150662288069,24);
(7765022801300834975,24);
(7776318380054873924,24);
(7787307167445022026,24);
(7797989454756927905,24);
(7808365544006380714,24);
(7818435747904722396,24);
(7828200389823384105,24);
(7837659803758624226,24);
(7846814334295414278,24);
(7855664336571285852,24);
(7864210176239872622,24);
(7872452229434189771,24);
(7880390882729137536,24);
(7888026533104565492,24);
(7895359587906979881,24);
(7902390464811627035,24);
(7909119591784222731,24);
(7915547407041981898,24);
(7921674359014805876,24);
(7927500906306058010,24);
(7933027517652515938,24);
(7938254671884784655,24);
(7943182857887076001,24);
(7947812574556493482,24);
(7952144330762393325,24);
(7956178645305289824,24);
(7959916046875313458,24);
(7963357074010679173,24);
(7966502275055610863,24);
(7969352208118250615,24);
(7971907441027914032,24);
(7974168551292653886,24);
(7976136126055693827,24);
(7977810762052583757,24);
(7979193065567171062,24);
(7980283652388002130,24);
(7981083147763917498,24);
(7981592186359951925,24);
(7981811412212350170,24);
(7981741478683835179,24);
(7981383048418229145,24);
(7980736793295216863,24);
(7979803394384428077,24);
(7978583541899702779,24);
(7977077935152724632,24);
(7975287282506547654,24);
(7973212301329141546,24)].
Definition mid_321 : list (Z * Z) := [
(7970853717946159439,24);
(7968212267593958062,24);
(7965288694372211329,24);
(7962083751196088549,24);
(7958598199748532598,24);
(7954832810432112863,24);
(7950788362320739290,24);
(7946465643111005417,24);
(7941865449073526336,24);
(7936988585003824332,24);
(7931835864173229769,24);
(7926408108279326282,24);
(7920706147396478961,24);
(7914730819925778099,24);
(7908482972545120151,24);
(7901963460158860093,24);
(7895173145847394328,24);
(7888112900816436968,24);
(7880783604346182605,24);
(7873186143740221760,24);
(7865321414274280138,24);
(7857190319144737663,24);
(7848793769417027229,24);
(7840132683973769179,24);
(7831207989462741459,24);
(7822020620244714249,24);
(7812571518341108405,24);
(7802861633381318483,24);
(7792891922550071335,24);
(7782663350534515349,24);
(7772176889471106399,24);
(7761433518892400628,24);
(7750434225673647319,24);
(7739180003979200518,24);
(7727671855208759539,24);
(7715910787943553576,24);
(7703897817892231545,24);
(7691633967836682467,24);
(7679120267577649179,24);
(7666357753880381000,24);
(7653347470419756169,24);
(7640090467725670236,24);
(7626587803128003486,24);
(7612840540701673069,24);
(7598849751211248895,24);
(7584616512055740648,24);
(7570141907213180649,24);
(7555427027184871301,24);
(7540472968939712158,24);
(7525280835858423649,24);
(7509851737677451477,24);
(7494186790432926914,24);
(7478287116404581368,24);
(7462153844059151025,24);
(7445788107994190615,24);
(7429191048881450104,24);
(7412363813410005752,24);
(7395307554229899386,24);
(7378023429894975533,24);
(7360512604806010785,24);
(7342776249153693231,24);
(7324815538861361338,24);
(7306631655527773321,24);
(7288225786369923953,24)].
Definition mid_322 : list (Z * Z) := [
(7269599124165388720,24);
(7250752867194972919,24);
(7231688219185107488,24);
(7212406389250042391,24);
(7192908591834103542,24);
(7173196046654075077,24);
(7153269978641006499,24);
(7133131617882447572,24);
(7112782199564273251,24);
(7092222963912678018,24);
(7071455156135774655,24);
(7050480026365592816,24);
(7029298829599727774,24);
(7007912825642927336,24);
(6986323279048588970,24);
(6964531459060604215,24);
(6942538639554406041,24);
(6920346098978726856,24);
(6897955120296966047,24);
(6875366990928347438,24);
(6852583002689468096,24);
(6829604451735377868,24);
(6806432638500796990,24);
(6783068867641536980,24);
(6759514447975525126,24);
(6735770692423790005,24);
(6711838917951935737,24);
(6687720445510890343,24);
(6663416599978057283,24);
(6638928710098572867,24);
(6614258108426013958,24);
(6589406131263696043,24);
(6564374118605419042,24);
(6539163414076766233,24);
(6513775364875601883,24);
(6488211321713700508,24);
(6462472638757092042,24);
(6436560673567515766,24);
(6410476787043006872,24);
(6384222343359264847,24);
(6357798709910185828,24);
(6331207257249174231,24);
(6304449359030219754,24);
(6277526391948508502,24);
(6250439735681843043,24);
(6223190772831578795,24);
(6195780888863405414,24);
(6168211472048783785,24);
(6140483913406089933,24);
(6112599606641336272,24);
(6084559948089802566,24);
(6056366336656928272,24);
(6028020173759440364,24);
(5999522863267125751,24);
(5970875811443499998,24);
(5942080426887649208,24);
(5913138120475334963,24);
(5884050305300427087,24);
(5854818396616257621,24);
(5825443811777592291,24);
(5795927970181632121,24);
(5766272293210054361,24);
(5736478204170354601,24);
(5706547128237925818,24)].
Definition mid_323 : list (Z * Z) := [
(5676480492397269202,24);
(5646279725384609373,24);
(5615946257629076408,24);
(5585481521195239741,24);
(5554886949724689146,24);
(5524163978378601671,24);
(5493314043779334476,24);
(5462338583953167105,24);
(5431239038272593975,24);
(5400016847398361065,24);
(5368673453222341168,24);
(5337210298810053389,24);
(5305628828342853989,24);
(5273930487061187725,24);
(5242116721207376697,24);
(5210188977968122910,24);
(5178148705418016255,24);
(5145997352462253910,24);
(5113736368779790870,24);
(5081367204767137624,24);
(5048891311481110042,24);
(5016310140582780355,24);
(4983625144280901290,24);
(4950837775275528399,24);
(4917949486701720319,24);
(4884961732073997981,24);
(4851875965229655230,24);
(4818693640273513643,24);
(4785416211521631263,24);
(4752045133446260703,24);
(4718581860619609545,24);
(4685027847659085591,24);
(4651384549171832295,24);
(4617653419699547115,24);
(4583835913663273590,24);
(4549933485309034540,24);
(4515947588652335305,24);
(4481879677424123050,24);
(4447731205016297133,24);
(4413503624426844239,24);
(4379198388206215267,24);
(4344816948402852639,24);
(4310360756509111484,24);
(4275831263408076131,24);
(4241229919319490609,24);
(4206558173746063535,24);
(4171817475420622575,24);
(4137009272252486246,24);
(4102135011274343091,24);
(4067196138589956718,24);
(4032194099320640083,24);
(3997130337553349324,24);
(3962006296287599347,24);
(3926823417383733838,24);
(3891583141510677728,24);
(3856286908093506697,24);
(3820936155262290624,24);
(3785532319800362317,24);
(3750076837092473592,24);
(3714571141074038096,24);
(3679016664179635512,24);
(3643414837291965966,24);
(3607767089691693822,24);
(3572074849006406319,24)].
Definition mid_324 : list (Z * Z) := [
(3536339541160087212,24);
(3500562590323376452,24);
(3464745418863073052,24);
(3428889447292212655,24);
(3392996094221053551,24);
(3357066776306756140,24);
(3321102908204742918,24);
(3285105902519000086,24);
(3249077169753801753,24);
(3213018118264044585,24);
(3176930154207820734,24);
(3140814681497106125,24);
(3104673101750311783,24);
(3068506814243705649,24);
(3032317215864359476,24);
(2996105701061722684,24);
(2959873661800952965,24);
(2923622487515715790,24);
(2887353565060751842,24);
(2851068278665655691,24);
(2814768009888235623,24);
(2778454137567654932,24);
(2742128037778975468,24);
(2705791083787162907,24);
(2669444646000909474,24);
(2633090091927805150,24);
(2596728786128565284,24);
(2560362090171934556,24);
(2523991362590539620,24);
(2487617958835407249,24);
(2451243231232216775,24);
(2414868528936883375,24);
(2378495197891515323,24);
(2342124580780538110,24);
(2305758016987929438,24);
(2269396842553025282,24);
(2233042390128217790,24);
(2196695988935488520,24);
(2160358964724540870,24);
(2124032639729546340,24);
(2087718332627769516,24);
(2051417358497473918,24);
(2015131028776209865,24);
(1978860651219132405,24);
(1942607529858466978,24);
(1906372964961660906,24);
(1870158252991403437,24);
(1833964686565078070,24);
(1797793554414028945,24);
(1761646141344148619,24);
(1725523728196039985,24);
(1689427591804621271,24);
(1653359004961335031,24);
(1617319236374228328,24);
(1581309550629114583,24);
(1545331208151615267,24);
(1509385465168393120,24);
(1473473573669061282,24);
(1437596781369137890,24);
(1401756331671624870,24);
(1365953463630407435,24);
(1330189411912970872,24);
(1294465406763569214,24);
(1258782673966552110,24)].
Definition mid_325 : list (Z * Z) := [
(1223142434810857409,24);
(1187545906053100431,24);
(1151994299882583884,24);
(1116488823885169156,24);
(1081030681008778353,24);
(1045621069527533895,24);
(1010261183007808795,24);
(9749522102736120252,25);
(9396953353723328094,25);
(9044917375405781964,25);
(8693425911711894910,25);
(8342490657789357258,25);
(7992123259681408026,25);
(7642335313997488404,25);
(7293138367582319742,25);
(6944543917199337690,25);
(6596563409205194381,25);
(6249208239231025223,25);
(5902489751873889621,25);
(5556419240379346442,25);
(5211007946330052933,25);
(4866267059344408404,25);
(4522207716767289791,25);
(4178841003367633894,25);
(3836177951046833050,25);
(3494229538533585163,25);
(3153006691097809385,25);
(2812520280253407956,25);
(2472781123477650550,25);
(2133799983916186570,25);
(1795587570112023733,25);
(1458154535716042906,25);
(1121511479217408562,25);
(7856689436629406833,26);
(4506374163930164988,26);
(1164273287640902035,26);
(-2169509441098402914,26);
(-5494870836210749564,26);
(-8811708279332675757,26);
(-1211991972233221677,25);
(-1541940368987142480,25);
(-1871005928197270184,25);
(-2199178617644482106,25);
(-2526448463135336599,25);
(-2852805548750229612,25);
(-3178240017077620741,25);
(-3502742069456566824,25);
(-3826301966212441940,25);
(-4148910026881930011,25);
(-4470556630450987587,25);
(-4791232215575047535,25);
(-5110927280804921136,25);
(-5429632384808429018,25);
(-5747338146589899689,25);
(-6064035245698203474,25);
(-6379714422447647063,25);
(-6694366478120401676,25);
(-7007982275179241745,25);
(-7320552737464307487,25);
(-7632068850403326841,25);
(-7942521661198764212,25);
(-8251902279032251881,25);
(-8560201875250045748,25);
(-8867411683558652886,25)].
Definition mid_326 : list (Z * Z) := [
(-9173523000204439582,25);
(-9478527184165916287,25);
(-9782415657327725596,25);
(-1008517990465944349,24);
(-1038681147439538114,24);
(-1068730197820151922,24);
(-1098664309134666572,24);
(-1128482655287342322,24);
(-1158184416575597630,24);
(-1187768779706177104,24);
(-1217234937811407552,24);
(-1246582090464109145,24);
(-1275809443693296022,24);
(-1304916209999166868,24);
(-1333901608367123094,24);
(-1362764864282952332,24);
(-1391505209746321877,24);
(-1420121883284817199,24);
(-1448614129967521156,24);
(-1476981201418413627,24);
(-1505222355828639092,24);
(-1533336857969997116,24);
(-1561323979206647705,24);
(-1589182997507807699,24);
(-1616913197458892217,24);
(-1644513870273843008,24);
(-1671984313805741992,24);
(-1699323832557871387,24);
(-1726531737694502791,24);
(-1753607347051480018,24);
(-1780549985145770232,24);
(-1807358983186058644,24);
(-1834033679081681105,24);
(-1860573417451919868,24);
(-1886977549635434247,24);
(-1913245433698379631,24);
(-1939376434443257715,24);
(-1965369923417109637,24);
(-1991225278918809772,24);
(-2016941886007084815,24);
(-2042519136507907522,24);
(-2067956429021045552,24);
(-2093253168927218047,24);
(-2118408768394592793,24);
(-2143422646384379186,24);
(-2168294228657441437,24);
(-2193022947779355785,24);
(-2217608243126233845,24);
(-2242049560889237298,24);
(-2266346354080133576,24);
(-2290498082534893213,24);
(-2314504212918714869,24);
(-2338364218729418542,24);
(-2362077580301612546,24);
(-2385643784809561144,24);
(-2409062326271012712,24);
(-2432332705549490537,24);
(-2455454430357022809,24);
(-2478427015256509651,24);
(-2501249981664000792,24);
(-2523922857849917411,24);
(-2546445178941280258,24);
(-2568816486922377118,24);
(-2591036330635799574,24)].
Definition mid_327 : list (Z * Z) := [
(-2613104265783507732,24);
(-2635019854926753987,24);
(-2656782667486659005,24);
(-2678392279744109655,24);
(-2699848274838937812,24);
(-2721150242769640409,24);
(-2742297780392589162,24);
(-2763290491420448306,24);
(-2784127986421131477,24);
(-2804809882816106797,24);
(-2825335804877958695,24);
(-2845705383728794205,24);
(-2865918257337238551,24);
(-2885974070516173984,24);
(-2905872474919186484,24);
(-2925613129038060233,24);
(-2945195698198377281,24);
(-2964619854556483474,24);
(-2983885277094919557,24);
(-3002991651618601905,24);
(-3021938670749757261,24);
(-3040726033923742634,24);
(-3059353447383513323,24);
(-3077820624174338705,24);
(-3096127284138582815,24);
(-3114273153909536676,24);
(-3132257966905441637,24);
(-3150081463323503814,24);
(-3167743390132937404,24);
(-3185243501068165559,24);
(-3202581556622106797,24);
(-3219757324038456415,24);
(-3236770577304444784,24);
(-3253621097143098854,24);
(-3270308671004735824,24);
(-3286833093059280555,24);
(-3303194164187289564,24);
(-3319391691971370151,24);
(-3335425490687220490,24);
(-3351295381294486329,24);
(-3367001191426838424,24);
(-3382542755382780959,24);
(-3397919914115302500,24);
(-3413132515222005517,24);
(-3428180412934294436,24);
(-3443063468107225638,24);
(-3457781548208192798,24);
(-3472334527305886231,24);
(-3486722286059021002,24);
(-3500944711704833794,24);
(-3515001698046942812,24);
(-3528893145443792553,24);
(-3542618960795974152,24);
(-3556179057533785431,24);
(-3569573355604762150,24);
(-3582801781460468103,24);
(-3595864268043344513,24);
(-3608760754773636919,24);
(-3621491187535421679,24);
(-3634055518662814576,24);
(-3646453706926192559,24);
(-3658685717517570987,24);
(-3670751522036407362,24);
(-3682651098474895134,24)].
Definition mid_328 : list (Z * Z) := [
(-3694384431202714153,24);
(-3705951510952344381,24);
(-3717352334803400871,24);
(-3728586906167205056,24);
(-3739655234771104900,24);
(-3750557336642507061,24);
(-3761293234092410141,24);
(-3771862955699422448,24);
(-3782266536292831923,24);
(-3792504016936138129,24);
(-3802575444909667742,24);
(-3812480873693865985,24);
(-3822220362951472506,24);
(-3831793978510052178,24);
(-3841201792344222650,24);
(-3850443882557765432,24);
(-3859520333365148303,24);
(-3868431235073516535,24);
(-3877176684063824391,24);
(-3885756782772063181,24);
(-3894171639670522351,24);
(-3902421369248349229,24);
(-3910506091992418790,24);
(-3918425934367810389,24);
(-3926181028797873689,24);
(-3933771513644461453,24);
(-3941197533187918394,24);
(-3948459237606612617,24);
(-3955556782956647492,24);
(-3962490331151247412,24);
(-3969260049939681915,24);
(-3975866112886626037,24);
(-3982308699350665157,24);
(-3988587994463233517,24);
(-3994704189106805672,24);
(-4000657479893558878,24);
(-4006448069143105445,24);
(-4012076164860785823,24);
(-4017541980715251876,24);
(-4022845736016246665,24);
(-4027987655691876015,24);
(-4032967970266160446,24);
(-4037786915835942513,24);
(-4042444734047876313,24);
(-4046941672075414444,24);
(-4051277982595210511,24);
(-4055453923763708838,24);
(-4059469759193600331,24);
(-4063325757929795548,24);
(-4067022194425480766,24);
(-4070559348518076651,24);
(-4073937505404852174,24);
(-4077156955618562255,24);
(-4080217995002712699,24);
(-4083120924687068248,24);
(-4085866051062458423,24);
(-4088453685756021301,24);
(-4090884145605789132,24);
(-4093157752635610239,24);
(-4095274834029422082,24);
(-4097235722105901260,24);
(-4099040754292550230,24);
(-4100690273099827226,24);
(-4102184626095227053,24)].
Definition mid_329 : list (Z * Z) := [
(-4103524165877049322,24);
(-4104709250048095536,24);
(-4105740241189356860,24);
(-4106617506833363074,24);
(-4107341419437490873,24);
(-4107912356357268775,24);
(-4108330699819289855,24);
(-4108596836894308286,24);
(-4108711159469973344,24);
(-4108674064223463474,24);
(-4108485952594177941,24);
(-4108147230756098998,24);
(-4107658309590143879,24);
(-4107019604656399062,24);
(-4106231536166276601,24);
(-4105294528954315550,24);
(-4104209012450240891,24);
(-4102975420650602327,24);
(-4101594192090507948,24);
(-4100065769815052958,24);
(-4098390601350927137,24);
(-4096569138677556423,24);
(-4094601838198403745,24);
(-4092489160712084351,24);
(-4090231571383399822,24);
(-4087829539714188283,24);
(-4085283539514210181,24);
(-4082594048871844340,24);
(-4079761550124650172,24);
(-4076786529829977331,24);
(-4073669478735326335,24);
(-4070410891748737143,24);
(-4067011267909015096,24);
(-4063471110355881481,24);
(-4059790926300069875,24);
(-4055971226993279349,24);
(-4052012527698073455,24);
(-4047915347657714845,24);
(-4043680210065899087,24);
(-4039307642036353807,24);
(-4034798174572495426,24);
(-4030152342536833486,24);
(-4025370684620433415,24);
(-4020453743312244618,24);
(-4015402064868365888,24);
(-4010216199281237122,24);
(-4004896700248742947,24);
(-3999444125143327358,24);
(-3993859034980878811,24);
(-3988141994389724580,24);
(-3982293571579427760,24);
(-3976314338309608828,24);
(-3970204869858647776,24);
(-3963965744992346437,24);
(-3957597545932555227,24);
(-3951100858325662673,24);
(-3944476271211105274,24);
(-3937724376989811280,24);
(-3930845771392550467,24);
(-3923841053448249171,24);
(-3916710825452307871,24);
(-3909455692934759520,24);
(-3902076264628437208,24);
(-3894573152437140117,24)].
Definition mid_330 : list (Z * Z) := [
(-3886946971403699534,24);
(-3879198339677958465,24);
(-3871327878484807999,24);
(-3863336212092142355,24);
(-3855223967778669942,24);
(-3846991775801908213,24);
(-3838640269365885454,24);
(-3830170084589036544,24);
(-3821581860471858149,24);
(-3812876238864704958,24);
(-3804053864435430906,24);
(-3795115384637082487,24);
(-3786061449675465866,24);
(-3776892712476813935,24);
(-3767609828655295827,24);
(-3758213456480615359,24);
(-3748704256845488784,24);
(-3739082893233138626,24);
(-3729350031684836229,24);
(-3719506340767251175,24);
(-3709552491539975620,24);
(-3699489157522938933,24);
(-3689317014663700367,24);
(-3679036741304984408,24);
(-3668649018151976825,24);
(-3658154528239666051,24);
(-3647553956900269258,24);
(-3636847991730502154,24);
(-3626037322558885636,24);
(-3615122641413206163,24);
(-3604104642487703403,24);
(-3592984022110450563,24);
(-3581761478710651300,24);
(-3570437712785945513,24);
(-3559013426869655011,24);
(-3547489325498259558,24);
(-3535866115178559951,24);
(-3524144504355078260,24);
(-3512325203377294172,24);
(-3500408924467105798,24);
(-3488396381685989356,24);
(-3476288290902484117,24);
(-3464085369759508796,24);
(-3451788337641755436,24);
(-3439397915642939731,24);
(-3426914826533382109,24);
(-3414339794727210191,24);
(-3401673546249939033,24);
(-3388916808705897197,24);
(-3376070311245557120,24);
(-3363134784533203014,24);
(-3350110960714313751,24);
(-3336999573383019428,24);
(-3323801357549799342,24);
(-3310517049609024117,24);
(-3297147387306433020,24);
(-3283693109706965349,24);
(-3270154957162217423,24);
(-3256533671278162159,24);
(-3242829994883037630,24);
(-3229044671994862502,24);
(-3215178447789392355,24);
(-3201232068567857892,24);
(-3187206281724854770,24)].
Definition mid_331 : list (Z * Z) := [
(-3173101835716092391,24);
(-3158919480026606032,24);
(-3144659965138442111,24);
(-3130324042498882593,24);
(-3115912464488310257,24);
(-3101425984388505097,24);
(-3086865356350565068,24);
(-3072231335363243145,24);
(-3057524677221170464,24);
(-3042746138493111637,24);
(-3027896476490210342,24);
(-3012976449234560583,24);
(-2997986815427398910,24);
(-2982928334417757002,24);
(-2967801766171014298,24);
(-2952607871237327806,24);
(-2937347410720479505,24);
(-2922021146246434056,24);
(-2906629839932048135,24);
(-2891174254354167709,24);
(-2875655152518266637,24);
(-2860073297827402068,24);
(-2844429454051371428,24);
(-2828724385295646222,24);
(-2812958855970459557,24);
(-2797133630760250285,24);
(-2781249474592670910,24);
(-2765307152608114304,24);
(-2749307430128918138,24);
(-2733251072629106740,24);
(-2717138845703576465,24);
(-2700971515038112421,24);
(-2684749846378775849,24);
(-2668474605501863680,24);
(-2652146558183563577,24);
(-2635766470170120165,24);
(-2619335107147504898,24);
(-2602853234711754237,24);
(-2586321618339091833,24);
(-2569741023356006239,24);
(-2553112214909729275,24);
(-2536435957938605962,24);
(-2519713017142377650,24);
(-2502944156952997066,24);
(-2486130141505246865,24);
(-2469271734607292949,24);
(-2452369699711744741,24);
(-2435424799886390622,24);
(-2418437797785154436,24);
(-2401409455619453501,24);
(-2384340535129185187,24);
(-2367231797553921440,24);
(-2350084003604543773,24);
(-2332897913434455572,24);
(-2315674286611129420,24);
(-2298413882088063103,24);
(-2281117458176151167,24);
(-2263785772515834051,24);
(-2246419582048767803,24);
(-2229019642990194706,24);
(-2211586710800637137,24);
(-2194121540158659525,24);
(-2176624884932774387,24);
(-2159097498154223769,24)].
Definition mid_332 : list (Z * Z) := [
(-2141540131989234688,24);
(-2123953537712024183,24);
(-2106338465677124217,24);
(-2088695665292612462,24);
(-2071025884993028851,24);
(-2053329872212256970,24);
(-2035608373356963218,24);
(-2017862133779817441,24);
(-2000091897752724998,24);
(-1982298408440581863,24);
(-1964482407874919200,24);
(-1946644636927417487,24);
(-1928785835284053380,24);
(-1910906741418868367,24);
(-1893008092568010602,24);
(-1875090624704293209,24);
(-1857155072511081739,24);
(-1839202169357048566,24);
(-1821232647270617898,24);
(-1803247236914603078,24);
(-1785246667560922219,24);
(-1767231667065877552,24);
(-1749202961844742955,24);
(-1731161276847284484,24);
(-1713107335532735218,24);
(-1695041859845541729,24);
(-1676965570190475725,24);
(-1658879185408613455,24);
(-1640783422753074155,24);
(-1622678997864840210,24);
(-1604566624748703761,24);
(-1586447015749716848,24);
(-1568320881529058390,24);
(-1550188931040788845,24);
(-1532051871508355421,24);
(-1513910408401046257,24);
(-1495765245411073946,24);
(-1477617084430297796,24);
(-1459466625527239170,24);
(-1441314566924590222,24);
(-1423161604976310333,24);
(-1405008434145023465,24);
(-1386855746979858294,24);
(-1368704234093967956,24);
(-1350554584142346890,24);
(-1332407483800186605,24);
(-1314263617740582408,24);
(-1296123668613115753,24);
(-1277988317022164265,24);
(-1259858241505384357,24);
(-1241734118512338464,24);
(-1223616622383669684,24);
(-1205506425329633937,24);
(-1187404197409560689,24);
(-1169310606510773263,24);
(-1151226318328355978,24);
(-1133151996344209143,24);
(-1115088301807099095,24);
(-1097035893712385744,24);
(-1078995428781933911,24);
(-1060967561444086931,24);
(-1042952943814242065,24);
(-1024952225674773075,24);
(-1006966054455933857,24)].
Definition mid_333 : list (Z * Z) := [
(-9889950752164876488,25);
(-9710399306242885899,25);
(-9531012609375619718,25);
(-9351797039857770714,25);
(-9172758951508739360,25);
(-8993904673489714949,25);
(-8815240510116896362,25);
(-8636772740677657326,25);
(-8458507619251851054,25);
(-8280451374529334993,25);
(-8102610209630994881,25);
(-7924990301935440748,25);
(-7747597802898812302,25);
(-7570438837884476603,25);
(-7393519505987189316,25);
(-7216845879865676533,25);
(-7040424005568230687,25);
(-6864259902370403160,25);
(-6688359562603469520,25);
(-6512728951493209510,25);
(-6337374006993094491,25);
(-6162300639626009810,25);
(-5987514732319360781,25);
(-5813022140249769187,25);
(-5638828690685370577,25);
(-5464940182827447683,25);
(-5291362387658998937,25);
(-5118101047791142805,25);
(-4945161877309505189,25);
(-4772550561627735661,25);
(-4600272757338931010,25);
(-4428334092066732137,25);
(-4256740164323354455,25);
(-4085496543363808753,25);
(-3914608769043499073,25);
(-3744082351681478245,25);
(-3573922771917193967,25);
(-3404135480576487662,25);
(-3234725898534596961,25);
(-3065699416581685512,25);
(-2897061395289459117,25);
(-2728817164883716921,25);
(-2560972025110559375,25);
(-2393531245112056513,25);
(-2226500063296816017,25);
(-2059883687218756926,25);
(-1893687293449629056,25);
(-1727916027460974194,25);
(-1562575003503315910,25);
(-1397669304487320300,25);
(-1233203981865752686,25);
(-1069184055521343685,25);
(-9056145136487337267,26);
(-7425003126458912411,26);
(-5798463770031509434,26);
(-4176575991918963677,26);
(-2559388395598939245,26);
(-9469492622430668399,27);
(6606934503293871912,27);
(2263492108685763881,26);
(3861399404755873835,26);
(5454368356869616396,26);
(7042352310701285809,26);
(8625304940263784327,26)].
Definition mid_334 : list (Z * Z) := [
(1020318024882154903,25);
(1177593256986449280,25);
(1334351656798934611,25);
(1490588723980747774,25);
(1646299991483308832,25);
(1801481025636315311,25);
(1956127426229954159,25);
(2110234826602816885,25);
(2263798893720542066,25);
(2416815328256779525,25);
(2569279864674402257,25);
(2721188271299872220,25);
(2872536350401322477,25);
(3023319938263174973,25);
(3173534905255769825,25);
(3323177155908737430,25);
(3472242628981247673,25);
(3620727297527363281,25);
(3768627168964648437,25);
(3915938285139325198,25);
(4062656722386272016,25);
(4208778591594652912,25);
(4354300038264820086,25);
(4499217242569753454,25);
(4643526419408784774,25);
(4787223818467419344,25);
(4930305724266091220,25);
(5072768456216916540,25);
(5214608368671119962,25);
(5355821850971194946,25);
(5496405327495329579,25);
(5636355257707482100,25);
(5775668136198690699,25);
(5914340492730585601,25);
(6052368892278866205,25);
(6189749935070865937,25);
(6326480256624668235,25);
(6462556527788077471,25);
(6597975454771181019,25);
(6732733779180476212,25);
(6866828278053389050,25);
(7000255763886074880,25);
(7133013084664883557,25);
(7265097123894373994,25);
(7396504800620788626,25);
(7527233069458815414,25);
(7657278920615414879,25);
(7786639379909242574,25);
(7915311508792689934,25);
(8043292404371007108,25);
(8170579199416379583,25);
(8297169062387358067,25);
(8423059197439962027,25);
(8548246844443194158,25);
(8672729278987031082,25);
(8796503812396296684,25);
(8919567791734229186,25);
(9041918599813188698,25);
(9163553655197047967,25);
(9284470412207550423,25);
(9404666360923930070,25);
(9524139027187146650,25);
(9642885972596556806,25);
(9760904794508198837,25)].
Definition mid_335 : list (Z * Z) := [
(9878193126033280750,25);
(9994748636031009058,25);
(1011056902910284379,24);
(1022565204558676830,24);
(1033999546154531647,24);
(1045359708875537655,24);
(1056645477469797381,24);
(1067856640254224891,24);
(1078992989113237127,24);
(1090054319497168894,24);
(1101040430420195088,24);
(1111951124458769404,24);
(1122786207749324007,24);
(1133545489986163592,24);
(1144228784419161036,24);
(1154835907851344410,24);
(1165366680636030409,24);
(1175820926674377908,24);
(1186198473412256058,24);
(1196499151837448019,24);
(1206722796476234031,24);
(1216869245390409851,24);
(1226938340173595605,24);
(1236929925947745792,24);
(1246843851359446908,24);
(1256679968576194735,24);
(1266438133282188186,24);
(1276118204674541799,24);
(1285720045458798578,24);
(1295243521844606738,24);
(1304688503541367438,24);
(1314054863753402669,24);
(1323342479175359467,24);
(1332551229987350482,24);
(1341680999849717200,24);
(1350731675898045361,24);
(1359703148737965878,24);
(1368595312439533497,24);
(1377408064531886890,24);
(1386141305997600219,24);
(1394794941266679788,24);
(1403368878210943344,24);
(1411863028137770879,24);
(1420277305784052158,24);
(1428611629309903215,24);
(1436865920292337114,24);
(1445040103718500175,24);
(1453134107979307583,24);
(1461147864862448800,24);
(1469081309545711042,24);
(1476934380589726345,24);
(1484707019931127752,24);
(1492399172875076366,24);
(1500010788087952086,24);
(1507541817589890617,24);
(1514992216747244665,24);
(1522361944264712453,24);
(1529650962177716973,24);
(1536859235844277645,24);
(1543986733936964134,24);
(1551033428434859284,24);
(1557999294615083915,24);
(1564884311044529570,24);
(1571688459571383315,24)].
Definition mid_336 : list (Z * Z) := [
(1578411725316291705,24);
(1585054096663782879,24);
(1591615565253449794,24);
(1598096125970853516,24);
(1604495776938571776,24);
(1610814519507071553,24);
(1617052358245204730,24);
(1623209300931077081,24);
(1629285358542355880,24);
(1635280545246839252,24);
(1641194878392567062,24);
(1647028378498249652,24);
(1652781069243097523,24);
(1658452977457013110,24);
(1664044133110312463,24);
(1669554569303669062,24);
(1674984322257609125,24);
(1680333431302315870,24);
(1685601938866915823,24);
(1690789890468927749,24);
(1695897334703604861,24);
(1700924323233021224,24);
(1705870910775203687,24);
(1710737155093222733,24);
(1715523116983951931,24);
(1720228860266907850,24);
(1724854451773039368,24);
(1729399961333226234,24);
(1733865461766904901,24);
(1738251028870519226,24);
(1742556741405715379,24);
(1746782681087769249,24);
(1750928932573648788,24);
(1754995583450096047,24);
(1758982724221663890,24);
(1762890448298634134,24);
(1766718851984692578,24);
(1770468034464832742,24);
(1774138097792847941,24);
(1777729146879045919,24);
(1781241289477537427,24);
(1784674636173838201,24);
(1788029300372015870,24);
(1791305398281974727,24);
(1794503048906588655,24);
(1797622374028855880,24);
(1800663498198728450,24);
(1803626548720206846,24);
(1806511655638036901,24);
(1809318951724489949,24);
(1812048572466118616,24);
(1814700656050261467,24);
(1817275343351633842,24);
(1819772777918817677,24);
(1822193105960568159,24);
(1824536476332133298,24);
(1826803040521572015,24);
(1828992952635823200,24);
(1831106369386872188,24);
(1833143450077816848,24);
(1835104356588684232,24);
(1836989253362483545,24);
(1838798307390927067,24);
(1840531688200234525,24)].
Definition mid_337 : list (Z * Z) := [
(1842189567836822466,24);
(1843772120852997025,24);
(1845279524292365900,24);
(1846711957675503166,24);
(1848069602985278878,24);
(1849352644652328219,24);
(1850561269540274585,24);
(1851695666931093707,24);
(1852756028510253302,24);
(1853742548351831129,24);
(1854655422903636853,24);
(1855494850972260857,24);
(1856261033707967834,24);
(1856954174589718065,24);
(1857574479409932049,24);
(1858122156259344499,24);
(1858597415511761980,24);
(1859000469808722935,24);
(1859331534044194970,24);
(1859590825349184058,24);
(1859778563076203977,24);
(1859894968783864971,24);
(1859940266221290034,24);
(1859914681312496259,24);
(1859818442140791858,24);
(1859651778933095039,24);
(1859414924044130277,24);
(1859108111940732161,24);
(1858731579185979827,24);
(1858285564423347280,24);
(1857770308360766894,24);
(1857186053754750718,24);
(1856533045394311251,24);
(1855811530085010328,24);
(1855021756632828017,24);
(1854163975828136325,24);
(1853238440429458194,24);
(1852245405147374932,24);
(1851185126628259792,24);
(1850057863438030609,24);
(1848863876045888253,24);
(1847603426807989428,24);
(1846276779951066965,24);
(1844884201556096273,24);
(1843425959541840666,24);
(1841902323648411720,24);
(1840313565420814182,24);
(1838659958192409762,24);
(1836941777068429433,24);
(1835159298909378355,24);
(1833312802314450549,24);
(1831402567604927263,24);
(1829428876807545267,24);
(1827392013637822165,24);
(1825292263483368362,24);
(1823129913387220843,24);
(1820905252031041216,24);
(1818618569718422388,24);
(1816270158358087878,24);
(1813860311447118657,24);
(1811389324054116464,24);
(1808857492802424507,24);
(1806265115853215178,24);
(1803612492888676027,24)].
Definition mid_338 : list (Z * Z) := [
(1800899925095107009,24);
(1798127715146042289,24);
(1795296167185323141,24);
(1792405586810187567,24);
(1789456281054346580,24);
(1786448558371005430,24);
(1783382728615927176,24);
(1780259103030455397,24);
(1777077994224539015,24);
(1773839716159736579,24);
(1770544584132213137,24);
(1767192914755772896,24);
(1763785025944788119,24);
(1760321236897220350,24);
(1756801868077587220,24);
(1753227241199924585,24);
(1749597679210760532,24);
(1745913506272093195,24);
(1742175047744322612,24);
(1738382630169228121,24);
(1734536581252920761,24);
(1730637229848794615,24);
(1726684905940503992,24);
(1722679940624890628,24);
(1718622666094993477,24);
(1714513415622949023,24);
(1710352523543003818,24);
(1706140325234456090,24);
(1701877157104647321,24);
(1697563356571941752,24);
(1693199262048693400,24);
(1688785212924266224,24);
(1684321549548012362,24);
(1679808613212269424,24);
(1675246746135400994,24);
(1670636291444820386,24);
(1665977593160000232,24);
(1661270996175566966,24);
(1656516846244315702,24);
(1651715489960264064,24);
(1646867274741803649,24);
(1641972548814752373,24);
(1637031661195450873,24);
(1632044961673928574,24);
(1627012800797031641,24);
(1621935529851539068,24);
(1616813500847410698,24);
(1611647066500915598,24);
(1606436580217884097,24);
(1601182396076924254,24);
(1595884868812653995,24);
(1590544353798986395,24);
(1585161207032436781,24);
(1579735785115390021,24);
(1574268445239487023,24);
(1568759545168931633,24);
(1563209443223917578,24);
(1557618498263994651,24);
(1551987069671508369,24);
(1546315517335077958,24);
(1540604201633058671,24);
(1534853483417025704,24);
(1529063723995368018,24);
(1523235285116787496,24)].
Definition mid_339 : list (Z * Z) := [
(1517368528953922624,24);
(1511463818086986567,24);
(1505521515487367128,24);
(1499541984501366256,24);
(1493525588833851676,24);
(1487472692532070088,24);
(1481383659969318915,24);
(1475258855828897779,24);
(1469098645087807142,24);
(1462903393000733666,24);
(1456673465083877811,24);
(1450409227098982183,24);
(1444111045037209321,24);
(1437779285103261100,24);
(1431414313699396487,24);
(1425016497409481491,24);
(1418586202983189668,24);
(1412123797320145874,24);
(1405629647454077433,24);
(1399104120537141064,24);
(1392547583824214865,24);
(1385960404657140959,24);
(1379342950449197264,24);
(1372695588669447288,24);
(1366018686827180133,24);
(1359312612456507625,24);
(1352577733100782509,24);
(1345814416297297854,24);
(1339023029561846706,24);
(1332203940373416410,24);
(1325357516158880610,24);
(1318484124277866368,24);
(1311584132007448916,24);
(1304657906527129102,24);
(1297705814903630207,24);
(1290728224075977460,24);
(1283725500840376806,24);
(1276698011835373408,24);
(1269646123526945346,24);
(1262570202193635226,24);
(1255470613911754846,24);
(1248347724540703357,24);
(1241201899708171931,24);
(1234033504795612699,24);
(1226842904923644581,24);
(1219630464937454044,24);
(1212396549392398077,24);
(1205141522539582188,24);
(1197865748311391811,24);
(1190569590307297301,24);
(1183253411779588210,24);
(1175917575619095695,24);
(1168562444341149138,24);
(1161188380071437472,24);
(1153795744531934032,24);
(1146384899027068323,24);
(1138956204429668021,24);
(1131510021167209937,24);
(1124046709207991782,24);
(1116566628047375501,24);
(1109070136694115953,24);
(1101557593656832310,24);
(1094029356930335888,24);
(1086485783982252532,24)].
Definition mid_340 : list (Z * Z) := [
(1078927231739488299,24);
(1071354056574987581,24);
(1063766614294275447,24);
(1056165260122355734,24);
(1048550348690486747,24);
(1040922234023065379,24);
(1033281269524540025,24);
(1025627807966532718,24);
(1017962201474750990,24);
(1010284801516361359,24);
(1002595958886949474,24);
(9948960236980155736,25);
(9871853453641984810,25);
(9794642725907486194,25);
(9717331533608866814,25);
(9639923349235500270,25);
(9562421637807930679,25);
(9484829856756430390,25);
(9407151455797571401,25);
(9329389876812929181,25);
(9251548553727073925,25);
(9173630912387782102,25);
(9095640370446830324,25);
(9017580337240286304,25);
(8939454213670242934,25);
(8861265392087654574,25);
(8783017256174526414,25);
(8704713180828340007,25);
(8626356532047146893,25);
(8547950666814085188,25);
(8469498932983733174,25);
(8391004669168073252,25);
(8312471204624477132,25);
(8233901859144520046,25);
(8155299942941949002,25);
(8076668756542601319,25);
(7998011590675244315,25);
(7919331726161567964,25);
(7840632433808785349,25);
(7761916974302901224,25);
(7683188598101073175,25);
(7604450545326436607,25);
(7525706045661643284,25);
(7446958318246865861,25);
(7368210571573467716,25);
(7289466003383487673,25);
(7210727800566312566,25);
(7131999139057978788,25);
(7053283183739326108,25);
(6974583088338631233,25);
(6895901995329825153,25);
(6817243035836685244,25);
(6738609329534398396,25);
(6660003984551939400,25);
(6581430097378136062,25);
(6502890752765583893,25);
(6424389023635504203,25);
(6345927970985985012,25);
(6267510643798419914,25);
(6189140078944566326,25);
(6110819301097352919,25);
(6032551322639600172,25);
(5954339143573428078,25);
(5876185751433930787,25)].
Definition mid_341 : list (Z * Z) := [
(5798094121198454076,25);
(5720067215201856060,25);
(5642107983048827636,25);
(5564219361529011306,25);
(5486404274530960637,25);
(5408665632960587920,25);
(5331006334655316329,25);
(5253429264304156008,25);
(5175937293364890715,25);
(5098533279984055447,25);
(5021220068916115732,25);
(4944000491445033434,25);
(4866877365306805596,25);
(4789853494610943419,25);
(4712931669764286420,25);
(4636114667395562497,25);
(4559405250279441367,25);
(4482806167263071933,25);
(4406320153193431731,25);
(4329949928843925707,25);
(4253698200843288388,25);
(4177567661603849720,25);
(4101560989252162009,25);
(4025680847560502489,25);
(3949929885877513494,25);
(3874310739061089395,25);
(3798826027411924746,25);
(3723478356606713030,25);
(3648270317633791743,25);
(3573204486729592691,25);
(3498283425314283362,25);
(3423509679929888528,25);
(3348885782177328695,25);
(3274414248657766778,25);
(3200097580909998072,25);
(3125938265353537580,25);
(3051938773228941246,25);
(2978101560540912871,25);
(2904429068000295061,25);
(2830923720970535687,25);
(2757587929409955704,25);
(2684424087819899625,25);
(2611434575190375053,25);
(2538621754946526033,25);
(2465987974898900564,25);
(2393535567191647124,25);
(2321266848251428529,25);
(2249184118740239281,25);
(2177289663506049490,25);
(2105585751534286032,25);
(2034074635903109209,25);
(1962758553736544302,25);
(1891639726158516527,25);
(1820720358250875531,25);
(1750002639007453113,25);
(1679488741293799782,25);
(1609180821804174272,25);
(1539081021021311335,25);
(1469191463175073560,25);
(1399514256205530000,25);
(1330051491721930136,25);
(1260805244967435535,25);
(1191777574781080271,25);
(1122970523562509863,25)].
Definition mid_342 : list (Z * Z) := [
(1054386117235922952,25);
(9860263652164807549,26);
(9178932603774776547,26);
(8499887790167887698,26);
(7823148808253934152,26);
(7148735088567252159,26);
(6476665894955666743,26);
(5806960324293555326,26);
(5139637306203214909,26);
(4474715602768161280,26);
(3812213808267680792,26);
(3152150348919307871,26);
(2494543482616859222,26);
(1839411298692410962,26);
(1186771717686317095,26);
(5366424911096248732,27);
(-1109587987697465870,27);
(-7560147391483507433,27);
(-1398508086884859499,26);
(-2038421768689729432,26);
(-2675738881322390898,26);
(-3310442691767998166,26);
(-3942516637406091046,26);
(-4571944326183737194,26);
(-5198709536765164785,26);
(-5822796218673526705,26);
(-6444188492440100781,26);
(-7062870649730131077,26);
(-7678827153479307405,26);
(-8292042637988419269,26);
(-8902501909056209675,26);
(-9510189944058539628,26);
(-1011509189205320183,25);
(-1071719307385870668,25);
(-1131647898214326041,25);
(-1191293528147321140,25);
(-1250654780839818629,25);
(-1309730257148403556,25);
(-1368518575136786286,25);
(-1427018370080512539,25);
(-1485228294468237773,25);
(-1543147018004943529,25);
(-1600773227614306211,25);
(-1658105627437721939,25);
(-1715142938835196199,25);
(-1771883900385460574,25);
(-1828327267882717492,25);
(-1884471814335248707,25);
(-1940316329963300631,25);
(-1995859622193245628,25);
(-2051100515655417583,25);
(-2106037852176833236,25);
(-2160670490776346633,25);
(-2214997307657343459,25);
(-2269017196201388560,25);
(-2322729066958079014,25);
(-2376131847638299107,25);
(-2429224483102614389,25);
(-2482005935351996664,25);
(-2534475183516132026,25);
(-2586631223842403076,25);
(-2638473069682806232,25);
(-2689999751480047688,25);
(-2741210316754420219,25)].
Definition mid_343 : list (Z * Z) := [
(-2792103830088809119,25);
(-2842679373112990321,25);
(-2892936044488330865,25);
(-2942872959890387138,25);
(-2992489251990896425,25);
(-3041784070440271379,25);
(-3090756581848196620,25);
(-3139405969764790721,25);
(-3187731434659757547,25);
(-3235732193900873212,25);
(-3283407481733080241,25);
(-3330756549255922618,25);
(-3377778664400150202,25);
(-3424473111904856254,25);
(-3470839193292531253,25);
(-3516876226843515323,25);
(-3562583547571017122,25);
(-3607960507194287238,25);
(-3653006474112486703,25);
(-3697720833375272181,25);
(-3742102986656445303,25);
(-3786152352223178902,25);
(-3829868364907365592,25);
(-3873250476074805891,25);
(-3916298153595313773,25);
(-3959010881809312345,25);
(-4001388161497651409,25);
(-4043429509847021521,25);
(-4085134460417228874,25);
(-4126502563107798375,25);
(-4167533384121798987,25);
(-4208226505931294843,25);
(-4248581527241984797,25);
(-4288598062955290288,25);
(-4328275744131875218,25);
(-4367614217954549615,25);
(-4406613147688479203,25);
(-4445272212642985275,25);
(-4483591108132524530,25);
(-4521569545435005522,25);
(-4559207251752838384,25);
(-4596503970169999255,25);
(-4633459459611019058,25);
(-4670073494798025173,25);
(-4706345866208637541,25);
(-4742276380030641816,25);
(-4777864858119639833,25);
(-4813111137952719557,25);
(-4848015072584004906,25);
(-4882576530598332052,25);
(-4916795396065432352,25);
(-4950671568492623433,25);
(-4984204962776691377,25);
(-5017395509156569100,25);
(-5050243153164489027,25);
(-5082747855576638123,25);
(-5114909592364076574,25);
(-5146728354642226033,25);
(-5178204148619590246,25);
(-5209336995547240125,25);
(-5240126931666630166,25);
(-5270574008157925203,25);
(-5300678291086838502,25);
(-5330439861350935170,25)].
Definition mid_344 : list (Z * Z) := [
(-5359858814626552831,25);
(-5388935261314193413,25);
(-5417669326483655531,25);
(-5446061149819549094,25);
(-5474110885564199985,25);
(-5501818702462988915,25);
(-5529184783706282014,25);
(-5556209326873165612,25);
(-5582892543873255075,25);
(-5609234660889470316,25);
(-5635235918318139980,25);
(-5660896570711497438,25);
(-5686216886716872285,25);
(-5711197149017479566,25);
(-5735837654272402198,25);
(-5760138713054845441,25);
(-5784100649791428990,25);
(-5807723802701020609,25);
(-5831008523731615234,25);
(-5853955178498308869,25);
(-5876564146220990842,25);
(-5898835819659789306,25);
(-5920770605051929170,25);
(-5942368922048047924,25);
(-5963631203646429885,25);
(-5984557896129335790,25);
(-6005149458996603880,25);
(-6025406364900334136,25);
(-6045329099578567711,25);
(-6064918161789325301,25);
(-6084174063242608401,25);
(-6103097328534343434,25);
(-6121688495077601625,25);
(-6139948113035335048,25);
(-6157876745251456738,25);
(-6175474967182699005,25);
(-6192743366829144026,25);
(-6209682544664493978,25);
(-6226293113566702211,25);
(-6242575698747648345,25);
(-6258530937682646064,25);
(-6274159480039851392,25);
(-6289461987608961579,25);
(-6304439134229436470,25);
(-6319091605719112681,25);
(-6333420099801796053,25);
(-6347425326035377139,25);
(-6361108005738603086,25);
(-6374468871917945875,25);
(-6387508669194587016,25);
(-6400228153730692861,25);
(-6412628093155326752,25);
(-6424709266490605745,25);
(-6436472464077067479,25);
(-6447918487498438828,25);
(-6459048149507109705,25);
(-6469862273948525844,25);
(-6480361695686054861,25);
(-6490547260524330827,25);
(-6500419825134038805,25);
(-6509980256974859205,25);
(-6519229434219116229,25);
(-6528168245674840814,25);
(-6536797590709065443,25)].
Definition mid_345 : list (Z * Z) := [
(-6545118379169698064,25);
(-6553131531308810549,25);
(-6560837977704204503,25);
(-6568238659181500113,25);
(-6575334526736343586,25);
(-6582126541455283681,25);
(-6588615674437405283,25);
(-6594802906715733211,25);
(-6600689229177529599,25);
(-6606275642485439360,25);
(-6611563156998070262,25);
(-6616552792689896432,25);
(-6621245579071653142,25);
(-6625642555110557949,25);
(-6629744769149445524,25);
(-6633553278827069259,25);
(-6637069150997037036,25);
(-6640293461647228753,25);
(-6643227295818859147,25);
(-6645871747525740728,25);
(-6648227919672475223,25);
(-6650296923973737689,25);
(-6652079880872329250,25);
(-6653577919457653352,25);
(-6654792177383913559,25);
(-6655723800788414043,25);
(-6656373944209342340,25);
(-6656743770503450444,25);
(-6656834450763978377,25);
(-6656647164238303531,25);
(-6656183098245145309,25);
(-6655443448092293880,25);
(-6654429416993693059,25);
(-6653142215986493552,25);
(-6651583063848331716,25);
(-6649753187014127628,25);
(-6647653819493347970,25);
(-6645286202786437755,25);
(-6642651585801598285,25);
(-6639751224771590509,25);
(-6636586383170249347,25);
(-6633158331628918589,25);
(-6629468347853220381,25);
(-6625517716539106850,25);
(-6621307729289247362,25);
(-6616839684529443312,25);
(-6612114887424754921,25);
(-6607134649795909672,25);
(-6601900290035069119,25);
(-6596413133022496726,25);
(-6590674510042068450,25);
(-6584685758697704467,25);
(-6578448222829255629,25);
(-6571963252428704370,25);
(-6565232203555872231,25);
(-6558256438254704409,25);
(-6551037324469107509,25);
(-6543576235958847644,25);
(-6535874552215767226,25);
(-6527933658379521071,25);
(-6519754945153670375,25);
(-6511339808721749161,25);
(-6502689650663230137,25);
(-6493805877869431270,25)].
Definition mid_346 : list (Z * Z) := [
(-6484689902459815160,25);
(-6475343141697855383,25);
(-6465767017907242689,25);
(-6455962958388107099,25);
(-6445932395333010231,25);
(-6435676765743410912,25);
(-6425197511345766565,25);
(-6414496078507878116,25);
(-6403573918155294198,25);
(-6392432485687807464,25);
(-6381073240895785732,25);
(-6369497647876883236,25);
(-6357707174952635407,25);
(-6345703294585043072,25);
(-6333487483293439343,25);
(-6321061221571345924,25);
(-6308425993803343179,25);
(-6295583288182100079,25);
(-6282534596625593672,25);
(-6269281414694096676,25);
(-6255825241507612945,25);
(-6242167579663261053,25);
(-6228309935152735161,25);
(-6214253817279935308,25);
(-6200000738578615685,25);
(-6185552214730401376,25);
(-6170909764482480049,25);
(-6156074909565835750,25);
(-6141049174613392696,25);
(-6125834087078333771,25);
(-6110431177152567248,25);
(-6094841977685253875,25);
(-6079068024101687580,25);
(-6063110854321931608,25);
(-6046972008679991460,25);
(-6030653029842919010,25);
(-6014155462730126265,25);
(-5997480854432827240,25);
(-5980630754133756172,25);
(-5963606713026772446,25);
(-5946410284236963157,25);
(-5929043022740692727,25);
(-5911506485285904517,25);
(-5893802230312536785,25);
(-5875931817873216054,25);
(-5857896809554094467,25);
(-5839698768395748561,25);
(-5821339258814451787,25);
(-5802819846523548677,25);
(-5784142098454930654,25);
(-5765307582680966067,25);
(-5746317868336248108,25);
(-5727174525540065886,25);
(-5707879125318483750,25);
(-5688433239527013537,25);
(-5668838440773494331,25);
(-5649096302341043178,25);
(-5629208398111154021,25);
(-5609176302487439321,25);
(-5589001590319020166,25);
(-5568685836824453180,25);
(-5548230617516006840,25);
(-5527637508123920844,25);
(-5506908084520898423,25)].
Definition mid_347 : list (Z * Z) := [
(-5486043922647121685,25);
(-5465046598435188619,25);
(-5443917687735453489,25);
(-5422658766241581112,25);
(-5401271409416394416,25);
(-5379757192417755879,25);
(-5358117690025170011,25);
(-5336354476565977132,25);
(-5314469125842605953,25);
(-5292463211059292518,25);
(-5270338304749645121,25);
(-5248095978704105467,25);
(-5225737803897913811,25);
(-5203265350419327153,25);
(-5180680187398060833,25);
(-5157983882933832835,25);
(-5135178004025555005,25);
(-5112264116500417339,25);
(-5089243784943540835,25);
(-5066118572627940576,25);
(-5042890041444465515,25);
(-5019559751832464596,25);
(-4996129262710179701,25);
(-4972600131405970812,25);
(-4948973913589726458,25);
(-4925252163204334515,25);
(-4901436432397649579,25);
(-4877528271454765269,25);
(-4853529228730506761,25);
(-4829440850582201782,25);
(-4805264681303101704,25);
(-4781002263055659699,25);
(-4756655135805432525,25);
(-4732224837254955305,25);
(-4707712902778706874,25);
(-4683120865357223318,25);
(-4658450255512726115,25);
(-4633702601244278591,25);
(-4608879427963659167,25);
(-4583982258431194385,25);
(-4559012612692587716,25);
(-4533972008015285152,25);
(-4508861958825846646,25);
(-4483683976647296916,25);
(-4458439570036682165,25);
(-4433130244523581853,25);
(-4407757502548381162,25);
(-4382322843400862702,25);
(-4356827763159874467,25);
(-4331273754632487990,25);
(-4305662307293776418,25);
(-4279994907227414739,25);
(-4254273037066071954,25);
(-4228498175932105538,25);
(-4202671799379471918,25);
(-4176795379334659692,25);
(-4150870384039331731,25);
(-4124898277992400835,25);
(-4098880521892947120,25);
(-4072818572583052825,25);
(-4046713882991790140,25);
(-4020567902078620350,25);
(-3994382074777995756,25);
(-3968157841943798026,25)].
Definition mid_348 : list (Z * Z) := [
(-3941896640294461046,25);
(-3915599902358122358,25);
(-3889269056418540110,25);
(-3862905526461347224,25);
(-3836510732120467033,25);
(-3810086088624933911,25);
(-3783633006746363987,25);
(-3757152892746383522,25);
(-3730647148324842901,25);
(-3704117170568417085,25);
(-3677564351899312473,25);
(-3650990080024438572,25);
(-3624395737885219175,25);
(-3597782703607358018,25);
(-3571152350451418639,25);
(-3544506046763816642,25);
(-3517845155927761135,25);
(-3491171036315140613,25);
(-3464485041238147316,25);
(-3437788518901955621,25);
(-3411082812357694237,25);
(-3384369259455416292,25);
(-3357649192797817984,25);
(-3330923939694333626,25);
(-3304194822115422868,25);
(-3277463156647441843,25);
(-3250730254448178699,25);
(-3223997421202230842,25);
(-3197265957077266280,25);
(-3170537156680142013,25);
(-3143812309014500513,25);
(-3117092697437258165,25);
(-3090379599617033952,25);
(-3063674287491919569,25);
(-3036978027228219386,25);
(-3010292079179068657,25);
(-2983617697844422327,25);
(-2956956131830241813,25);
(-2930308623809219670,25);
(-2903676410481240094,25);
(-2877060722534160239,25);
(-2850462784605828731,25);
(-2823883815245724602,25);
(-2797325026877001216,25);
(-2770787625759848387,25);
(-2744272811954280105,25);
(-2717781779283535302,25);
(-2691315715298622639,25);
(-2664875801242488895,25);
(-2638463212014596053,25);
(-2612079116136922450,25);
(-2585724675718838971,25);
(-2559401046423967298,25);
(-2533109377436360530,25);
(-2506850811427683831,25);
(-2480626484524263263,25);
(-2454437526275566631,25);
(-2428285059621801822,25);
(-2402170200863171102,25);
(-2376094059628691832,25);
(-2350057738845927478,25);
(-2324062334710691629,25);
(-2298108936657649861,25);
(-2272198627331329775,25)].
Definition mid_349 : list (Z * Z) := [
(-2246332482557178142,25);
(-2220511571313259416,25);
(-2194736955702534463,25);
(-2169009690925126849,25);
(-2143330825251493867,25);
(-2117701399996011547,25);
(-2092122449490600172,25);
(-2066595001059089350,25);
(-2041120074991606654,25);
(-2015698684520349831,25);
(-1990331835794390744,25);
(-1965020527856323478,25);
(-1939765752618286413,25);
(-1914568494839053434,25);
(-1889429732100841105,25);
(-1864350434787728651,25);
(-1839331566063013332,25);
(-1814374081848429011,25);
(-1789478930802844076,25);
(-1764647054301375457,25);
(-1739879386415844932,25);
(-1715176853894679824,25);
(-1690540376143371427,25);
(-1665970865206143887,25);
(-1641469225747214126,25);
(-1617036355032457818,25);
(-1592673142912421610,25);
(-1568380471804777895,25);
(-1544159216677330419,25);
(-1520010245032329083,25);
(-1495934416889795042,25);
(-1471932584772696570,25);
(-1448005593691486737,25);
(-1424154281129690348,25);
(-1400379477029233071,25);
(-1376682003777339423,25);
(-1353062676192383351,25);
(-1329522301511576340,25);
(-1306061679378048843,25);
(-1282681601828891757,25);
(-1259382853283204531,25);
(-1236166210530928087,25);
(-1213032442722190741,25);
(-1189982311356551542,25);
(-1167016570273045652,25);
(-1144135965640631401,25);
(-1121341235948722840,25);
(-1098633111998510967,25);
(-1076012316894790513,25);
(-1053479566037679408,25);
(-1031035567115224578,25);
(-1008681020095959434,25);
(-9864166172223154154,26);
(-9642430430044873533,26);
(-9421609742141590724,26);
(-9201710798790867487,26);
(-8982740212780445048,26);
(-8764704519358142102,26);
(-8547610176190389902,26);
(-8331463563324712669,26);
(-8116270983151930072,26);
(-7902038660375401991,26);
(-7688772741984876373,26);
(-7476479297230374149,26)].
Definition mid_350 : list (Z * Z) := [
(-7265164317604658298,26);
(-7054833716829560884,26);
(-6845493330842018921,26);
(-6637148917788015443,26);
(-6429806158015576924,26);
(-6223470654081328515,26);
(-6018147930747472525,26);
(-5813843434996179371,26);
(-5610562536037877258,26);
(-5408310525329052440,26);
(-5207092616588070870,26);
(-5006913945825099641,26);
(-4807779571362271658,26);
(-4609694473871045755,26);
(-4412663556404464086,26);
(-4216691644433219185,26);
(-4021783485893574861,26);
(-3827943751230757436,26);
(-3635177033446494818,26);
(-3443487848157963368,26);
(-3252880633652612113,26);
(-3063359750946706619,26);
(-2874929483855499710,26);
(-2687594039058986707,26);
(-2501357546171638738,26);
(-2316224057824240677,26);
(-2132197549736501061,26);
(-1949281920806151351,26);
(-1767480993192207946,26);
(-1586798512407024487,26);
(-1407238147406689458,26);
(-1228803490694432861,26);
(-1051498058414832826,26);
(-8753252904642081593,27);
(-7002885505952706649,27);
(-5263911265302983461,27);
(-3536362300736567822,27);
(0,0)].
Definition mid_decimals : list (Z * Z) := concat [
mid_0; mid_1; mid_2; mid_3; mid_4; mid_5; mid_6; mid_7;
mid_8; mid_9; mid_10; mid_11; mid_12; mid_13; mid_14; mid_15;
mid_16; mid_17; mid_18; mid_19; mid_20; mid_21; mid_22; mid_23;
mid_24; mid_25; mid_26; mid_27; mid_28; mid_29; mid_30; mid_31;
mid_32; mid_33; mid_34; mid_35; mid_36; mid_37; mid_38; mid_39;
mid_40; mid_41; mid_42; mid_43; mid_44; mid_45; mid_46; mid_47;
mid_48; mid_49; mid_50; mid_51; mid_52; mid_53; mid_54; mid_55;
mid_56; mid_57; mid_58; mid_59; mid_60; mid_61; mid_62; mid_63;
mid_64; mid_65; mid_66; mid_67; mid_68; mid_69; mid_70; mid_71;
mid_72; mid_73; mid_74; mid_75; mid_76; mid_77; mid_78; mid_79;
mid_80; mid_81; mid_82; mid_83; mid_84; mid_85; mid_86; mid_87;
mid_88; mid_89; mid_90; mid_91; mid_92; mid_93; mid_94; mid_95;
mid_96; mid_97; mid_98; mid_99; mid_100; mid_101; mid_102; mid_103;
mid_104; mid_105; mid_106; mid_107; mid_108; mid_109; mid_110; mid_111;
mid_112; mid_113; mid_114; mid_115; mid_116; mid_117; mid_118; mid_119;
mid_120; mid_121; mid_122; mid_123; mid_124; mid_125; mid_126; mid_127;
mid_128; mid_129; mid_130; mid_131; mid_132; mid_133; mid_134; mid_135;
mid_136; mid_137; mid_138; mid_139; mid_140; mid_141; mid_142; mid_143;
mid_144; mid_145; mid_146; mid_147; mid_148; mid_149; mid_150; mid_151;
mid_152; mid_153; mid_154; mid_155; mid_156; mid_157; mid_158; mid_159;
mid_160; mid_161; mid_162; mid_163; mid_164; mid_165; mid_166; mid_167;
mid_168; mid_169; mid_170; mid_171; mid_172; mid_173; mid_174; mid_175;
mid_176; mid_177; mid_178; mid_179; mid_180; mid_181; mid_182; mid_183;
mid_184; mid_185; mid_186; mid_187; mid_188; mid_189; mid_190; mid_191;
mid_192; mid_193; mid_194; mid_195; mid_196; mid_197; mid_198; mid_199;
mid_200; mid_201; mid_202; mid_203; mid_204; mid_205; mid_206; mid_207;
mid_208; mid_209; mid_210; mid_211; mid_212; mid_213; mid_214; mid_215;
mid_216; mid_217; mid_218; mid_219; mid_220; mid_221; mid_222; mid_223;
mid_224; mid_225; mid_226; mid_227; mid_228; mid_229; mid_230; mid_231;
mid_232; mid_233; mid_234; mid_235; mid_236; mid_237; mid_238; mid_239;
mid_240; mid_241; mid_242; mid_243; mid_244; mid_245; mid_246; mid_247;
mid_248; mid_249; mid_250; mid_251; mid_252; mid_253; mid_254; mid_255;
mid_256; mid_257; mid_258; mid_259; mid_260; mid_261; mid_262; mid_263;
mid_264; mid_265; mid_266; mid_267; mid_268; mid_269; mid_270; mid_271;
mid_272; mid_273; mid_274; mid_275; mid_276; mid_277; mid_278; mid_279;
mid_280; mid_281; mid_282; mid_283; mid_284; mid_285; mid_286; mid_287;
mid_288; mid_289; mid_290; mid_291; mid_292; mid_293; mid_294; mid_295;
mid_296; mid_297; mid_298; mid_299; mid_300; mid_301; mid_302; mid_303;
mid_304; mid_305; mid_306; mid_307; mid_308; mid_309; mid_310; mid_311;
mid_312; mid_313; mid_314; mid_315; mid_316; mid_317; mid_318; mid_319;
mid_320; mid_321; mid_322; mid_323; mid_324; mid_325; mid_326; mid_327;
mid_328; mid_329; mid_330; mid_331; mid_332; mid_333; mid_334; mid_335;
mid_336; mid_337; mid_338; mid_339; mid_340; mid_341; mid_342; mid_343;
mid_344; mid_345; mid_346; mid_347; mid_348; mid_349; mid_350].
