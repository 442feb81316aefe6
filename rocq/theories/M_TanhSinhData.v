(** The tanh_sinh table of cpp/qugar/quadrature_lib.cpp, lines 5095-10148, generated by tools/gentables.py: the literal d.ddd e-x with f digits after the
    point is written (dddd, f + x), i.e. dddd / 10^(f+x).  One definition for each number of points. *)
From Coq Require Import ZArith List.
Import ListNotations.
Local Open Scope Z_scope.
Definition tanh_sinh_1 : list (Z * Z) := [
  (5,1); (10,1)].
Definition tanh_sinh_2 : list (Z * Z) := [
  (2085056433940635492571488496170158,34); (5000000000000000000000000000000000,34);
  (7914943566059364507428511503829842,34); (5000000000000000000000000000000000,34)].
Definition tanh_sinh_3 : list (Z * Z) := [
  (6258166901662710299310800976491606,35); (1912594791843615567668132823780015,34);
  (5000000000000000000000000000000000,34); (6174810416312768864663734352439968,34);
  (9374183309833728970068919902350840,34); (1912594791843615567668132823780015,34)].
Definition tanh_sinh_4 : list (Z * Z) := [
  (1925774827888332654666716707826583,35); (6658340589877536379826385236082605,35);
  (2459702845542641108709096283998106,34); (4334165941012246362017361476391740,34);
  (7540297154457358891290903716001895,34); (4334165941012246362017361476391740,34);
  (9807422517211166734533328329217341,34); (6658340589877536379826385236082605,35)].
Definition tanh_sinh_5 : list (Z * Z) := [
  (6269877389525099081182415093070657,36); (2332557167641182453769836926747148,35);
  (1086725555591243622075417567344321,34); (2300359122305340020916902409048870,34);
  (5000000000000000000000000000000000,34); (4932770321861083467412227796552830,34);
  (8913274444408756377924582432655680,34); (2300359122305340020916902409048870,34);
  (9937301226104749009188175849069294,34); (2332557167641182453769836926747148,35)].
Definition tanh_sinh_6 : list (Z * Z) := [
  (2146172360922721919103205162173282,36); (8413095156186969623016811236357151,36);
  (4647889862051756258458030987915202,35); (1099974632516465759739200747975930,34);
  (2877287373505330460553383990782356,34); (3815894415921664544030631139660498,34);
  (7122712626494669539446616009217644,34); (3815894415921664544030631139660498,34);
  (9535211013794824374154196901208480,34); (1099974632516465759739200747975930,34);
  (9978538276390772780808967948378266,34); (8413095156186969623016811236357151,36)].
Definition tanh_sinh_7 : list (Z * Z) := [
  (7652058580720481594427628181363314,37); (3121816813900181587184026520421504,36);
  (1981069734542733319262798180866676,35); (5070452895228168749039072605228847,35);
  (1528064174694562927674527790480971,34); (2414661894131691150524801370015247,34);
  (5000000000000000000000000000000000,34); (4094149296412980317398902208515305,34);
  (8471935825305437072325472209519030,34); (2414661894131691150524801370015247,34);
  (9801893026545726668073720181913332,34); (5070452895228168749039072605228847,35);
  (9992347941419279518405572371818638,34); (3121816813900181587184026520421504,36)].
Definition tanh_sinh_8 : list (Z * Z) := [
  (2820597058891787667857231994167584,37); (1188206903104104918599436018431624,36);
  (8495808353813229856419734493305924,36); (2311868442733119661956025927167458,35);
  (7799641813871527376946185878106278,35); (1382998321702853640829934460576792,34);
  (3179449461133307399247433184147083,34); (3373932764992793343788468586522147,34);
  (6820550538866692600752566815852917,34); (3373932764992793343788468586522147,34);
  (9220035818612847262305381412189372,34); (1382998321702853640829934460576792,34);
  (9915041916461867701435802655066940,34); (2311868442733119661956025927167458,35);
  (9997179402941108212332142768005832,34); (1188206903104104918599436018431623,36)].
Definition tanh_sinh_9 : list (Z * Z) := [
  (1068865197487872269491673542239081,37); (4623420865840429441539146654104934,37);
  (3674988010503942423141598735275728,36); (1052320382733474875427718107476762,35);
  (3909465730189137661900307918428662,35); (7539941806532965262259712497804350,35);
  (1895326325413820756399625140639693,34); (2379046320776170615201207646787453,34);
  (5000000000000000000000000000000000,34); (3514208078862689883177020292060663,34);
  (8104673674586179243600374859360307,34); (2379046320776170615201207646787453,34);
  (9609053426981086233809969208157134,34); (7539941806532965262259712497804350,35);
  (9963250119894960575768584012647242,34); (1052320382733474875427718107476760,35);
  (9998931134802512127730508326457760,34); (4623420865840429441539146654104934,37)].
Definition tanh_sinh_10 : list (Z * Z) := [
  (4146767383215624512880883961887825,38); (1834133877317658894733901251203661,37);
  (1603701527602651511577638631311531,36); (4798068726303864094610544302464602,36);
  (1944177164715739696787167240211315,35); (4008676155785823897545511112247062,35);
  (1086656126976540419887948964806400,34); (1532883685149061536486279246214076,34);
  (3402355818477803827265656656825394,34); (3016433878131999773918330298285369,34);
  (6597644181522196172734343343174606,34); (3016433878131999773918330298285369,34);
  (8913343873023459580112051035193600,34); (1532883685149061536486279246214076,34);
  (9805582283528426030321283275978868,34); (4008676155785823897545511112247062,35);
  (9983962984723973484884223613686884,34); (4798068726303864094610544302464603,36);
  (9999585323261678437548711911603811,34); (1834133877317658894733901251203661,37)].
Definition tanh_sinh_11 : list (Z * Z) := [
  (1641792655819687601557318065039025,38); (7401554535020839389501524646558936,38);
  (7056497643642792721099272488662986,37); (2194022676844659255821806235700416,36);
  (9637300905187998264663504667470840,36); (2102281557248919708289103135246237,35);
  (6089071715363462415180097919844766,35); (9374344793721876139221952022478887,35);
  (2195248549796349749245394261922239,34); (2284303939538580013203704452203170,34);
  (5000000000000000000000000000000000,34); (3090706086284783451096043634405313,34);
  (7804751450203650250754605738077761,34); (2284303939538580013203704452203170,34);
  (9391092828463653758481990208015524,34); (9374344793721876139221952022478890,35);
  (9903626990948120017353364953325291,34); (2102281557248919708289103135246237,35);
  (9992943502356357207278900727511337,34); (2194022676844659255821806235700416,36);
  (9999835820734418031239844268193496,34); (7401554535020839389501524646558936,38)].
Definition tanh_sinh_12 : list (Z * Z) := [
  (6617116954203174358502993442332269,39); (3032847154712072563131381065638956,38);
  (3128871238217087067177931838485904,37); (1006613998103699917008719212319919,36);
  (4771634580272694224857416662190407,36); (1093491891061015288977647886140071,35);
  (3365582323744231669980368463253355,35); (5557563739842189235046168306257360,35);
  (1366428839863097870706113447188245,34); (1597003416592241793696819876308176,34);
  (3572909900415978763145474853149746,34); (2727521595620929547474398174222318,34);
  (6427090099584021236854525146850253,34); (2727521595620929547474398174222318,34);
  (8633571160136902129293886552811755,34); (1597003416592241793696819876308176,34);
  (9663441767625576833001963153674665,34); (5557563739842189235046168306257360,35);
  (9952283654197273057751425833378095,34); (1093491891061015288977647886140071,35);
  (9996871128761782912932822068161514,34); (1006613998103699917008719212319919,36);
  (9999933828830457968256414970065576,34); (3032847154712072563131381065638952,38)].
Definition tanh_sinh_13 : list (Z * Z) := [
  (2709556584103126010517067415468337,39); (1259981361304647866375773799278992,38);
  (1397261229576714939579163637822056,37); (4634536958378316571235250746621663,37);
  (2361895574920465591205737575365567,36); (5656605570076579537501870893508774,36);
  (1844209819382031599494539667272670,35); (3231202867497479262230694249669785,35);
  (8305035993615705792147954241835139,35); (1061022151636162733940166823954460,34);
  (2441724159897559455792030207695493,34); (2170912753953411247218869419077504,34);
  (5000000000000000000000000000000000,34); (2767236433730807031770005589878842,34);
  (7558275840102440544207969792304507,34); (2170912753953411247218869419077503,34);
  (9169496400638429420785204575816486,34); (1061022151636162733940166823954460,34);
  (9815579018061796840050546033272733,34); (3231202867497479262230694249669785,35);
  (9976381044250795344087942624246344,34); (5656605570076579537501870893508774,36);
  (9998602738770423285060420836362178,34); (4634536958378316571235250746621663,37);
  (9999972904434158968739894829325845,34); (1259981361304647866375773799278992,38)].
Definition tanh_sinh_14 : list (Z * Z) := [
  (1125389948796978043994510654699111,39); (5300552076806876435685604560939218,39);
  (6281374923605512709685821720189076,38); (2141436283859017876103462935759996,37);
  (1169270259640910115467530403734884,36); (2914383868881999349615447667892038,36);
  (1004570038751640518220491828432490,35); (1854047847843302628294311685983341,35);
  (4967409830869588533715723587454566,35); (6819816277241047676575795887909169,35);
  (1615464724162587241117523695257237,34); (1610238178926334618573593173490692,34);
  (3707662436422828875602916740421536,34); (2491037128071783270802781273459767,34);
  (6292337563577171124397083259578464,34); (2491037128071783270802781273459767,34);
  (8384535275837412758882476304742764,34); (1610238178926334618573593173490692,34);
  (9503259016913041146628427641254544,34); (6819816277241047676575795887909169,35);
  (9899542996124835948177950817156750,34); (1854047847843302628294311685983341,35);
  (9988307297403590898845324695962650,34); (2914383868881999349615447667892038,36);
  (9999371862507639448729031417827980,34); (2141436283859017876103462935759996,37);
  (9999988746100512030219560054893454,34); (5300552076806876435685604560939218,39)].
Definition tanh_sinh_15 : list (Z * Z) := [
  (4734778814510624720329845057999037,40); (2255598762704063328849100449283424,39);
  (2841503853992386837557564196960556,38); (9930648286801119551352047093212777,38);
  (5790632923754181918661971631605861,37); (1496837086350776367074739366089252,36);
  (5447658951972215232164324004121940,36); (1053589904012674569605796112308503,35);
  (2937866056753434766303273100611251,35); (4286865856363744604696492292034525,35);
  (1044322012210333168396509708025055,34); (1138305145884680559450548193197243,34);
  (2646816959733345244566078598480745,34); (2055954734662014727627861646229997,34);
  (5000000000000000000000000000000000,34); (2511421103471695758464380461527500,34);
  (7353183040266654755433921401519254,34); (2055954734662014727627861646229997,34);
  (8955677987789666831603490291974945,34); (1138305145884680559450548193197243,34);
  (9706213394324656523369672689938874,34); (4286865856363744604696492292034525,35);
  (9945523410480277847678356759958781,34); (1053589904012674569605796112308503,35);
  (9994209367076245818081338028368394,34); (1496837086350776367074739366089252,36);
  (9999715849614600761316244243580304,34); (9930648286801119551352047093212777,38);
  (9999995265221185489375279670154942,34); (2255598762704063328849100449283424,39)].
Definition tanh_sinh_16 : list (Z * Z) := [
  (2015565915901670259216046535245211,40); (9700458700668133611629950274506024,40);
  (1293045386263268186672755589319728,38); (4622039582569142096043312071709004,38);
  (2869200228221640821614800819790682,37); (7668506414847114324675106372007134,37);
  (2943493404152615284415682661474736,36); (5941398974631109220011615316201030,36);
  (1723045228771485699890157823759914,35); (2652340223706011097998078985360523,35);
  (6639151120692969711625275223663116,35); (7784508212661385442912372688560501,35);
  (1835391883446732932858995697605417,34); (1594278280815063159949370490239144,34);
  (3816960723957073101457980166930458,34); (2294482474970081397091577121677291,34);
  (6183039276042926898542019833069543,34); (2294482474970081397091577121677291,34);
  (8164608116553267067141004302394583,34); (1594278280815063159949370490239144,34);
  (9336084887930703028837472477633687,34); (7784508212661385442912372688560501,35);
  (9827695477122851430010984217624009,34); (2652340223706011097998078985360523,35);
  (9970565065958473847155843173385253,34); (5941398974631109220011615316201028,36);
  (9997130799771778359178385199180209,34); (7668506414847114324675106372007137,37);
  (9999870695461373673181332724441067,34); (4622039582569142096043312071709004,38);
  (9999997984434084098329740783953465,34); (9700458700668133611629950274506024,40)].
Definition tanh_sinh_17 : list (Z * Z) := [
  (8673137142509702415142463020286521,41); (4212800663855439365609382204768452,40);
  (5917342096526272476025266892679780,39); (2159121096179139174726717191726815,38);
  (1422580660745208592093925608297228,37); (3920763639948570231558462767888219,37);
  (1585500293153781130995207259440335,36); (3328968900100264274394916824676114,36);
  (1003857684216952314606842535229070,35); (1621503437049124056332468718741194,35);
  (4168729733033051145243755110161651,35); (5200232370908854410565455367734178,35);
  (1245163225866342422316673350223787,34); (1182271409885356628859036066061875,34);
  (2819763188536180242803527789526612,34); (1946359082766054573695378882200371,34);
  (5000000000000000000000000000000000,34); (2303530698003115936846893461948382,34);
  (7180236811463819757196472210473388,34); (1946359082766054573695378882200371,34);
  (8754836774133657577683326649776213,34); (1182271409885356628859036066061875,34);
  (9583127026696694885475624488983836,34); (5200232370908854410565455367734178,35);
  (9899614231578304768539315746477094,34); (1621503437049124056332468718741194,35);
  (9984144997068462188690047927405596,34); (3328968900100264274394916824676114,36);
  (9998577419339254791407906074391703,34); (3920763639948570231558462767888219,37);
  (9999940826579034737275239747331074,34); (2159121096179139174726717191726815,38);
  (9999999132686285749029758485753699,34); (4212800663855439365609382204768451,40)].
Definition tanh_sinh_18 : list (Z * Z) := [
  (3769436552571659814270213245723148,41); (1846286836445436229201854969525052,40);
  (2722558781159410270952551588774274,39); (1012291347910678612042556761819591,38);
  (7058766000076554849980453770709363,38); (2001417560008311641501875576684694,37);
  (8516880595690675873565339823281450,37); (1854809373229945621247572036775528,36);
  (5815880293824977781652967367239163,36); (9818035716532985928095608190102987,36);
  (2592528103586904561983161703178495,35); (3414560777883200980120869656136570,35);
  (8308678187314323496310362431177512,35); (8489480584135049793572209721805983,35);
  (2029506028236446573351614047001332,34); (1562061420053706602636604756607241,34);
  (3907529820254269143137111871026029,34); (2128701499865203179561720170221883,34);
  (6092470179745730856862888128973971,34); (2128701499865203179561720170221883,34);
  (7970493971763553426648385952998669,34); (1562061420053706602636604756607241,34);
  (9169132181268567650368963756882249,34); (8489480584135049793572209721805983,35);
  (9740747189641309543801683829682151,34); (3414560777883200980120869656136570,35);
  (9941841197061750222183470326327609,34); (9818035716532985928095608190102985,36);
  (9991483119404309324126434660176718,34); (1854809373229945621247572036775528,36);
  (9999294123399992344515001954622928,34); (2001417560008311641501875576684697,37);
  (9999972774412188405897290474484111,34); (1012291347910678612042556761819591,38);
  (9999999623056344742834018572978675,34); (1846286836445436229201854969525052,40)].
Definition tanh_sinh_19 : list (Z * Z) := [
  (1653421993746156909305916021092339,41); (8160445658586329977923642005106788,41);
  (1259120118513043769352085341777077,39); (4763342218064814625025565665172874,39);
  (3505655170128098526539209115553753,38); (1020408331319983321652946212741545,37);
  (4563896582410140672262434793528668,37); (1028329725595707764451384651714238,36);
  (3352893948111765584642505693775135,36); (5896437166037359120231439288522601,36);
  (1599749254295386568545575806791414,35); (2212523782836289419136284619520923,35);
  (5473818202710031931109640764699845,35); (5953571365119721245503189047483078,35);
  (1431214211915403425159239420582476,34); (1203010397348186706615171324065415,34);
  (2967444935623650838199348222951512,34); (1844622025944339997081416808607672,34);
  (5000000000000000000000000000000000,34); (2130883070394950141783470533981101,34);
  (7032555064376349161800651777048488,34); (1844622025944339997081416808607672,34);
  (8568785788084596574840760579417523,34); (1203010397348186706615171324065415,34);
  (9452618179728996806889035923530015,34); (5953571365119721245503189047483078,35);
  (9840025074570461343145442419320859,34); (2212523782836289419136284619520923,35);
  (9966471060518882344153574943062249,34); (5896437166037359120231439288522597,36);
  (9995436103417589859327737565206471,34); (1028329725595707764451384651714238,36);
  (9999649434482987190147346079088444,34); (1020408331319983321652946212741543,37);
  (9999987408798814869562306479146583,34); (4763342218064814625025565665172874,39);
  (9999999834657800625384309069408399,34); (8160445658586329977923642005106788,41)].
Definition tanh_sinh_20 : list (Z * Z) := [
  (7315139427183662515381510620068939,42); (3635644653209260134177628749573863,41);
  (5852034395529917666389536438798552,40); (2249487175560822639779285766150265,39);
  (1742802486294693705814196102523146,38); (5197856592448484222950064175218022,38);
  (2440323325784440355798416021314048,37); (5675918457572214815129352790024443,37);
  (1924370996774887054059545415529306,36); (3515918860428070853523469233069196,36);
  (9806001984534427712640946226049875,36); (1418341919729282223254573973425148,35);
  (3569730761077373145232264427265979,35); (4101346176534431714555118648322079,35);
  (9932797216410249833966438692122341,35); (8983932209301503979026235398373294,35);
  (2201319153102364661807081805746687,34); (1521245011857509029810311365514268,34);
  (3983912146611966035054381765094247,34); (1987015206428650477581025570314905,34);
  (6016087853388033964945618234905753,34); (1987015206428650477581025570314905,34);
  (7798680846897635338192918194253313,34); (1521245011857509029810311365514268,34);
  (9006720278358975016603356130787767,34); (8983932209301503979026235398373294,35);
  (9643026923892262685476773557273403,34); (4101346176534431714555118648322079,35);
  (9901939980154655722873590537739501,34); (1418341919729282223254573973425148,35);
  (9980756290032251129459404545844707,34); (3515918860428070853523469233069196,36);
  (9997559676674215559644201583978685,34); (5675918457572214815129352790024443,37);
  (9999825719751370530629418580389747,34); (5197856592448484222950064175218022,38);
  (9999994147965604470082333610463561,34); (2249487175560822639779285766150265,39);
  (9999999926848605728163374846184893,34); (3635644653209260134177628749573863,41)].
Definition tanh_sinh_21 : list (Z * Z) := [
  (3262494183653799496192549248605073,42); (1631898786909724959669679299113135,41);
  (2732838863997202869943604032309063,40); (1066115680038194310568338035112062,39);
  (8673855089145480487818049003774064,39); (2646171117954879436015281059430150,38);
  (1302334983075844704337303820154425,37); (3120396687032695830978204161923979,37);
  (1099963503709767725303106940490835,36); (2082944829175426778916954106260392,36);
  (5975516538327287221962488586962111,36); (9010025841956182594015011261811626,36);
  (2308532479469908080250105346325100,35); (2786229448599691888484797794527996,35);
  (6806447154651645090902555711224440,35); (6554651809088417858918383465459553,35);
  (1602390351814893703691213816591434,34); (1207816619035034008449821573970847,34);
  (3094994141877874205614823408451391,34); (1751293217483561464593442029267986,34);
  (5000000000000000000000000000000000,34); (1984952985711540403593834468931085,34);
  (6905005858122125794385176591548608,34); (1751293217483561464593442029267987,34);
  (8397609648185106296308786183408566,34); (1207816619035034008449821573970847,34);
  (9319355284534835490909744428877557,34); (6554651809088417858918383465459553,35);
  (9769146752053009191974989465367489,34); (2786229448599691888484797794527996,35);
  (9940244834616727127780375114130379,34); (9010025841956182594015011261811626,36);
  (9989000364962902322746968930595091,34); (2082944829175426778916954106260391,36);
  (9998697665016924155295662696179845,34); (3120396687032695830978204161923979,37);
  (9999913261449108545195121819509964,34); (2646171117954879436015281059430150,38);
  (9999997267161136002797130056395968,34); (1066115680038194310568338035112062,39);
  (9999999967375058163462005038074508,34); (1631898786909724959669679299113135,41)].
Definition tanh_sinh_22 : list (Z * Z) := [
  (1466049537255179304878376555323893,42); (7376696701945217327842246563918820,42);
  (1282071351676978419242728195694316,40); (5070541673779562152322688889881757,40);
  (4322184712716369211550538133040255,39); (1346697176555914782889781276405437,38);
  (6938469211826802090683425173250153,38); (1709362318107376112734403483354820,37);
  (6263530117135922379412774861644749,37); (1226719044801295875290441447411442,36);
  (3621858158242579546149641961312037,36); (5678045257414163522918169373595882,36);
  (1482213106776527284020247475924395,35); (1871445136239058327163132832994433,35);
  (4616207480329226098865159179657827,35); (4697064904425577394294094827620256,35);
  (1148769200472393074416260511897523,34); (9313869369006656347236620704241650,35);
  (2354048810581301049773650798290723,34); (1476366175316694309570025285898232,34);
  (4049282486754310654180003634578184,34); (1864499064349618122973154786683711,34);
  (5950717513245689345819996365421817,34); (1864499064349618122973154786683711,34);
  (7645951189418698950226349201709277,34); (1476366175316694309570025285898232,34);
  (8851230799527606925583739488102476,34); (9313869369006656347236620704241650,35);
  (9538379251967077390113484082034217,34); (4697064904425577394294094827620256,35);
  (9851778689322347271597975252407562,34); (1871445136239058327163132832994433,35);
  (9963781418417574204538503580386881,34); (5678045257414163522918169373595882,36);
  (9993736469882864077620587225138355,34); (1226719044801295875290441447411442,36);
  (9999306153078817319790931657482675,34); (1709362318107376112734403483354820,37);
  (9999956778152872836307884494618670,34); (1346697176555914782889781276405437,38);
  (9999998717928648323021580757271804,34); (5070541673779562152322688889881757,40);
  (9999999985339504627448206951216234,34); (7376696701945217327842246563918820,42)].
Definition tanh_sinh_23 : list (Z * Z) := [
  (6634766339251012071168347085275176,43); (3356746260811440961045701723137048,42);
  (6041294453254548257729167598673880,41); (2419975530154747616377803555508797,40);
  (2156548071807031037289875532224138,39); (6853022847594425615181471524187060,39);
  (3691195238514827247793270136460478,38); (9334165361955263982375714100715862,38);
  (3554097340406983699033323430736672,37); (7185247004349446958287872466412415,37);
  (2184384110690502989827030284457517,36); (3552486357610488128109156240397817,36);
  (9456105493215045586563974514300972,36); (1244983647518208335325839752163848,35);
  (3103840657504843496889948435791449,35); (3318266860155173127974784715868696,35);
  (8134180339382674186012338995978784,35); (7021597084420635436202049049045189,35);
  (1759431473009609612551163948298196,34); (1201819416266685606249972101353617,34);
  (3206276921463658859806979469879807,34); (1666085109557358513812562134943917,34);
  (5000000000000000000000000000000000,34); (1859792408156871256462807205476828,34);
  (6793723078536341140193020530120194,34); (1666085109557358513812562134943917,34);
  (8240568526990390387448836051701805,34); (1201819416266685606249972101353617,34);
  (9186581966061732581398766100402121,34); (7021597084420635436202049049045189,35);
  (9689615934249515650311005156420854,34); (3318266860155173127974784715868696,35);
  (9905438945067849544134360254856990,34); (1244983647518208335325839752163846,35);
  (9978156158893094970101729697155424,34); (3552486357610488128109156240397817,36);
  (9996445902659593016300966676569265,34); (7185247004349446958287872466412415,37);
  (9999630880476148517275220672986353,34); (9334165361955263982375714100715862,38);
  (9999978434519281929689627101244679,34); (6853022847594425615181471524187060,39);
  (9999999395870554674545174227083239,34); (2419975530154747616377803555508797,40);
  (9999999993365233660748987928831653,34); (3356746260811440961045701723137048,42)].
Definition tanh_sinh_24 : list (Z * Z) := [
  (3022779896704872764246384153950006,43); (1537127017100000802586302674191314,42);
  (2858909983279240732197038118591360,41); (1158909215423650887638543213300178,40);
  (1077487834041782312899624556525082,39); (3487741000443374763313944409103276,39);
  (1961210529380342091016857314733122,38); (5082620786515865916331099511293089,38);
  (2010106945162777853434724295078503,37); (4187415484065587248270289663171639,37);
  (1311303053899247355020426160828491,36); (2207877945005526044690520148161635,36);
  (5997728934183026787103185671190193,36); (8212795411082386688938691550590701,36);
  (2071464730009142011743774889011403,35); (2316992756959861794015213609959045,35);
  (5700887348248808633591803926294942,35); (5200080156273116506401360679496651,35);
  (1296182032180716486951492785924786,34); (9517741783290134492945240374438779,35);
  (2490478383688267386329340449793240,34); (1430113802106112218071824183559677,34);
  (4105926274136736174569202849286075,34); (1757466265427490173017270029598721,34);
  (5894073725863263825430797150713925,34); (1757466265427490173017270029598721,34);
  (7509521616311732613670659550206759,34); (1430113802106112218071824183559677,34);
  (8703817967819283513048507214075214,34); (9517741783290134492945240374438779,35);
  (9429911265175119136640819607370505,34); (5200080156273116506401360679496651,35);
  (9792853526999085798825622511098859,34); (2316992756959861794015213609959045,35);
  (9940022710658169732128968143288099,34); (8212795411082386688938691550590701,36);
  (9986886969461007526449795738391716,34); (2207877945005526044690520148161635,36);
  (9997989893054837222146565275704921,34); (4187415484065587248270289663171639,37);
  (9999803878947061965790898314268527,34); (5082620786515865916331099511293091,38);
  (9999989225121659582176871003754434,34); (3487741000443374763313944409103276,39);
  (9999999714109001672075926780296188,34); (1158909215423650887638543213300178,40);
  (9999999996977220103295127235753615,34); (1537127017100000802586302674191315,42)].
Definition tanh_sinh_25 : list (Z * Z) := [
  (1385906461539242177376790900894436,43); (7081026209431074844534891087656257,43);
  (1358502930035687352074069021809715,41); (5568565281008974485107438077342672,41);
  (5391271003059342535994421356501979,40); (1775556853146564717673585600809089,39);
  (1040928890744850818357927453524516,38); (2760659405836125715700066430885226,38);
  (1133428712571738246192062541222129,37); (2428970441761523565820119101352482,37);
  (7837354954099606122542007903252718,37); (1363720095402990266805881620084728,36);
  (3783666026808440696857940617978993,36); (5376732967559261216566227155021325,36);
  (1373348722969311357887037954582404,35); (1601929954925572712532236069457002,35);
  (3960997278688403381880190146608437,35); (3796370316824637576128950375437193,35);
  (9435554815487283343485524062643142,35); (7375134891248775457230837109005333,35);
  (1903424544386191234508625357172575,34); (1188589771531849685182837093930626,34);
  (3304244756773073624880388850362021,34); (1588378723187297352029728610303756,34);
  (5000000000000000000000000000000000,34); (1751120204925801922502841271490911,34);
  (6695755243226926375119611149637979,34); (1588378723187297352029728610303756,34);
  (8096575455613808765491374642827425,34); (1188589771531849685182837093930626,34);
  (9056444518451271665651447593735685,34); (7375134891248775457230837109005333,35);
  (9603900272131159661811980985339157,34); (3796370316824637576128950375437193,35);
  (9862665127703068864211296204541759,34); (1601929954925572712532236069457002,35);
  (9962163339731915593031420593820210,34); (5376732967559261216566227155021325,36);
  (9992162645045900393877457992096748,34); (1363720095402990266805881620084728,36);
  (9998866571287428261753807937458777,34); (2428970441761523565820119101352482,37);
  (9999895907110925514918164207254647,34); (2760659405836125715700066430885222,38);
  (9999994608728996940657464005578644,34); (1775556853146564717673585600809089,39);
  (9999999864149706996431264792593098,34); (5568565281008974485107438077342672,41);
  (9999999998614093538460757822623209,34); (7081026209431074844534891087656257,43)].
Definition tanh_sinh_26 : list (Z * Z) := [
  (6392414919957865909641429143508768,44); (3280578687205870981530986049628484,43);
  (6481130745077828954541284572490167,42); (2684510927042886436409517583871007,41);
  (2701589203050159497437919186843150,40); (9043191101896629062072575464492215,40);
  (5519979354629530683315746705872524,39); (1496172482192467510245509115374844,38);
  (6373174651314039353150873089998169,38); (1402890112124670149068102217270693,37);
  (4664807420486310250546280360767213,37); (8374368798466994698770381915666926,37);
  (2374802574591999505097747218862606,36); (3495484581858793833417881533228717,36);
  (9050348372545475546762249305192655,36); (1098016570888076608329197351728980,35);
  (2731482098685226129016160300751040,35); (2739052166867116160156791003194410,35);
  (6800010650760639785572169145595430,35); (5616078171084921324083848006026554,35);
  (1435114762007830624156803263598325,34); (9626110303786511599124761434847853,35);
  (2612957886713978671579657822203948,34); (1384071466368667065340719985652016,34);
  (4155531136998023557852777906173827,34); (1663111775468498227433201689333232,34);
  (5844468863001976442147222093826172,34); (1663111775468498227433201689333232,34);
  (7387042113286021328420342177796052,34); (1384071466368667065340719985652016,34);
  (8564885237992169375843196736401675,34); (9626110303786511599124761434847853,35);
  (9319998934923936021442783085440456,34); (5616078171084921324083848006026554,35);
  (9726851790131477387098383969924895,34); (2739052166867116160156791003194410,35);
  (9909496516274545244532377506948073,34); (1098016570888076608329197351728980,35);
  (9976251974254080004949022527811374,34); (3495484581858793833417881533228717,36);
  (9995335192579513689749453719639233,34); (8374368798466994698770381915666926,37);
  (9999362682534868596064684912691000,34); (1402890112124670149068102217270693,37);
  (9999944800206453704693166842532941,34); (1496172482192467510245509115374842,38);
  (9999997298410796949840502562080814,34); (9043191101896629062072575464492215,40);
  (9999999935188692549221710454587155,34); (2684510927042886436409517583871007,41);
  (9999999999360758508004213409035858,34); (3280578687205870981530986049628476,43)].
Definition tanh_sinh_27 : list (Z * Z) := [
  (2965305618004950370992318475454161,44); (1528113992998444016063898291878969,43);
  (3103950550694124963456869089075158,42); (1298335001366320879848624182946715,41);
  (1355865553796743785010683961789456,40); (4608558318219421650805353324611188,40);
  (2925144329919632905446359836526498,39); (8093087879274706799364709187774046,39);
  (3574384537587831391671321021733394,38); (8070395374853298806295702461234558,38);
  (2765636299615348851035581856704626,37); (5114546083164797562615575721128379,37);
  (1483350129797120937931072583734875,36); (2257658444001214002848668493082245,36);
  (5930848261914063545300674561846517,36); (7467971811588349513582289111726160,36);
  (1871043232839901848729143191736065,35); (1956515009297740996268744543483541,35);
  (4858764945409713725247484784814674,35); (4216304984435160077742521995819316,35);
  (1069706267971135137348105867878389,34); (7635040063313515486911470243885036,35);
  (2035557903123216493354154173681331,34); (1170608071329925273572204138899498,34);
  (3391182435333643883032698456833911,34); (1517455945536506962574719133855319,34);
  (5000000000000000000000000000000000,34); (1655772836907310498066143747079076,34);
  (6608817564666356116967301543166088,34); (1517455945536506962574719133855319,34);
  (7964442096876783506645845826318670,34); (1170608071329925273572204138899498,34);
  (8930293732028864862651894132121611,34); (7635040063313515486911470243885036,35);
  (9514123505459028627475251521518532,34); (4216304984435160077742521995819316,35);
  (9812895676716009815127085680826395,34); (1956515009297740996268744543483541,35);
  (9940691517380859364546993254381536,34); (7467971811588349513582289111726160,36);
  (9985166498702028790620689274162651,34); (2257658444001214002848668493082246,36);
  (9997234363700384651148964418143296,34); (5114546083164797562615575721128379,37);
  (9999642561546241216860832867897825,34); (8070395374853298806295702461234558,38);
  (9999970748556700803670945536401634,34); (8093087879274706799364709187774046,39);
  (9999998644134446203256214989316038,34); (4608558318219421650805353324611188,40);
  (9999999968960494493058750365431308,34); (1298335001366320879848624182946715,41);
  (9999999999703469438199504962900769,34); (1528113992998444016063898291878969,43)].
Definition tanh_sinh_28 : list (Z * Z) := [
  (1383019740788562920066297130264661,44); (7154918654338199317398695781946469,44);
  (1492104611992756562454559956268872,42); (6299113507087396414312815333745013,42);
  (6815524578570101616967006876017772,41); (2350261705936068337142307495638543,40);
  (1549239600507716454107793246074130,39); (4370392315653875140219731815064343,39);
  (1999970278457100462545145910781942,38); (4625641129868647967872566399766105,38);
  (1633612815913118532961588648872917,37); (3107639236543254223378369223879810,37);
  (9222733369512681042431274072429275,37); (1449219370084317748808638197354855,36);
  (3866121687261634158448404780325429,36); (5043138940285980383473298492121600,36);
  (1273859327189551002893568119842688,35); (1385392180273730483909644093118713,35);
  (3445804988709706806088465074265769,35); (3128298090236261889800751029855020,35);
  (7896090660891642652167512639840136,35); (5954008601159976994314130291366203,35);
  (1565608782055349901514179872721817,34); (9662676923344486712328040320328764,35);
  (2723452325291100456634396866992159,34); (1339154598025889461954834131665746,34);
  (4199371007680853645225399224559932,34); (1579267918127942418539400887615092,34);
  (5800628992319146354774600775440068,34); (1579267918127942418539400887615092,34);
  (7276547674708899543365603133007841,34); (1339154598025889461954834131665746,34);
  (8434391217944650098485820127278182,34); (9662676923344486712328040320328764,35);
  (9210390933910835734783248736015986,34); (5954008601159976994314130291366203,35);
  (9655419501129029319391153492573423,34); (3128298090236261889800751029855020,35);
  (9872614067281044899710643188015731,34); (1385392180273730483909644093118713,35);
  (9961338783127383658415515952196746,34); (5043138940285980383473298492121600,36);
  (9990777266630487318957568725927570,34); (1449219370084317748808638197354855,36);
  (9998366387184086881467038411351126,34); (3107639236543254223378369223879805,37);
  (9999800002972154289953745485408922,34); (4625641129868647967872566399766104,38);
  (9999984507603994922835458922067539,34); (4370392315653875140219731815064343,39);
  (9999999318447542142989838303299311,34); (2350261705936068337142307495638543,40);
  (9999999985078953880072434375454401,34); (6299113507087396414312815333745013,42);
  (9999999999861698025921143707993369,34); (7154918654338199317398695781946469,44)].
Definition tanh_sinh_29 : list (Z * Z) := [
  (6483842633462817202606670659680134,45); (3366652322824063792062131287057894,44);
  (7198692308118537605102332482833035,43); (3065592186857513977734965516583522,42);
  (3431470132350600333541944171855397,41); (1199553339384266770400170890010597,40);
  (8201883134673660018292250480640734,40); (2356678520820547691760382568345761,39);
  (1116634481371498953441614179652255,38); (2642307034468252225207456003968412,38);
  (9615869330970386355418040231221116,38); (1879122316229542527087707593380302,37);
  (5709073637179002521423132092300331,37); (9248588344900921546747940166366664,37);
  (2507566754760602048381548680862896,36); (3383066537120441552062270444220145,36);
  (8623869042801117957747077690018009,36); (9733471155941759191855848654873238,36);
  (2427481638421420998866809558125831,35); (2297873950562072059361729911343681,35);
  (5779762832098688481135095442911726,35); (4578730939099626087524895748540322,35);
  (1191076921697099415293799808333280,34); (7818746774261194354564346434028651,35);
  (2156999211838988028548042014643612,34); (1149598552748406327809249112341515,34);
  (3468882712529586367204757639871798,34); (1452604446762163391312885697048019,34);
  (5000000000000000000000000000000000,34); (1571359436941614086791992472631361,34);
  (6531117287470413632795242360128202,34); (1452604446762163391312885697048019,34);
  (7843000788161011971451957985356387,34); (1149598552748406327809249112341516,34);
  (8808923078302900584706200191666720,34); (7818746774261194354564346434028653,35);
  (9422023716790131151886490455708828,34); (4578730939099626087524895748540322,35);
  (9757251836157857900113319044187416,34); (2297873950562072059361729911343681,35);
  (9913761309571988820422529223099819,34); (9733471155941759191855848654873242,36);
  (9974924332452393979516184513191371,34); (3383066537120441552062270444220145,36);
  (9994290926362820997478576867907701,34); (9248588344900921546747940166366664,37);
  (9999038413066902961364458195976879,34); (1879122316229542527087707593380302,37);
  (9999888336551862850104655838582034,34); (2642307034468252225207456003968408,38);
  (9999991798116865326339981707749518,34); (2356678520820547691760382568345761,39);
  (9999999656852986764939966645805583,34); (1199553339384266770400170890010597,40);
  (9999999992801307691881462394897667,34); (3065592186857513977734965516583522,42);
  (9999999999935161573665371827973934,34); (3366652322824063792062131287057893,44)].
Definition tanh_sinh_30 : list (Z * Z) := [
  (3054788573769432796199006093572621,45); (1591640098514535974264847786512417,44);
  (3485216297899131535973223963856207,43); (1496452230989198802458966297691944,42);
  (1730491515300102289537671419377111,41); (6127923405931937432761447829033605,41);
  (4340992645169718562425695313866452,40); (1269244233147083827733045477414804,39);
  (6222249131685749994822584287804176,39); (1504697716519707555794563467419603,38);
  (5641612258198634013724984412281685,38); (1131114779954866918149907284740023,37);
  (3519226034903767496507169108605988,37); (5869602360674284434424082744868621,37);
  (1618605013274758937283567940765229,36); (2255245145409995516966349850273965,36);
  (5807228853128162941647547839501751,36); (6789819114016966552429678961519588,36);
  (1699738034298457742673674923571258,35); (1673191465495373837234886187822770,35);
  (4199568434321139941384823117300298,35); (3480199244668370626295152883018646,35);
  (8976661668205209215911482405209366,35); (6223792976698610921799103202429198,35);
  (1687958327250222379961753321818766,34); (9645603458159157327813535252219815,35);
  (2823600727496172576744023036723390,34); (1295871130179161346582728120478481,34);
  (4238426138999361903722375101571955,34); (1504235005453778255525428163862487,34);
  (5761573861000638096277624898428045,34); (1504235005453778255525428163862487,34);
  (7176399272503827423255976963276610,34); (1295871130179161346582728120478481,34);
  (8312041672749777620038246678181234,34); (9645603458159157327813535252219815,35);
  (9102333833179479078408851759479063,34); (6223792976698610921799103202429198,35);
  (9580043156567886005861517688269969,34); (3480199244668370626295152883018646,35);
  (9830026196570154225732632507642875,34); (1673191465495373837234886187822770,35);
  (9941927711468718370583524521604983,34); (6789819114016966552429678961519579,36);
  (9983813949867252410627164320592348,34); (2255245145409995516966349850273965,36);
  (9996480773965096232503492830891395,34); (5869602360674284434424082744868621,37);
  (9999435838774180136598627501558772,34); (1131114779954866918149907284740023,37);
  (9999937777508683142500051774157122,34); (1504697716519707555794563467419603,38);
  (9999995659007354830281437574304685,34); (1269244233147083827733045477414804,39);
  (9999999826950848469989771046232858,34); (6127923405931937432761447829033606,41);
  (9999999996514783702100868464026777,34); (1496452230989198802458966297691944,42);
  (9999999999969452114262305672038009,34); (1591640098514535974264847786512417,44)].
Definition tanh_sinh_31 : list (Z * Z) := [
  (1446044363756464402462571429824816,45); (7558917362280340607847436347734600,45);
  (1693097380418123092029978756397659,43); (7326496445568574765730070072357681,43);
  (8741270073626891096736200409688097,42); (3133504097816777413169534916949620,41);
  (2297188617087918812306767371610282,40); (6828697019267413410430664327684131,40);
  (3461078145105887541733067093651207,39); (8544420266321998090173249407451712,39);
  (3299743851432819939352649297912944,38); (6779631974163045683893495777553252,38);
  (2160662193194937036610319291355289,37); (3705540386211677330627904375507939,37);
  (1039975175363792047274694165615691,36); (1494460969763668776066626912369950,36);
  (3890746202198647886933421639627405,36); (4705000125625758839021785333503378,36);
  (1183483424945107449080796253531880,35); (1208859496502678428954321003883885,35);
  (3031345605027861654914054606296651,35); (2618954489030702936419278321826237,35);
  (6710241636302540822715387075929363,35); (4887042662652139795074831064024674,35);
  (1307255587765240992523689080975705,34); (7941010472927816527342875047454431,35);
  (2268838995854374158587294938825138,34); (1126761574053488508413375761615096,34);
  (3538770284470052367438248255572920,34); (1393162174629546510694242112461624,34);
  (5000000000000000000000000000000000,34); (1496037662031862131599837107743844,34);
  (6461229715529947632561751744427081,34); (1393162174629546510694242112461624,34);
  (7731161004145625841412705061174863,34); (1126761574053488508413375761615096,34);
  (8692744412234759007476310919024295,34); (7941010472927816527342875047454430,35);
  (9328975836369745917728461292407064,34); (4887042662652139795074831064024674,35);
  (9696865439497213834508594539370335,34); (2618954489030702936419278321826237,35);
  (9881651657505489255091920374646811,34); (1208859496502678428954321003883885,35);
  (9961092537978013521130665783603726,34); (4705000125625758839021785333503378,36);
  (9989600248246362079527253058343843,34); (1494460969763668776066626912369951,36);
  (9997839337806805062963389680708646,34); (3705540386211677330627904375507939,37);
  (9999670025614856718006064735070208,34); (6779631974163045683893495777553252,38);
  (9999965389218548941124582669329063,34); (8544420266321998090173249407451712,39);
  (9999997702811382912081187693232628,34); (6828697019267413410430664327684131,40);
  (9999999912587299263731089032637995,34); (3133504097816777413169534916949620,41);
  (9999999998306902619581876907970022,34); (7326496445568574765730070072357705,43);
  (9999999999985539556362435355975374,34); (7558917362280340607847436347734600,45)].
Definition tanh_sinh_32 : list (Z * Z) := [
  (6876190616948816250031487404612591,46); (3605483659128904245083516707709886,45);
  (8252142334707993716336058707443477,44); (3597382895380866770262932864595859,43);
  (4422834415653183104266189677456386,42); (1603977701994008596090709878130865,41);
  (1215579168950019173604640931063496,40); (3670738685639207986431588739206997,40);
  (1922104405394376341270104456250515,39); (4839366684342054776145151545373076,39);
  (1924436170351911903889415279498910,38); (4047330368364521263852556447028637,38);
  (1321494745538230783962346453284010,37); (2327640379056840125180391702045005,37);
  (6652345401679028753223214318628135,37); (9846894659342520926405421521862013,37);
  (2594084882959829092887097121566887,36); (3239943500729591764513871075872383,36);
  (8196755551170816053690271286456168,36); (8671975599214218543744920431039297,36);
  (2174997541113659796379291692784173,35); (1953760713997168879905836030531266,35);
  (4979968859897141530995557087993890,35); (3793467458190249572953077483205748,35);
  (1003312320091529231836913184543956,34); (6435120489114610213276237637750924,35);
  (1802591659423770896219400457918584,34); (9588729543379757121492760255501933,35);
  (2914772014602423697212154966929735,34); (1254479137731586774832330785938190,34);
  (4273463580428036316758712297789375,34); (1436662354288823739015555784536147,34);
  (5726536419571963683241287702210625,34); (1436662354288823739015555784536147,34);
  (7085227985397576302787845033070265,34); (1254479137731586774832330785938190,34);
  (8197408340576229103780599542081416,34); (9588729543379757121492760255501933,35);
  (8996687679908470768163086815456044,34); (6435120489114610213276237637750922,35);
  (9502003114010285846900444291200610,34); (3793467458190249572953077483205748,35);
  (9782500245888634020362070830721584,34); (1953760713997168879905836030531266,35);
  (9918032444488291839463097287135438,34); (8671975599214218543744920431039297,36);
  (9974059151170401709071129028784332,34); (3239943500729591764513871075872383,36);
  (9993347654598320971246776785681373,34); (9846894659342520926405421521862013,37);
  (9998678505254461769216037653546716,34); (2327640379056840125180391702045005,37);
  (9999807556382964808809611058472050,34); (4047330368364521263852556447028637,38);
  (9999980778955946056236587298955438,34); (4839366684342054776145151545373076,39);
  (9999998784420831049980826395359069,34); (3670738685639207986431588739206997,40);
  (9999999955771655843468168957338103,34); (1603977701994008596090709878130865,41);
  (9999999999174785766529200628366394,34); (3597382895380866770262932864595870,43);
  (9999999999993123809383051183749968,34); (3605483659128904245083516707709886,45)].
Definition tanh_sinh_33 : list (Z * Z) := [
  (3283978296247253504357141461954241,46); (1726963549852481525008395189956416,45);
  (4034991381870808839433201224951322,44); (1771357036827427887019756700427809,43);
  (2241564369041552890522873527665929,42); (8219421312260755368757308131251412,42);
  (6432669723315535330741653309195196,41); (1971788113771115776242353505188344,40);
  (1065892055706840940595352948802843,39); (2734418927721377983675554017083935,39);
  (1119318677944953296087986890928780,38); (2407155944720735791203261197564920,38);
  (8053075952883698116408031461869362,38); (1455154350765508424924093412224650,37);
  (4237100146578766522508080805543175,37); (6452725233011839843252690151933798,37);
  (1721470690179004307616684956184450,36); (2217807002123405634806379765729588,36);
  (5648502486616538780818455404223300,36); (6180118283910454207371538060777430,36);
  (1551915690960614567022685980172870,35); (1446266328285390863538556178855189,35);
  (3672013161589748810738843973246527,35); (2915665652773307624433099524352781,35);
  (7639602416318354891265211736854560,35); (5145975763796603708597487852599393,35);
  (1418086780784031923360387936486066,34); (8014037820776959831315687775325953,35);
  (2372068565466564041458174013469243,34); (1102933338098928379930811793537556,34);
  (3601990795314705757086436997987481,34); (1338533045609555100991745049492375,34);
  (5000000000000000000000000000000000,34); (1428363623458943032381528696342308,34);
  (6398009204685294242913563002012520,34); (1338533045609555100991745049492375,34);
  (7627931434533435958541825986530756,34); (1102933338098928379930811793537556,34);
  (8581913219215968076639612063513934,34); (8014037820776959831315687775325953,35);
  (9236039758368164510873478826314544,34); (5145975763796603708597487852599393,35);
  (9632798683841025118926115602675346,34); (2915665652773307624433099524352781,35);
  (9844808430903938543297731401982714,34); (1446266328285390863538556178855189,35);
  (9943514975133834612191815445957768,34); (6180118283910454207371538060777430,36);
  (9982785293098209956923833150438156,34); (2217807002123405634806379765729588,36);
  (9995762899853421233477491919194456,34); (6452725233011839843252690151933798,37);
  (9999194692404711630188359196853813,34); (1455154350765508424924093412224650,37);
  (9999888068132205504670391201310906,34); (2407155944720735791203261197564920,38);
  (9999989341079442931590594046470511,34); (2734418927721377983675554017083935,39);
  (9999999356733027668446466925834669,34); (1971788113771115776242353505188344,40);
  (9999999977584356309584471094771265,34); (8219421312260755368757308131251412,42);
  (9999999999596500861812919116056680,34); (1771357036827427887019756700427804,43);
  (9999999999996716021703752746495643,34); (1726963549852481525008395189956416,45)].
Definition tanh_sinh_34 : list (Z * Z) := [
  (1574941931519890427295944364470574,46); (8305196441017845642944858283242398,46);
  (1979110912677956885753658559129279,44); (8746362631621297068694959571535857,44);
  (1137962003892620848849546115263857,42); (4216761703114634095025245022983428,42);
  (3404544504469194567851287572039024,41); (1058570869552181631265593240989329,40);
  (5903161082087056016658569271225635,40); (1541712020997352914423721939042263,39);
  (6493937812339521796640508751254825,39); (1426649884595564064041763816479933,38);
  (4890498200323622135023381461198480,38); (9055964386066423651904803781663967,38);
  (2687664600180267511374564778805500,37); (4206438656074754066098794978535222,37);
  (1137228966629360441421697045889667,36); (1509485956591128457250285438152229,36);
  (3873692518983151076335926102278064,36); (4377062421128657400493043033147520,36);
  (1101565669279325656113821466978951,35); (1063084654670404654233687617011766,35);
  (2691662437613024831373679573041998,35); (2221742476605224956599240300655473,35);
  (5776325007311031822403350423625066,35); (4068880409498109355750609938589302,35);
  (1105977871723861279702224087412292,34); (6596876595535652916398828304097365,35);
  (1909998478765728744466474871716019,34); (9502579836002542005913482383338928,35);
  (2998113329030200909215579422741984,34); (1215083475294944165372698942945491,34);
  (4305092510315143381724523171593320,34); (1375463424871885617862325460656355,34);
  (5694907489684856618275476828406680,34); (1375463424871885617862325460656355,34);
  (7001886670969799090784420577258016,34); (1215083475294944165372698942945491,34);
  (8090001521234271255533525128283982,34); (9502579836002542005913482383338928,35);
  (8894022128276138720297775912587709,34); (6596876595535652916398828304097365,35);
  (9422367499268896817759664957637494,34); (4068880409498109355750609938589302,35);
  (9730833756238697516862632042695799,34); (2221742476605224956599240300655473,35);
  (9889843433072067434388617853302105,34); (1063084654670404654233687617011766,35);
  (9961263074810168489236640738977219,34); (4377062421128657400493043033147519,36);
  (9988627710333706395585783029541104,34); (1509485956591128457250285438152229,36);
  (9997312335399819732488625435221193,34); (4206438656074754066098794978535220,37);
  (9999510950179967637786497661853881,34); (9055964386066423651904803781663967,38);
  (9999935060621876604782033594912486,34); (1426649884595564064041763816479933,38);
  (9999994096838917912943983341430729,34); (1541712020997352914423721939042263,39);
  (9999999659545549553080543214871242,34); (1058570869552181631265593240989329,40);
  (9999999988620379961073791511504539,34); (4216761703114634095025245022983440,42);
  (9999999999802088908732204311424634,34); (8746362631621297068694959571535885,44);
  (9999999999998425058068480109572703,34); (8305196441017845642944858283242398,46)].
Definition tanh_sinh_35 : list (Z * Z) := [
  (7583532495169656299372240373755916,47); (4009586444636680079870023181164703,46);
  (9736695375001145880171667041312536,45); (4330361773725064880651392910252996,44);
  (5786693385047748783004760297243314,43); (2165851072720074350090103072243795,42);
  (1802275364192273837914271859596959,41); (5680525254151220454104953853478141,41);
  (3265511496778846604850825455993248,40); (8675363738535006448630207027780217,40);
  (3758721969319942920950541989599075,39); (8427667514155723432498036063644768,39);
  (2960156024579388501419695968164939,38); (5611679860435679019434019889810612,38);
  (1698097980247092020198123073556241,37); (2728395062308339937213598623738164,37);
  (7479848782377739494372223096553742,37); (1021762666853515957754589122969030,36);
  (2644180097620828454179791600632505,36); (3081835802240672327316026088331545,36);
  (7780339408880800639677798552163948,36); (7763587166316544759686620542961070,36);
  (1962308464713978847786272671445750,35); (1680031815950567823607310816631885,35);
  (4339959520953098650314438074172036,35); (3186079920289002922224165370254097,35);
  (8559856554528747658514650739262323,35); (5360752047125372453568469180416543,35);
  (1523583790743592608478800886853605,34); (8047795347220692436593869074562455,35);
  (2467575583570607353672718567765706,34); (1078695638333048171597957763552279,34);
  (3659475568545099862893743583060788,34); (1288189106718471444741541951331424,34);
  (5000000000000000000000000000000000,34); (1367188760600991166787367585330747,34);
  (6340524431454900137106256416939212,34); (1288189106718471444741541951331424,34);
  (7532424416429392646327281432234294,34); (1078695638333048171597957763552279,34);
  (8476416209256407391521199113146395,34); (8047795347220692436593869074562455,35);
  (9144014344547125234148534926073768,34); (5360752047125372453568469180416543,35);
  (9566004047904690134968556192582796,34); (3186079920289002922224165370254097,35);
  (9803769153528602115221372732855425,34); (1680031815950567823607310816631885,35);
  (9922196605911191993603222014478360,34); (7763587166316544759686620542961077,36);
  (9973558199023791715458202083993675,34); (3081835802240672327316026088331545,36);
  (9992520151217622260505627776903446,34); (1021762666853515957754589122969030,36);
  (9998301902019752907979801876926445,34); (2728395062308339937213598623738164,37);
  (9999703984397542061149858030403184,34); (5611679860435679019434019889810612,38);
  (9999962412780306800570790494580104,34); (8427667514155723432498036063644768,39);
  (9999996734488503221153395149174543,34); (8675363738535006448630207027780217,40);
  (9999999819772463580772616208572813,34); (5680525254151220454104953853478141,41);
  (9999999994213306614952251216995239,34); (2165851072720074350090103072243802,42);
  (9999999999902633046249988541198283,34); (4330361773725064880651392910252996,44);
  (9999999999999241646750483034370062,34); (4009586444636680079870023181164703,46)].
Definition tanh_sinh_36 : list (Z * Z) := [
  (3665698054381297023616527186055067,47); (1942996711336724843073494998017609,46);
  (4804309428052504795192854013818217,45); (2149662257596332432400995529232651,44);
  (2947529948061094085603177112971015,43); (1113791299409692234798862886594156,42);
  (9543525667500485687156996021375030,42); (3047309513269237779321857628410948,41);
  (1804549292473494070263020141849353,40); (4873003496927131704916332199094010,40);
  (2170800366568103717374133145618320,39); (4963271768356542459573408758832656,39);
  (1786156014918135477488475538328926,38); (3463220520771869088995746396193203,38);
  (1068807818596390448266741012252300,37); (1761212788122775116338922689751196,37);
  (4898863615595966223178542656161654,37); (6879778205129456999294230324891622,37);
  (1796778736945553899970838028028366,36); (2157672236214724256178167102960434,36);
  (5469169422510238501662585070090884,36); (5635191871641034047581342600127403,36);
  (1423283422680719392870352542547769,35); (1261602718900857936765905184437987,35);
  (3242006081136711703102341771984664,35); (2473663229193521392041630917048186,35);
  (6579932772842745708054420283841599,35); (4308444585299275864309583783996487,35);
  (1205307672085529010095272999997510,34); (6716924332333228700502394190011427,35);
  (2010686304015143747921579772412380,34); (9395156501160171409555587998784524,35);
  (3074590200015486864291803536609706,34); (1177695718227852608353420327838801,34);
  (4333803137755905000055559229738539,34); (1319754369152600823218970741370845,34);
  (5666196862244094999944440770261461,34); (1319754369152600823218970741370845,34);
  (6925409799984513135708196463390293,34); (1177695718227852608353420327838801,34);
  (7989313695984856252078420227587620,34); (9395156501160171409555587998784524,35);
  (8794692327914470989904727000002491,34); (6716924332333228700502394190011427,35);
  (9342006722715725429194557971615840,34); (4308444585299275864309583783996489,35);
  (9675799391886328829689765822801533,34); (2473663229193521392041630917048186,35);
  (9857671657731928060712964745745224,34); (1261602718900857936765905184437987,35);
  (9945308305774897614983374149299091,34); (5635191871641034047581342600127403,36);
  (9982032212630544461000291619719717,34); (2157672236214724256178167102960434,36);
  (9995101136384404033776821457343838,34); (6879778205129456999294230324891622,37);
  (9998931192181403609551733258987747,34); (1761212788122775116338922689751196,37);
  (9999821384398508186452251152446167,34); (3463220520771869088995746396193209,38);
  (9999978291996334318962826258668544,34); (4963271768356542459573408758832656,39);
  (9999998195450707526505929736979859,34); (4873003496927131704916332199094010,40);
  (9999999904564743324995143128430040,34); (3047309513269237779321857628410948,41);
  (9999999997052470051938905914396823,34); (1113791299409692234798862886594156,42);
  (9999999999951956905719474952048070,34); (2149662257596332432400995529232650,44);
  (9999999999999633430194561870297639,34); (1942996711336724843073494998017609,46)].
Definition tanh_sinh_37 : list (Z * Z) := [
  (1778522984246400082625912042558606,47); (9449545701420867335673929252835816,47);
  (2377354318091952615331701293795156,45); (1069892904713193354922612857877927,44);
  (1503864874973626714191411373028340,43); (5734773328812037922253111692342609,43);
  (5055338111863779051421649875583291,42); (1634368618244952274714204107025809,41);
  (9962974086756728286014676715525110,41); (2732769082997076787473852504258998,40);
  (1251161647105266577733309322090508,39); (2914660760124733582338944934851702,39);
  (1074578695450141239625749503807680,38); (2129067421236383291002434068044278,38);
  (6702742650275583024271126419642557,38); (1131660801936903789163282149895568,37);
  (3195324281268702465113020246819472,37); (4608765196904033287113015308841230,37);
  (1215607025485352288153426205831440,36); (1502457902029002541258681761539791,36);
  (3826932864710951202863244446827835,36); (4066713737925611652698015018559303,36);
  (1027322193408441538205724190097771,35); (9413419112827959657715538493939097,36);
  (2408928637470616613226194083950766,35); (1906051977316159332513321731474284,35);
  (5026903814011365608121064877535119,35); (3429776413625332305147506894601252,35);
  (9465117763950668084623055652966913,35); (5536580469964353584990489962426029,35);
  (1623868135532142993332510761016578,34); (8050359654408008744193344489106737,35);
  (2556148296101710961643690435853587,34); (1054451543719238607458269014228683,34);
  (3711989305039274385851008837552061,34); (1241666651052908540480582771455984,34);
  (5000000000000000000000000000000000,34); (1311587329542846997386490667494752,34);
  (6288010694960725614148991162447939,34); (1241666651052908540480582771455984,34);
  (7443851703898289038356309564146413,34); (1054451543719238607458269014228683,34);
  (8376131864467857006667489238983421,34); (8050359654408008744193344489106737,35);
  (9053488223604933191537694434703310,34); (5536580469964353584990489962426029,35);
  (9497309618598863439187893512246487,34); (3429776413625332305147506894601252,35);
  (9759107136252938338677380591604922,34); (1906051977316159332513321731474284,35);
  (9897267780659155846179427580990223,34); (9413419112827959657715538493939097,36);
  (9961730671352890487971367555531722,34); (4066713737925611652698015018559303,36);
  (9987843929745146477118465737941686,34); (1502457902029002541258681761539791,36);
  (9996804675718731297534886979753180,34); (4608765196904033287113015308841230,37);
  (9999329725734972441697572887358037,34); (1131660801936903789163282149895568,37);
  (9999892542130454985876037425049619,34); (2129067421236383291002434068044274,38);
  (9999987488383528947334222666906780,34); (2914660760124733582338944934851702,39);
  (9999999003702591324327171398532328,34); (2732769082997076787473852504258998,40);
  (9999999949446618881362209485783500,34); (1634368618244952274714204107025809,41);
  (9999999998496135125026373285808588,34); (5734773328812037922253111692342592,43);
  (9999999999976226456819080473846682,34); (1069892904713193354922612857877927,44);
  (9999999999999822147701575359991738,34); (9449545701420867335673929252835819,47)].
Definition tanh_sinh_38 : list (Z * Z) := [
  (8660106246388609036508079635820827,48); (4611721948050316211621940827234769,47);
  (1179689012693423557898038669800668,45); (5338383278473928785171204437424987,45);
  (7685623255870115833547673436508115,44); (2956481972706049194859866146075873,43);
  (2678986327488498676742631678600262,42); (8764564684691426112726893566768795,42);
  (5496167697460463712528891496482510,41); (1530289233674432778339996345755080,40);
  (7197529501014669253992454060186544,40); (1707067848190612452828825784002014,39);
  (6446728273520390512161287489919511,39); (1304097080777197564879687546946476,38);
  (4188776838820613788752860089317830,38); (7239461069000825637220516163910366,38);
  (2075917616344014372249116854418050,37); (3072268684813112676645713298680345,37);
  (8189180104816346105115257561163224,37); (1040736239386782787547665889176755,36);
  (2665921924380548038034767133459397,36); (2918610133377063001321468883396325,36);
  (7380779755806792084450277503734783,36); (6981908394522188829179338705830808,36);
  (1780992856542726974737283554259317,35); (1458658804547791082653892642878519,35);
  (3818868487157397865933267778058598,35); (2707510535168749622442547636479802,35);
  (7383831581828569532858797543580775,35); (4514825665295807107934106927280883,35);
  (1301102896887390135112028657400793,34); (6802073055642833675380183484612572,35);
  (2105154927485770910856569511481755,34); (9272547684010647651560046305486203,35);
  (3145019303808865603741919035016149,34); (1142271687726202399272865764003380,34);
  (4359994602855785301637357176487892,34); (1268808874010874020395554798013156,34);
  (5640005397144214698362642823512109,34); (1268808874010874020395554798013156,34);
  (6854980696191134396258080964983851,34); (1142271687726202399272865764003380,34);
  (7894845072514229089143430488518245,34); (9272547684010647651560046305486199,35);
  (8698897103112609864887971342599207,34); (6802073055642833675380183484612573,35);
  (9261616841817143046714120245641922,34); (4514825665295807107934106927280883,35);
  (9618113151284260213406673222194140,34); (2707510535168749622442547636479802,35);
  (9821900714345727302526271644574068,34); (1458658804547791082653892642878519,35);
  (9926192202441932079155497224962652,34); (6981908394522188829179338705830812,36);
  (9973340780756194519619652328665406,34); (2918610133377063001321468883396325,36);
  (9991810819895183653894884742438837,34); (1040736239386782787547665889176755,36);
  (9997924082383655985627750883145582,34); (3072268684813112676645713298680345,37);
  (9999581122316117938621124713991069,34); (7239461069000825637220516163910366,38);
  (9999935532717264796094878387125101,34); (1304097080777197564879687546946476,38);
  (9999992802470498985330746007545939,34); (1707067848190612452828825784002014,39);
  (9999999450383230253953628747110851,34); (1530289233674432778339996345755080,40);
  (9999999973210136725115013232573682,34); (8764564684691426112726893566768795,42);
  (9999999999231437674412988416645232,34); (2956481972706049194859866146075873,43);
  (9999999999988203109873065764421020,34); (5338383278473928785171204437424988,45);
  (9999999999999913398937536113909635,34); (4611721948050316211621940827234769,47)].
Definition tanh_sinh_39 : list (Z * Z) := [
  (4231502766296874067980730705976778,48); (2258284502473361286650831149429191,47);
  (5869760503845289945366206190708193,46); (2670266357915416009106155037373709,45);
  (3934278552373575790954516932123484,44); (1526118280213744401725628039504090,43);
  (1420340311420235909545978128871870,42); (4699970742105472762727440493123289,42);
  (3029885076600199671705056006618675,41); (8557968056475810682426640313550359,41);
  (4133225525458010298218926481453397,40); (9973209579679030477970846972959861,40);
  (3857344628332844595477061339518174,39); (7960257765003622076062293091518997,39);
  (2608963857517503945123276407639364,38); (4611742756494287076002518671293672,38);
  (1343503435514330673031315673514063,37); (2038330439849314594848980590869122,37);
  (5493987800325424105716944530203870,37); (7172559861312446028286988323381669,37);
  (1849115481445205570092129234003289,36); (2083510906630976490229710775051042,36);
  (5278973244996698816734135753226942,36); (5149249403337561884906232351714686,36);
  (1310516565714843202116680113629202,35); (1109276297320924417176367485202861,35);
  (2886068874453011388552375255951292,35); (2121452112787225486092596442340779,35);
  (5725806521047563122177807188134153,35); (3647336236890890324075552332899888,35);
  (1035116123513783347726687074277258,34); (5678384531934432344371035645522712,35);
  (1719128059937596533579534895618399,34); (8028248832888038146987866277920009,35);
  (2638483626840965935044393606187148,34); (1030477902043930990313329680883738,34);
  (3760165683290089631039091811129928,34); (1198559963536326221148148899175694,34);
  (5000000000000000000000000000000000,34); (1260804370848611174911807175682453,34);
  (6239834316709910368960908188870071,34); (1198559963536326221148148899175694,34);
  (7361516373159034064955606393812851,34); (1030477902043930990313329680883738,34);
  (8280871940062403466420465104381600,34); (8028248832888038146987866277920006,35);
  (8964883876486216652273312925722741,34); (5678384531934432344371035645522712,35);
  (9427419347895243687782219281186585,34); (3647336236890890324075552332899888,35);
  (9711393112554698861144762474404872,34); (2121452112787225486092596442340779,35);
  (9868948343428515679788331988637080,34); (1109276297320924417176367485202861,35);
  (9947210267550033011832658642467731,34); (5149249403337561884906232351714686,36);
  (9981508845185547944299078707659968,34); (2083510906630976490229710775051042,36);
  (9994506012199674575894283055469796,34); (7172559861312446028286988323381669,37);
  (9998656496564485669326968684326486,34); (2038330439849314594848980590869122,37);
  (9999739103614248249605487672359235,34); (4611742756494287076002518671293672,38);
  (9999961426553716671554045229386604,34); (7960257765003622076062293091518997,39);
  (9999995866774474541989701781073519,34); (9973209579679030477970846972959861,40);
  (9999999697011492339980032829494399,34); (8557968056475810682426640313550359,41);
  (9999999985796596885797640904540219,34); (4699970742105472762727440493123290,42);
  (9999999999606572144762642420904548,34); (1526118280213744401725628039504085,43);
  (9999999999994130239496154710054633,34); (2670266357915416009106155037373709,45);
  (9999999999999957684972337031259321,34); (2258284502473361286650831149429191,47)].
Definition tanh_sinh_40 : list (Z * Z) := [
  (2074548440727822387750299539617161,48); (1109456869182971287678709882712506,47);
  (2928345682826052103000865010183360,46); (1338910368305975929170647665734357,45);
  (2017261618909504304848433837493848,44); (7887891167092421282211070222290514,44);
  (7534185737528319830015786910043325,43); (2520452072232176045737394547489030,42);
  (1669278273045343146425926709834974,41); (4780263936956672783702895277174460,41);
  (2369660325494420243599354615673131,40); (5813187869014632894247298486887177,40);
  (2302228329925591382221885762877274,39); (4843091740186194009656614005014781,39);
  (1619787274332043816343698574525917,38); (2925996257941367707762926271158678,38);
  (8662800280777871756953353267306936,38); (1346186660910361635273276596431309,37);
  (3671007451186318035166751000969454,37); (4918945013233497138656498240301123,37);
  (1277170130677737383568394727559166,36); (1479718690112098561948195320152538,36);
  (3759300736047365972644279734950215,36); (3777181475118273422398286021980744,36);
  (9599629304760762113817003620766989,36); (8386480252829340482257260393400180,36);
  (2170504579427163875822694285332895,35); (1651078562354876279190710675966764,35);
  (4415813682502776712121796787476714,35); (2922358895066161393647715821481085,35);
  (8182547381703989151384608235495340,35); (4690974543399216875453523880554785,35);
  (1393277222301985379931478481683257,34); (6858139976633663765549846726352618,35);
  (2193882102872840048398059437004491,34); (9139389139943981030589175228965960,35);
  (3210094962633963203472103060777977,34); (1108735089222763392305488065022446,34);
  (4383995347132926825006792023443654,34); (1222024515418437092399421391082657,34);
  (5616004652867073174993207976556346,34); (1222024515418437092399421391082657,34);
  (6789905037366036796527896939222023,34); (1108735089222763392305488065022446,34);
  (7806117897127159951601940562995510,34); (9139389139943981030589175228965960,35);
  (8606722777698014620068521518316742,34); (6858139976633663765549846726352618,35);
  (9181745261829601084861539176450466,34); (4690974543399216875453523880554784,35);
  (9558418631749722328787820321252328,34); (2922358895066161393647715821481085,35);
  (9782949542057283612417730571466710,34); (1651078562354876279190710675966764,35);
  (9904003706952392378861829963792331,34); (8386480252829340482257260393400180,36);
  (9962406992639526340273557202650498,34); (3777181475118273422398286021980744,36);
  (9987228298693222626164316052724410,34); (1479718690112098561948195320152538,36);
  (9996328992548813681964833248999030,34); (4918945013233497138656498240301123,37);
  (9999133719971922212824304664673269,34); (1346186660910361635273276596431309,37);
  (9999838021272566795618365630142547,34); (2925996257941367707762926271158678,38);
  (9999976977716700744086177781142371,34); (4843091740186194009656614005014781,39);
  (9999997630339674505579756400645384,34); (5813187869014632894247298486887177,40);
  (9999999833072172695465685357407330,34); (4780263936956672783702895277174446,41);
  (9999999992465814262471680169984214,34); (2520452072232176045737394547489030,42);
  (9999999999798273838109049569515157,34); (7887891167092421282211070222290514,44);
  (9999999999997071654317173947897000,34); (1338910368305975929170647665734357,45);
  (9999999999999979254515592721776123,34); (1109456869182971287678709882712506,47)].
Definition tanh_sinh_41 : list (Z * Z) := [
  (1020382096623733011446012909971294,48); (5467816284283799224689566300068722,48);
  (1464686136046038290312830605503495,46); (6729423914447616987530951307301979,46);
  (1036013093912370224481940545004473,44); (4082232169097944673092583763614890,44);
  (3998715232736559666422419550586877,43); (1351795541533039973333933136495124,42);
  (9191912280191674501999521446314008,42); (2667290938316856728499343607027251,41);
  (1356522187993059358900382285076582,40); (3381102769285937880408948720542132,40);
  (1370816839439975152586235626998254,39); (2937477009864955693610673423669941,39);
  (1002578180812724743070813238628426,38); (1849314663292538269213062885799881,38);
  (5565772241800139288185426721969779,38); (8851650207891110715501854009546067,38);
  (2443333811654250571336051428688991,37); (3357378850119429698852420252100044,37);
  (8785100496259182278888364843876617,37); (1045668349642147913078768409831950,36);
  (2665785114223626520797539612582237,36); (2756357933753506088950688758344753,36);
  (7001148813812656375471816774199534,36); (6305490691521776989720985127449696,36);
  (1624838830217493910932565721666346,35); (1277078673901101927195072516773895,35);
  (3388292136487822470784913988757533,35); (2324358061308031916868409539584111,35);
  (6430786561716493879415833882009427,35); (3839971257281170554339600421079072,35);
  (1121505754495572028975558345612932,34); (5790669398465358513341003440048705,35);
  (1809590306055900257036131914562616,34); (7986712428928920875490047105680298,35);
  (2715196607322441368588231887778466,34); (1006962012040696657257253024964549,34);
  (3804534257619319940607604723954937,34); (1158514479595080675224982107086156,34);
  (5000000000000000000000000000000000,34); (1214217689508855365563098418978207,34);
  (6195465742380680059392395276045063,34); (1158514479595080675224982107086156,34);
  (7284803392677558631411768112221534,34); (1006962012040696657257253024964549,34);
  (8190409693944099742963868085437383,34); (7986712428928920875490047105680298,35);
  (8878494245504427971024441654387068,34); (5790669398465358513341003440048705,35);
  (9356921343828350612058416611799057,34); (3839971257281170554339600421079072,35);
  (9661170786351217752921508601124247,34); (2324358061308031916868409539584111,35);
  (9837516116978250608906743427833366,34); (1277078673901101927195072516773895,35);
  (9929988511861873436245281832258004,34); (6305490691521776989720985127449696,36);
  (9973342148857763734792024603874178,34); (2756357933753506088950688758344753,36);
  (9991214899503740817721111635156124,34); (1045668349642147913078768409831950,36);
  (9997556666188345749428663948571311,34); (3357378850119429698852420252100044,37);
  (9999443422775819986071181457327802,34); (8851650207891110715501854009546067,38);
  (9999899742181918727525692918676137,34); (1849314663292538269213062885799882,38);
  (9999986291831605600248474137643730,34); (2937477009864955693610673423669941,39);
  (9999998643477812006940641099617715,34); (3381102769285937880408948720542132,40);
  (9999999908080877198083254980004785,34); (2667290938316856728499343607027251,41);
  (9999999996001284767263440333577580,34); (1351795541533039973333933136495124,42);
  (9999999999896398690608762977551806,34); (4082232169097944673092583763614890,44);
  (9999999999998535313863953961709688,34); (6729423914447616987530951307301979,46);
  (9999999999999989796179033762669885,34); (5467816284283799224689566300068724,48)].
Definition tanh_sinh_42 : list (Z * Z) := [
  (5034632664434425390180867544504622,49); (2703006134455839237927588201859534,48);
  (7344452294994197867819804761008578,47); (3390094258302546502163460504113483,46);
  (5329279125969270456371676975240902,45); (2115444386267036736763752698273987,44);
  (2123543737729061099547404398747254,43); (7251380989726199305789454403937046,43);
  (5059328177951255777293905509743176,42); (1486878366621292378399246603018555,41);
  (7754626158342261755871683498009312,41); (1962601193164584989957826124117358,40);
  (8144023880487213691005568160883001,40); (1776464691186860208075868997443513,39);
  (6187401969653530817471814629663479,39); (1164533869322687112569446443134952,38);
  (3563659385229894649345428123503833,38); (5795660869789431592227728906266029,38);
  (1620054538472533305965239157447762,37); (2280992221121019394181620447225165,37);
  (6018682842102157085495280773851632,37); (7353637657148378317760223455234549,37);
  (1882556045178626685778676368289232,36); (2001344466812934698171954794025678,36);
  (5084461988749547067833309197550598,36); (4715972270656225825015141924575893,36);
  (1211002775480356408876240427470676,35); (9821397126239000231357676180568980,36);
  (2587547037231836709123474028171887,35); (1836507483461944306270781322631078,35);
  (5027182825076578526634864054880610,35); (3118062788707979809290502771610873,35);
  (8971845626514117068372682194610412,35); (4839890533978941476656577238570710,35);
  (1481824179802089752564569377143462,34); (6890051795866006023621981868108534,35);
  (2277316172209851822624317565300102,34); (8999212665395107613810018503079232,35);
  (3270410522904794359921698159054453,34); (1076992439993684334137516570276032,34);
  (4406078227395750638941082395079449,34); (1178897361873771277780769328093690,34);
  (5593921772604249361058917604920551,34); (1178897361873771277780769328093690,34);
  (6729589477095205640078301840945547,34); (1076992439993684334137516570276032,34);
  (7722683827790148177375682434699898,34); (8999212665395107613810018503079232,35);
  (8518175820197910247435430622856539,34); (6890051795866006023621981868108534,35);
  (9102815437348588293162731780538959,34); (4839890533978941476656577238570711,35);
  (9497281717492342147336513594511939,34); (3118062788707979809290502771610873,35);
  (9741245296276816329087652597182811,34); (1836507483461944306270781322631078,35);
  (9878899722451964359112375957252932,34); (9821397126239000231357676180568980,36);
  (9949155380112504529321666908024493,34); (4715972270656225825015141924575894,36);
  (9981174439548213733142213236317107,34); (2001344466812934698171954794025678,36);
  (9993981317157897842914504719226149,34); (7353637657148378317760223455234549,37);
  (9998379945461527466694034760842552,34); (2280992221121019394181620447225165,37);
  (9999643634061477010535065457187649,34); (5795660869789431592227728906266029,38);
  (9999938125980303464691825281853704,34); (1164533869322687112569446443134953,38);
  (9999991855976119512786308994431839,34); (1776464691186860208075868997443513,39);
  (9999999224537384165773824412831650,34); (1962601193164584989957826124117358,40);
  (9999999949406718220487442227060945,34); (1486878366621292378399246603018555,41);
  (9999999997876456262270938900452595,34); (7251380989726199305789454403937046,43);
  (9999999999946707208740307295436283,34); (2115444386267036736763752698273988,44);
  (9999999999999265554770500580213218,34); (3390094258302546502163460504113483,46);
  (9999999999999994965367335565574610,34); (2703006134455839237927588201859534,48)].
Definition tanh_sinh_43 : list (Z * Z) := [
  (2491703215128341550886757758587664,49); (1340200918640601017784020884084954,48);
  (3691818573380996283928326664967190,47); (1711716599034311343013519672191039,46);
  (2745780357253532734910110336656733,45); (1097677027210056658579219076664745,44);
  (1128426082864624179385831118667746,43); (3890745369534556496863036935244304,43);
  (2783699512084675294056891061450944,42); (8281568609476468428811920166882561,42);
  (4427253393056141819125204377992618,41); (1137094226829913030927058268761117,40);
  (4828163969130282570824120324710269,40); (1071369892439308633317643438873791,39);
  (3807902283148013069271448101276180,39); (7307535397500503063108939204314393,39);
  (2274184561613610026324005567700218,38); (3779300418422581552311383729196985,38);
  (1070224391341620305381109943741944,37); (1542785395133144910790252812420008,37);
  (4107291624848926624968902612695487,37); (5147097052095906726341920308547613,37);
  (1324085090747177177712220917291790,36); (1446074867560551480063050173211441,36);
  (3677307519717395583651519836525914,36); (3509359683944130879115037214062018,36);
  (8987454298072985686266465683835089,36); (7512481425050474975874224219224556,36);
  (1967186007770456736610882787054891,35); (1442269283325391237851104620394529,35);
  (3910573516125793471395144011061426,35); (2513679432954093375059777710192965,35);
  (7137001028561026543144855247507883,35); (4009259615995701130829875489884896,35);
  (1205487658388587089331462869431090,34); (5877472629772099664497025679144254,35);
  (1895501078263451325107848376650455,34); (7929975024429574916950957097635077,35);
  (2786829847235630912971253521922324,34); (9840274200660592204208649704238776,35);
  (3845541018026766804194937402840896,34); (1121220187030344015234549992642804,34);
  (5000000000000000000000000000000000,34); (1171309618072474670048724377142453,34);
  (6154458981973233195805062597159105,34); (1121220187030344015234549992642804,34);
  (7213170152764369087028746478077676,34); (9840274200660592204208649704238776,35);
  (8104498921736548674892151623349545,34); (7929975024429574916950957097635077,35);
  (8794512341611412910668537130568911,34); (5877472629772099664497025679144254,35);
  (9286299897143897345685514475249212,34); (4009259615995701130829875489884896,35);
  (9608942648387420652860485598893857,34); (2513679432954093375059777710192965,35);
  (9803281399222954326338911721294511,34); (1442269283325391237851104620394528,35);
  (9910125457019270143137335343161649,34); (7512481425050474975874224219224556,36);
  (9963226924802826044163484801634740,34); (3509359683944130879115037214062018,36);
  (9986759149092528228222877790827082,34); (1446074867560551480063050173211441,36);
  (9995892708375151073375031097387304,34); (5147097052095906726341920308547613,37);
  (9998929775608658379694618890056257,34); (1542785395133144910790252812420008,37);
  (9999772581543838638997367599443231,34); (3779300418422581552311383729196985,38);
  (9999961920977168519869307285518987,34); (7307535397500503063108939204314393,39);
  (9999995171836030869717429175879675,34); (1071369892439308633317643438873791,39);
  (9999999557274660694385818087479562,34); (1137094226829913030927058268761117,40);
  (9999999972163004879153247059431089,34); (8281568609476468428811920166882561,42);
  (9999999998871573917135375820614169,34); (3890745369534556496863036935244305,43);
  (9999999999972542196427464672650900,34); (1097677027210056658579219076664745,44);
  (9999999999999630818142661900371607,34); (1711716599034311343013519672191039,46);
  (9999999999999997508296784871658449,34); (1340200918640601017784020884084954,48)].
Definition tanh_sinh_44 : list (Z * Z) := [
  (1236825732015043271997081143027818,49); (6664149876973335719753677811100151,49);
  (1860209783352514136238935830011959,47); (8661986354625769131813948223095378,47);
  (1416937799043679854200391062085652,45); (5703186103791052431864076420443561,45);
  (6000248122567923290958327131871097,44); (2088190381927240245039679224568446,43);
  (1531174232963761923283697598192933,42); (4609184066140010628729245154745641,42);
  (2524590995136627152182599057434504,41); (6576711456618175964906924794056886,41);
  (2856672835098811092252842596963570,40); (6444510059514644557520632376184240,40);
  (2337255680929056887098174173381003,39); (4570226366161159125120542742870043,39);
  (1446665363884046707150732226194172,38); (2454810317829690974690018367392770,38);
  (7044777109967661445373155186615093,38); (1038981139802845967592653724775128,37);
  (2792230055821521674559041045811774,37); (3586166791148924284802482413998740,37);
  (9276139864324445558250042207622858,37); (1039919261521982264523032934771417,36);
  (2648901877015816223382159977618135,36); (2598742574082969595082235488136917,36);
  (6642669619170019275429169569762762,36); (5716960489309290786889988355415559,36);
  (1489161889976878849514421681013476,35); (1126305653326378096996607101767329,35);
  (3027952554359101782498752767108249,35); (2013285761090823104524213054986324,35);
  (5648083503699195802767668090933194,35); (3295016195545933191316529296242029,35);
  (9748509387518339560354576085362335,35); (4964478034622926258918375964744751,35);
  (1566793023444770680138240702959497,34); (6901958075977163970039032565780462,35);
  (2355872935679767898137974018069091,34); (8854708772088153958888107109186646,35);
  (3326475613007230193324745186977246,34); (1046942474414859237728513578786156,34);
  (4426471893916295382147911369424262,34); (1139002571425323183184381382532381,34);
  (5573528106083704617852088630575739,34); (1139002571425323183184381382532381,34);
  (6673524386992769806675254813022754,34); (1046942474414859237728513578786156,34);
  (7644127064320232101862025981930909,34); (8854708772088153958888107109186646,35);
  (8433206976555229319861759297040503,34); (6901958075977163970039032565780462,35);
  (9025149061248166043964542391463767,34); (4964478034622926258918375964744751,35);
  (9435191649630080419723233190906680,34); (3295016195545933191316529296242029,35);
  (9697204744564089821750124723289176,34); (2013285761090823104524213054986324,35);
  (9851083811002312115048557831898653,34); (1126305653326378096996607101767329,35);
  (9933573303808299807245708304302371,34); (5716960489309290786889988355415560,36);
  (9973510981229841837766178400223818,34); (2598742574082969595082235488136917,36);
  (9990723860135675554441749957792378,34); (1039919261521982264523032934771417,36);
  (9997207769944178478325440958954188,34); (3586166791148924284802482413998741,37);
  (9999295522289003233855462684481338,34); (1038981139802845967592653724775129,37);
  (9999855333463611595329284926777380,34); (2454810317829690974690018367392770,38);
  (9999976627443190709431129018258265,34); (4570226366161159125120542742870043,39);
  (9999997143327164901188907747157403,34); (6444510059514644557520632376184240,40);
  (9999999747540900486337284781740094,34); (6576711456618175964906924794056886,41);
  (9999999984688257670362380767163024,34); (4609184066140010628729245154745628,42);
  (9999999999399975187743207670904168,34); (2088190381927240245039679224568446,43);
  (9999999999985830622009563201457997,34); (5703186103791052431864076420443561,45);
  (9999999999999813979021664748586376,34); (8661986354625769131813948223095378,47);
  (9999999999999998763174267984956728,34); (6664149876973335719753677811100151,49)].
Definition tanh_sinh_45 : list (Z * Z) := [
  (6156963615744161189130874033304342,50); (3323040871513083403087069977080467,49);
  (9395062870929695765901897954154843,48); (4392872955719454719813413059257759,47);
  (7323467013341241337758972099506776,46); (2967089316320071078025403668695559,45);
  (3192721787423073330028026558104538,44); (1121122885199992472663308391226934,43);
  (8420300786645912583761714388541367,43); (2563591580630856655367744911461674,42);
  (1438042601774115302048065167384362,41); (3797717985884841199369054031304054,41);
  (1687035084673269281594010608755764,40); (3866975196946829150561565169337654,40);
  (1430945762097806136799103386488021,39); (2849181990777828181292348639781529,39);
  (9174369612236758429629675562565436,39); (1588507048726151436966053040134652,38);
  (4621206127655710386326528781489740,38); (6967732607557202168499129069367928,38);
  (1891169741051118977485135554869555,37); (2487489806408570022252090796077664,37);
  (6473497768725589578606632598250508,37); (7443907314831211795379928003126049,37);
  (1900596737932597514639540410538383,36); (1915313910952917716697737902865199,36);
  (4890019008211442549057503409037589,36); (4329241419407104720819582034549073,36);
  (1122662684450780835767197612829099,35); (8749316000029137814403247898330693,36);
  (2334324972484006651273664668574968,35); (1602925551430211948778136919994630,35);
  (4448370195036042460624357807272026,35); (2688921059199762739044831539491741,35);
  (7840513075236630393020593343400287,35); (4156962335509282465280336319893501,35);
  (1286945209929323207110304282989598,34); (5942363016808500139908573849052565,35);
  (1977113357377455581677774918954838,34); (7861436221852589703751404894356005,35);
  (2853862421650616113853819066313874,34); (9617521922916595227458684451427661,35);
  (3883564276967234599490397921318180,34); (1086405621625013036985214226256606,34);
  (5000000000000000000000000000000000,34); (1131645735716955024583836286641627,34);
  (6116435723032765400509602078681821,34); (1086405621625013036985214226256606,34);
  (7146137578349383886146180933686125,34); (9617521922916595227458684451427661,35);
  (8022886642622544418322225081045161,34); (7861436221852589703751404894356005,35);
  (8713054790070676792889695717010402,34); (5942363016808500139908573849052565,35);
  (9215948692476336960697940665659972,34); (4156962335509282465280336319893501,35);
  (9555162980496395753937564219272797,34); (2688921059199762739044831539491741,35);
  (9766567502751599334872633533142503,34); (1602925551430211948778136919994629,35);
  (9887733731554921916423280238717090,34); (8749316000029137814403247898330693,36);
  (9951099809917885574509424965909623,34); (4329241419407104720819582034549073,36);
  (9980994032620674024853604595894616,34); (1915313910952917716697737902865199,36);
  (9993526502231274410421393367401749,34); (7443907314831211795379928003126049,37);
  (9998108830258948881022514864445130,34); (2487489806408570022252090796077664,37);
  (9999537879387234428961367347121852,34); (6967732607557202168499129069367928,38);
  (9999908256303877632415703703244375,34); (1588507048726151436966053040134652,38);
  (9999985690542379021938632008966135,34); (2849181990777828181292348639781529,39);
  (9999998312964915326730718405989390,34); (3866975196946829150561565169337654,40);
  (9999999856195739822588469795193482,34); (3797717985884841199369054031304054,41);
  (9999999991579699213354087416238286,34); (2563591580630856655367744911461674,42);
  (9999999999680727821257692666997197,34); (1121122885199992472663308391226934,43);
  (9999999999992676532986658758662241,34); (2967089316320071078025403668695559,45);
  (9999999999999906049371290703042341,34); (4392872955719454719813413059257759,47);
  (9999999999999999384303638425583881,34); (3323040871513083403087069977080467,49)].
Definition tanh_sinh_46 : list (Z * Z) := [
  (3073510289845533840697178277974541,50); (1661531544413990884794875925202301,49);
  (4755872050409086779567125466145047,48); (2232574138965885105135639474865788,47);
  (3791025345028804586229200763132666,46); (1545657129761416430277508886489672,45);
  (1700039455442921071393207002155909,44); (6021446931022544146950801397451938,44);
  (4629746623179519638617531313433014,43); (1425027104757384549199016416347289,42);
  (8183045996259380747543935387454154,42); (2189719673977915113730119725680256,41);
  (9945347298167225357791492330613000,41); (2314962499259551151242391171077585,40);
  (8739531401710928191151672673902217,40); (1770856242258083641442121892792461,39);
  (5800985378755251351590747587677902,39); (1024211853686332170126982851310295,38);
  (3021252949606210986768072277171845,38); (4653902040684152032060227106601182,38);
  (1276249284505986714000883300154388,37); (1717942413699556345427937858885838,37);
  (4500567745431798910178735241396075,37); (5304499273344158990335812133845287,37);
  (1358427771995037006797542321721095,36); (1405116279217808115731403611242258,36);
  (3585754599185238463079962465532428,36); (3262861354544645253085302201862593,36);
  (8429954953328880649610762654444813,36); (6762695950245335199259887234968656,36);
  (1792116369451600606934557639196107,35); (1269189910455652320759998455306271,35);
  (3487776796326426304790717547878204,35); (2180321150285500112660603076408751,35);
  (6274342753500798206022569377324869,35); (3453970092703071026944723645411132,35);
  (1051014770275746055301235299942282,34); (5067465403057780543742460345929992,35);
  (1648270992860108605853526147076397,34); (6897341858801275740968166590612309,35);
  (2429935070047613092566543533294161,34); (8707924936236756546007912771828075,35);
  (3378730110082085463685330288242186,34); (1018482018280211057282950776244456,34);
  (4445369470280953736145606957346341,34); (1101979400284240195073682223625144,34);
  (5554630529719046263854393042653659,34); (1101979400284240195073682223625144,34);
  (6621269889917914536314669711757814,34); (1018482018280211057282950776244456,34);
  (7570064929952386907433456466705839,34); (8707924936236756546007912771828072,35);
  (8351729007139891394146473852923603,34); (6897341858801275740968166590612309,35);
  (8948985229724253944698764700057719,34); (5067465403057780543742460345929992,35);
  (9372565724649920179397743062267513,34); (3453970092703071026944723645411132,35);
  (9651222320367357369520928245212180,34); (2180321150285500112660603076408751,35);
  (9820788363054839939306544236080389,34); (1269189910455652320759998455306271,35);
  (9915700450466711193503892373455552,34); (6762695950245335199259887234968656,36);
  (9964142454008147615369200375344675,34); (3262861354544645253085302201862593,36);
  (9986415722280049629932024576782790,34); (1405116279217808115731403611242259,36);
  (9995499432254568201089821264758605,34); (5304499273344158990335812133845287,37);
  (9998723750715494013285999116699847,34); (1717942413699556345427937858885838,37);
  (9999697874705039378901323192772283,34); (4653902040684152032060227106601182,38);
  (9999941990146212447486484092524123,34); (1024211853686332170126982851310295,38);
  (9999991260468598289071808848327326,34); (1770856242258083641442121892792461,39);
  (9999999005465270183277464220850767,34); (2314962499259551151242391171077584,40);
  (9999999918169540037406192524560646,34); (2189719673977915113730119725680256,41);
  (9999999995370253376820480361382469,34); (1425027104757384549199016416347289,42);
  (9999999999829996054455707892860678,34); (6021446931022544146950801397451921,44);
  (9999999999996208974654971195413772,34); (1545657129761416430277508886489672,45);
  (9999999999999952441279495909132203,34); (2232574138965885105135639474865788,47);
  (9999999999999999692648971015446616,34); (1661531544413990884794875925202301,49)].
Definition tanh_sinh_47 : list (Z * Z) := [
  (1538433379101989066358064447666827,50); (8329732115305779514578150321357989,50);
  (2412852403545350296548919922252724,48); (1137026044698591096186764807895638,47);
  (1965456996152509393085541286523474,46); (8062391379308880865494580474264056,46);
  (9058829643124721586424533913882402,45); (3235414350095945931875977385336789,44);
  (2545290901615047087908549891558480,43); (7917360559166394174502191485217548,43);
  (4652183586204901181237974075622764,42); (1260820810863625941459824094648635,41);
  (5853191727769593715833504365584445,41); (1382816422027818487790241798791322,40);
  (5325380033069678564235260353221880,40); (1097461393102054322216205773163045,39);
  (3657589148129405186665240817932094,39); (6580861081026085452174064211667864,39);
  (1968837542964097223264420309078620,38); (3096308338139549917761585929604694,38);
  (8582388861723427405343191153116080,38); (1181477503842853905544406841906777,37);
  (3117368993431367385241046150571464,37); (3763376740561264469699322144478849,37);
  (9672485009271538681736249520998360,37); (1026192331210820509547213695494221,36);
  (2619314859766566884850459093619068,36); (2447867539912099369063768443159588,36);
  (6305463101548762721372728261287742,36); (5202224528964741619690074074726444,36);
  (1370361947979277143610665308074435,35); (9997670791417310582977716778843473,36);
  (2723033718889073870956234014918387,35); (1757613609824352112877582360165862,35);
  (4997643339209391133509762990183576,35); (2850027089959501678402209998453805,35);
  (8538162256794773164154131877601616,35); (4284899571588186874564630479358327,35);
  (1365819651672513684738082907941053,34); (5988465505583868564871890363666249,35);
  (2054678588950743653440502095037830,34); (7783832681871884546991450528183160,35);
  (2916717912918394875286279958580254,34); (9401819410001965707489425175886064,35);
  (3918927070714870107548327745593388,34); (1053832568208883448535411355388493,34);
  (5000000000000000000000000000000000,34); (1094858615085098984106514518743327,34);
  (6081072929285129892451672254406613,34); (1053832568208883448535411355388493,34);
  (7083282087081605124713720041419746,34); (9401819410001965707489425175886064,35);
  (7945321411049256346559497904962170,34); (7783832681871884546991450528183160,35);
  (8634180348327486315261917092058947,34); (5988465505583868564871890363666249,35);
  (9146183774320522683584586812239839,34); (4284899571588186874564630479358327,35);
  (9500235666079060886649023700981642,34); (2850027089959501678402209998453805,35);
  (9727696628111092612904376598508161,34); (1757613609824352112877582360165862,35);
  (9862963805202072285638933469192558,34); (9997670791417310582977716778843473,36);
  (9936945368984512372786272717387124,34); (5202224528964741619690074074726444,36);
  (9973806851402334331151495409063809,34); (2447867539912099369063768443159588,36);
  (9990327514990728461318263750479002,34); (1026192331210820509547213695494221,36);
  (9996882631006568632614758953849430,34); (3763376740561264469699322144478851,37);
  (9999141761113827657259465680884688,34); (1181477503842853905544406841906777,37);
  (9999803116245703590277673557969092,34); (3096308338139549917761585929604694,38);
  (9999963424108518705948133347591820,34); (6580861081026085452174064211667864,39);
  (9999994674619966930321435764739648,34); (1097461393102054322216205773163045,39);
  (9999999414680827223040628416649563,34); (1382816422027818487790241798791322,40);
  (9999999953478164137950988187620259,34); (1260820810863625941459824094648639,41);
  (9999999997454709098384952912091451,34); (7917360559166394174502191485217549,43);
  (9999999999909411703568752784135756,34); (3235414350095945931875977385336789,44);
  (9999999999998034543003847490606914,34); (8062391379308880865494580474264056,46);
  (9999999999999975871475964546497035,34); (1137026044698591096186764807895638,47);
  (9999999999999999846156662089801093,34); (8329732115305779514578150321357988,50)].
Definition tanh_sinh_48 : list (Z * Z) := [
  (7720870242639782185300162655875161,51); (4186702613830489666652364436290143,50);
  (1226816905189046626296964256142626,48); (5802617832321972470466624267131749,48);
  (1020540048592472130246541365198179,46); (4210957973282413809277447036010496,46);
  (4830681342031190061613344100628499,45); (1739224326276596408220755036367931,44);
  (1399234105282428423399185184116533,43); (4396952604804878241494049936680707,43);
  (2642598590773389802501253255986998,42); (7250391674424469632478216754666656,42);
  (3439417880689264158048899687837934,41); (8243031511861195113582430805191354,41);
  (3237859347193198161102194703061153,40); (6782620386574071196813103305372169,40);
  (2299876081552305022288912052379025,39); (4214332016275290611788874555741688,39);
  (1278999499853485649356233324616193,38); (2052251072765991482082897000617875,38);
  (5751623115232783777539130967637257,38); (8092158806655205169830033197635257,38);
  (2151482047988821633797147143047581,37); (2658566328326620573379596263356302,37);
  (6861609368303478371364600655608611,37); (7461639687768880838992984200683601,37);
  (1906177947193952182486910914120354,36); (1828237066269961017801738649612028,36);
  (4698549667297539285298891511779359,36); (3983443856941931668557161820007770,36);
  (1043821791691597228147060954197335,35); (7837046480142572277162010983428510,36);
  (2117395538468190451938430021753646,35); (1409221441159081050832720101233731,35);
  (3963368748084569400138825986170162,35); (2336972125028787291530386586187416,35);
  (6902441806131417406982842754835255,35); (3595897311204411193359323039888890,35);
  (1125503408111114602484819170592850,34); (5151364352679134095807155145492300,35);
  (1726370343335643142194664921313664,34); (6879120784803720613670133906255590,35);
  (2499853031895527025441837484756212,34); (8560415602321753522906655543602970,35);
  (3427555484725373592463368858662140,34); (9915095914968456559324478566758649,35);
  (4462935255187201823528744579035252,34); (1067519498423121598948214439270511,34);
  (5537064744812798176471255420964749,34); (1067519498423121598948214439270511,34);
  (6572444515274626407536631141337859,34); (9915095914968456559324478566758649,35);
  (7500146968104472974558162515243788,34); (8560415602321753522906655543602970,35);
  (8273629656664356857805335078686336,34); (6879120784803720613670133906255590,35);
  (8874496591888885397515180829407151,34); (5151364352679134095807155145492299,35);
  (9309755819386858259301715724516474,34); (3595897311204411193359323039888890,35);
  (9603663125191543059986117401382984,34); (2336972125028787291530386586187416,35);
  (9788260446153180954806156997824635,34); (1409221441159081050832720101233731,35);
  (9895617820830840277185293904580266,34); (7837046480142572277162010983428510,36);
  (9953014503327024607147011084882206,34); (3983443856941931668557161820007767,36);
  (9980938220528060478175130890858796,34); (1828237066269961017801738649612028,36);
  (9993138390631696521628635399344391,34); (7461639687768880838992984200683601,37);
  (9997848517952011178366202852856951,34); (2658566328326620573379596263356302,37);
  (9999424837688476721622246086903236,34); (8092158806655205169830033197635257,38);
  (9999872100050014651435064376667538,34); (2052251072765991482082897000617875,38);
  (9999977001239184476949777110879477,34); (4214332016275290611788874555741688,39);
  (9999996762140652806801838897805296,34); (6782620386574071196813103305372169,40);
  (9999999656058211931073584195110032,34); (8243031511861195113582430805191354,41);
  (9999999973574014092266101974987467,34); (7250391674424469632478216754666656,42);
  (9999999998600765894717571576600815,34); (4396952604804878241494049936680707,43);
  (9999999999951693186579688099383865,34); (1739224326276596408220755036367932,44);
  (9999999999998979459951407527869754,34); (4210957973282413809277447036010496,46);
  (9999999999999987731830948109533737,34); (5802617832321972470466624267131749,48);
  (9999999999999999922791297573602178,34); (4186702613830489666652364436290143,50)].
Definition tanh_sinh_49 : list (Z * Z) := [
  (3884780661812724583288010797553707,51); (2109610933902649256948565927360064,50);
  (6251097042956606650269125172785630,49); (2967214019113781864710679405591023,48);
  (5306997129745121746768981937016081,47); (2202226084497019237316075895038567,46);
  (2577952799450125888914869830234505,45); (9353878255835563499741889503331043,45);
  (7691952877331376303585996482358070,44); (2440989979267429068570490181928022,43);
  (1499926144867762945336810069356059,42); (4164417683961771853171104075585587,42);
  (2018072625280702844867417090749632,41); (4904132982859441302405993922678646,41);
  (1964516610082340239582684221528485,40); (4180853282178903308777196665680267,40);
  (1442372917411350734838134581506967,39); (2690212881311828638742516968586123,39);
  (8283509313255365731009092805896379,39); (1355292356717830745272741897294605,38);
  (3841703890961570817128432671313329,38); (5520486809750640274604477013474415,38);
  (1479625903694599515330643264939444,37); (1870250399225479338051012801739997,37);
  (4849883650321584246269684362975435,37); (5402206301428880017437935512848569,37);
  (1382091894046562784630627569720464,36); (1359497904639418342518008398116975,36);
  (3488183805502347307900593125061372,36); (3036627759694101397066087718742113,36);
  (7921118534482441998785511216585023,36); (6114841824228510489126853124615267,36);
  (1640087104434069154636249969388948,35); (1124197605678388503888941790614417,35);
  (3130198881459474560782308483748888,35); (1905313202705697365258895289413115,35);
  (5554849372248423160190944096346158,35); (2997256353929120995604046518673547,35);
  (9227444676506746965630568672358311,35); (4394869730976556281012299536081966,35);
  (1442095641642416327565476955306652,34); (6018498822301305681677779510031084,35);
  (2128441377742840432491005228781694,34); (7699368432093521149210018538570692,35);
  (2975771536016562849000377920073515,34); (9193391652908308580191122579775165,35);
  (3951906932475903972027998711888606,34); (1023291463906374108673443045189390,34);
  (5000000000000000000000000000000000,34); (1060635257910166466269098380617242,34);
  (6048093067524096027972001288111395,34); (1023291463906374108673443045189390,34);
  (7024228463983437150999622079926485,34); (9193391652908308580191122579775165,35);
  (7871558622257159567508994771218305,34); (7699368432093521149210018538570692,35);
  (8557904358357583672434523044693348,34); (6018498822301305681677779510031084,35);
  (9077255532349325303436943132764169,34); (4394869730976556281012299536081966,35);
  (9444515062775157683980905590365384,34); (2997256353929120995604046518673547,35);
  (9686980111854052543921769151625111,34); (1905313202705697365258895289413115,35);
  (9835991289556593084536375003061106,34); (1124197605678388503888941790614417,35);
  (9920788814655175580012144887834151,34); (6114841824228510489126853124615267,36);
  (9965118161944976526920994068749386,34); (3036627759694101397066087718742113,36);
  (9986179081059534372153693724302795,34); (1359497904639418342518008398116975,36);
  (9995150116349678415753730315637024,34); (5402206301428880017437935512848569,37);
  (9998520374096305400484669356735060,34); (1870250399225479338051012801739997,37);
  (9999615829610903842918287156732870,34); (5520486809750640274604477013474406,38);
  (9999917164906867446342689909071942,34); (1355292356717830745272741897294607,38);
  (9999985576270825886492651618654186,34); (2690212881311828638742516968586123,39);
  (9999998035483389917659760417315778,34); (4180853282178903308777196665680267,40);
  (9999999798192737471929715513258291,34); (4904132982859441302405993922678645,41);
  (9999999985000738551322370546631899,34); (4164417683961771853171104075585587,42);
  (9999999999230804712266862369641400,34); (2440989979267429068570490181928022,43);
  (9999999999974220472005498741110851,34); (9353878255835563499741889503331043,45);
  (9999999999999469300287025487825324,34); (2202226084497019237316075895038567,46);
  (9999999999999993748902957043393349,34); (2967214019113781864710679405591023,48);
  (9999999999999999961152193381872753,34); (2109610933902649256948565927360064,50)].
Definition tanh_sinh_50 : list (Z * Z) := [
  (1959521554663061184140109668941001,51); (1065598705676993496508368066373946,50);
  (3191832490682859939526521946756286,49); (1520295400896071536508026568428592,48);
  (2763837606458584336984459782057153,47); (1153198543163091354870081813965680,46);
  (1376822624059031933192188346491312,45); (5033275043777773174358842344759416,45);
  (4228585488689691454933794827793513,44); (1354720674487335400707146752935827,43);
  (8507515557349613831149664309032594,43); (2389300107536624779624034576724073,42);
  (1182460002673458081937534256072086,41); (2912316745891094231909062299123403,41);
  (1189562524148371884034822123557283,40); (2570666702929812376437928949347421,40);
  (9023187453936256800992284027384671,40); (1712036935174524765588978313980116,39);
  (5349173736389246677962377799219182,39); (8918816831706883972833852150582371,39);
  (2557702095104719725506808866279026,38); (3751593070599197004035214581339044,38);
  (1014067763928006602573780507777603,37); (1310327858281624018960122382143631,37);
  (3415740825741479976234218622714965,37); (3894756395477749417622230283312220,37);
  (9984719743601857953844763981139949,37); (1006624548540560438960954118213318,36);
  (2580198673035916468770980065740086,36); (2304836494822745734514371185968157,36);
  (5989005014037543062450814029880156,36); (4749807105994381640410533435276876,36);
  (1265626650170875317840969657209125,35); (8925609608259480708647482964439990,36);
  (2462489477329051779924261853129400,35); (1545177165623512188151429603970274,35);
  (4451405342576439462745188786074243,35); (2482946471660502653775757791513751,35);
  (7529443926570403585109931131257082,35); (3721894575281451635159968088372384,35);
  (1198197262259846493545397883323560,34); (5218455094089083527746720640164224,35);
  (1801218912005623177908420003757410,34); (6849736197266687756213296718694008,35);
  (2565946779813175692332396553318454,34); (8413356061057005367873558055640276,35);
  (3473284055550134553040977137355603,34); (9659275442678176909101970877648998,35);
  (4479309954444299875797782027708757,34); (1035357682362097676477823125636546,34);
  (5520690045555700124202217972291244,34); (1035357682362097676477823125636546,34);
  (6526715944449865446959022862644397,34); (9659275442678176909101970877648998,35);
  (7434053220186824307667603446681546,34); (8413356061057005367873558055640276,35);
  (8198781087994376822091579996242591,34); (6849736197266687756213296718694007,35);
  (8801802737740153506454602116676441,34); (5218455094089083527746720640164224,35);
  (9247055607342959641489006886874292,34); (3721894575281451635159968088372384,35);
  (9554859465742356053725481121392576,34); (2482946471660502653775757791513751,35);
  (9753751052267094822007573814687060,34); (1545177165623512188151429603970274,35);
  (9873437334982912468215903034279086,34); (8925609608259480708647482964439979,36);
  (9940109949859624569375491859701199,34); (4749807105994381640410533435276876,36);
  (9974198013269640835312290199342598,34); (2304836494822745734514371185968157,36);
  (9990015280256398142046155236018861,34); (1006624548540560438960954118213318,36);
  (9996584259174258520023765781377286,34); (3894756395477749417622230283312220,37);
  (9998985932236071993397426219492222,34); (1310327858281624018960122382143631,37);
  (9999744229790489528027449319113372,34); (3751593070599197004035214581339044,38);
  (9999946508262636107533220376222008,34); (8918816831706883972833852150582371,39);
  (9999990976812546063743199007715973,34); (1712036935174524765588978313980116,39);
  (9999998810437475851628115965177876,34); (2570666702929812376437928949347421,40);
  (9999999881753999732654191806246574,34); (2912316745891094231909062299123403,41);
  (9999999991492484442650386168850336,34); (2389300107536624779624034576724073,42);
  (9999999999577141451131030854506621,34); (1354720674487335400707146752935831,43);
  (9999999999986231773759409680668078,34); (5033275043777773174358842344759416,45);
  (9999999999999723616239354141566303,34); (1153198543163091354870081813965680,46);
  (9999999999999996808167509317140060,34); (1520295400896071536508026568428591,48);
  (9999999999999999980404784453369388,34); (1065598705676993496508368066373940,50)].
Definition tanh_sinh_51 : list (Z * Z) := [
  (9908064747313082549377290303925027,52); (5395344886140545514202942779461875,51);
  (1633096713779373308392063910227192,49); (7804492679677748775039972413263483,49);
  (1441496486176560649630807776556211,47); (6046503487820771379152368938116884,47);
  (7359068968108846736024178389798297,46); (2709839962949430804384991894767646,45);
  (2324788561217854116659896038772514,44); (7516710768714507227482328373377272,44);
  (4822340677069729860371793552079687,43); (1369453286452351961829858264181775,42);
  (6919427050771823365729192817614757,42); (1726480658928081868285698939671193,41);
  (7189427039675845175381862549506255,41); (1576855261475558475917133601496390,40);
  (5631133566491364542760287065216807,40); (1086332629379663294466113849945673,39);
  (3444539828187623888737570503573299,39); (5849347047528253276947260345138249,39);
  (1697499230064643414022226020794606,38); (2539978644048688674910527236373412,38);
  (6926583932184081126227286734153077,38); (9143939237677124330890082354458125,38);
  (2397273997621926117457389479490984,37); (2796415098444077791954223069219988,37);
  (7187655809931185598159610148658089,37); (7422288478287979755769607497071637,37);
  (1901743440817295401727134821249898,36); (1742004418033750418704842838341727,36);
  (4511943433686392326708561375378476,36); (3673572996009236260901855311352951,36);
  (9731173866129367415051544873745505,36); (7054476931080886483487114188560049,36);
  (1929934824110885741624974679424197,35); (1246935845528742420638518893066546,35);
  (3552879077399928791705121011868439,35); (2045344798692587364254679608144915,35);
  (6116912917348937994892892727509767,35); (3131085132462958715854283235210980,35);
  (9906406138237574796598611624533006,35); (4488598834144746798185527969419191,35);
  (1515790036552062587333433512706441,34); (6034817858027814454645136215399611,35);
  (2198636241278005857260047227296292,34); (7609819245691825989388105694323768,35);
  (3031356372900364810132651075475806,34); (8992299828958745523975412693393580,35);
  (3982743663010665809813368920858355,34); (9945974489659654221014057936401191,35);
  (5000000000000000000000000000000000,34); (1028707274186275566746867231455687,34);
  (6017256336989334190186631079141646,34); (9945974489659654221014057936401191,35);
  (6968643627099635189867348924524193,34); (8992299828958745523975412693393580,35);
  (7801363758721994142739952772703709,34); (7609819245691825989388105694323768,35);
  (8484209963447937412666566487293559,34); (6034817858027814454645136215399611,35);
  (9009359386176242520340138837546699,34); (4488598834144746798185527969419188,35);
  (9388308708265106200510710727249023,34); (3131085132462958715854283235210980,35);
  (9644712092260007120829487898813157,34); (2045344798692587364254679608144915,35);
  (9807006517588911425837502532057580,34); (1246935845528742420638518893066546,35);
  (9902688261338706325849484551262544,34); (7054476931080886483487114188560049,36);
  (9954880565663136076732914386246216,34); (3673572996009236260901855311352951,36);
  (9980982565591827045982728651787501,34); (1742004418033750418704842838341727,36);
  (9992812344190068814401840389851342,34); (7422288478287979755769607497071637,37);
  (9997602726002378073882542610520509,34); (2796415098444077791954223069219988,37);
  (9999307341606781591887377271326585,34); (9143939237677124330890082354458127,38);
  (9999830250076993535658597777397920,34); (2539978644048688674910527236373412,38);
  (9999965554601718123761112624294964,34); (5849347047528253276947260345138249,39);
  (9999994368866433508635457239712934,34); (1086332629379663294466113849945673,39);
  (9999999281057296032415482461813745,34); (1576855261475558475917133601496390,40);
  (9999999930805729492281766342708072,34); (1726480658928081868285698939671193,41);
  (9999999995177659322930270139628207,34); (1369453286452351961829858264181775,42);
  (9999999999767521143878214588334011,34); (7516710768714507227482328373377272,44);
  (9999999999992640931031891153263974,34); (2709839962949430804384991894767646,45);
  (9999999999999855850351382343935037,34); (6046503487820771379152368938116885,47);
  (9999999999999998366903286220626692,34); (7804492679677748775039972413263483,49);
  (9999999999999999990091935252686917,34); (5395344886140545514202942779461875,51)].
Definition tanh_sinh_52 : list (Z * Z) := [
  (5021761683398097452621212970681126,52); (2738125045773192170369577438486912,51);
  (8372458109250742839487045490344427,50); (4014050634087158877367707014009116,49);
  (7529125867781293695505715818469146,48); (3174381385710910752739098882767994,47);
  (3936536279878646090236505413225375,46); (1459757537233999710631915954468288,45);
  (1278256232441227661863462637142697,44); (4169876816950784893224824624610279,44);
  (2731880121600078108481750079740970,43); (7841842081178392153040040981661186,43);
  (4044102181677955156603581992191461,42); (1021820857189645819080974676541492,41);
  (4337270292179582594557588184228798,41); (9650559517143454413474930860202040,41);
  (3506127261315094296558113380807721,40); (6873664030586062528934661240977784,40);
  (2212027951579309569995086261050876,39); (3823719876242102829950068057242329,39);
  (1123164048416149341500459409926963,38); (1713445193255523361375606014293409,38);
  (4715681873201458191678201077502520,38); (6356304458444886274227242440086676,38);
  (1676720511296490313489006538560243,37); (1999745077017551412107200794242549,37);
  (5156056929602422620955349196446622,37); (5450368439888927935206539981196897,37);
  (1396756220341318220773758568454151,36); (1311168096327479616641721662347481,36);
  (3387206785292088273182714852085899,36); (2829281560443390867711463242576672,36);
  (7455633907760558217787587700177074,36); (5551419199225410793499436630461974,36);
  (1507073596052167800960938621897520,35); (1001588440527184755023513152870419,35);
  (2824927443339915800388002301769048,35); (1676137592692812065284251884428791,35);
  (4948901751929946999678363032506408,35); (2618216473073093321349820357183158,35);
  (8152922181380836341297985631987294,35); (3833112974277827323016192472157398,35);
  (1269018827056103954579194461316248,34); (5270787318039204449548472285793671,35);
  (1872953299257289488345249832196418,34); (6811229927243418731529744385740667,35);
  (2628507901721353463258078641147064,34); (8267629227727791279747965450508148,35);
  (3516206573862054946874599791718986,34); (9416432463336890807754618204610930,35);
  (4494614807196701334588467265139165,34); (1005264594891559135368023973328661,34);
  (5505385192803298665411532734860837,34); (1005264594891559135368023973328661,34);
  (6483793426137945053125400208281014,34); (9416432463336890807754618204610930,35);
  (7371492098278646536741921358852936,34); (8267629227727791279747965450508148,35);
  (8127046700742710511654750167803582,34); (6811229927243418731529744385740666,35);
  (8730981172943896045420805538683751,34); (5270787318039204449548472285793671,35);
  (9184707781861916365870201436801271,34); (3833112974277827323016192472157398,35);
  (9505109824807005300032163696749359,34); (2618216473073093321349820357183158,35);
  (9717507255666008419961199769823095,34); (1676137592692812065284251884428791,35);
  (9849292640394783219903906137810248,34); (1001588440527184755023513152870419,35);
  (9925443660922394417822124122998229,34); (5551419199225410793499436630461974,36);
  (9966127932147079117268172851479141,34); (2829281560443390867711463242576674,36);
  (9986032437796586817792262414315459,34); (1311168096327479616641721662347481,36);
  (9994843943070397577379044650803554,34); (5450368439888927935206539981196897,37);
  (9998323279488703509686510993461439,34); (1999745077017551412107200794242549,37);
  (9999528431812679854180832179892250,34); (6356304458444886274227242440086676,38);
  (9999887683595158385065849954059008,34); (1713445193255523361375606014293409,38);
  (9999977879720484206904300049137389,34); (3823719876242102829950068057242329,39);
  (9999996493872738684905703441886620,34); (6873664030586062528934661240977784,40);
  (9999999566272970782041740544241182,34); (9650559517143454413474930860202040,41);
  (9999999959558978183220448433964181,34); (1021820857189645819080974676541492,41);
  (9999999997268119878399921891518250,34); (7841842081178392153040040981661186,43);
  (9999999999872174376755877233813654,34); (4169876816950784893224824624610279,44);
  (9999999999996063463720121353909763,34); (1459757537233999710631915954468288,45);
  (9999999999999924708741322187063044,34); (3174381385710910752739098882767994,47);
  (9999999999999999162754189074925717,34); (4014050634087158877367707014009114,49);
  (9999999999999999994978238316601902,34); (2738125045773192170369577438486912,51)].
Definition tanh_sinh_53 : list (Z * Z) := [
  (2551092710391237570429557492796548,52); (1392744081123005797318706059380961,51);
  (4300760837243179022060282719666226,50); (2068363489426488148060920676749621,49);
  (3938201497883421714314859736811327,48); (1668648001032720466863219914468350,47);
  (2107444505308738829048201038682209,46); (7868119827658718394469087527173078,46);
  (7029323797995999977138044890448664,45); (2312902124594945448504779918543971,44);
  (1546816368021537165128352549671894,43); (4486580537795592210619499340397745,43);
  (2360885527252091052854423193061260,42); (6038354682108007525281242227545017,42);
  (2612112547451231064125301502232264,41); (5893521109501895127601446714770068,41);
  (2178193922179227281772161078286025,40); (4337506071005987259912071520514882,40);
  (1416793263985274932278185897161484,39); (2491692216684986412488473549344232,39);
  (7409528774032519516460181365474889,39); (1151821305131795272127882569986068,38);
  (3200215815611242029995598214451050,38); (4401883767017857077127549461295345,38);
  (1168813334165394978292719894566556,37); (1424421311000631704240733888586928,37);
  (3685986301236631359211084278438494,37); (3986270334422655330719403513713087,37);
  (1022310925227293873883010875911501,36); (9828859272261750979114106780237340,37);
  (2534042763903724359484848667072232,36); (2170115896295930115370257081277515,36);
  (5692407965483842398752522316512528,36); (4350317365281077074564755793080837,36);
  (1172727335261605371369876865167761,35); (8009684367912210076757463030607581,36);
  (2237936784601236102093607659044182,35); (1366944940112693974564565653374327,35);
  (3988342512920621810367529956027956,35); (2177303386448783676393381954835558,35);
  (6681189801179708102850465107759706,35); (3252132792162483328008589675568333,35);
  (1057354911263224007191618978867968,34); (4567710865446503751881305615946682,35);
  (1586943223943733021064804765665762,34); (6039456265305013041266425476683549,35);
  (2265485766517434456796315911923880,34); (7516616110361188865624920126810660,35);
  (3083768786549507389466411350702044,34); (8798490020099890310969979525486358,35);
  (4011645560616839350482703181946135,34); (9675869916522456531776760095443275,35);
  (5000000000000000000000000000000000,34); (9988431274890060634814616955127119,35);
  (5988354439383160649517296818053865,34); (9675869916522456531776760095443275,35);
  (6916231213450492610533588649297957,34); (8798490020099890310969979525486358,35);
  (7734514233482565543203684088076120,34); (7516616110361188865624920126810660,35);
  (8413056776056266978935195234334238,34); (6039456265305013041266425476683549,35);
  (8942645088736775992808381021132032,34); (4567710865446503751881305615946684,35);
  (9331881019882029189714953489224030,34); (3252132792162483328008589675568332,35);
  (9601165748707937818963247004397205,34); (2177303386448783676393381954835558,35);
  (9776206321539876389790639234095581,34); (1366944940112693974564565653374327,35);
  (9882727266473839462863012313483225,34); (8009684367912210076757463030607581,36);
  (9943075920345161576012474776834875,34); (4350317365281077074564755793080837,36);
  (9974659572360962756405151513329278,34); (2170115896295930115370257081277515,36);
  (9989776890747727061261169891240884,34); (9828859272261750979114106780237338,37);
  (9996314013698763368640788915721561,34); (3986270334422655330719403513713087,37);
  (9998831186665834605021707280105434,34); (1424421311000631704240733888586928,37);
  (9999679978418438875797000440178554,34); (4401883767017857077127549461295338,38);
  (9999925904712259674804835398186345,34); (1151821305131795272127882569986069,38);
  (9999985832067360147250677218141028,34); (2491692216684986412488473549344232,39);
  (9999997821806077820772718227838922,34); (4337506071005987259912071520514882,40);
  (9999999738788745254876893587469849,34); (5893521109501895127601446714770068,41);
  (9999999976391144727479089471455768,34); (6038354682108007525281242227545034,42);
  (9999999998453183631978462834871647,34); (4486580537795592210619499340397745,43);
  (9999999999929706762020040000228620,34); (2312902124594945448504779918543971,44);
  (9999999999997892555494691261170952,34); (7868119827658718394469087527173078,46);
  (9999999999999960617985021165782856,34); (1668648001032720466863219914468350,47);
  (9999999999999999569923916275682098,34); (2068363489426488148060920676749621,49);
  (9999999999999999997448907289608763,34); (1392744081123005797318706059380961,51)].
Definition tanh_sinh_54 : list (Z * Z) := [
  (1298897215889553071659243618571848,52); (7099860590700519788223138704075199,52);
  (2213458739294444878732877420772119,50); (1067730314074709794224430112140813,49);
  (2062843266010832527019259892235326,48); (8782480988306505619112069298686619,48);
  (1129150775089957633232004955231957,46); (4243483152742671810037083235797966,46);
  (3866199730074740572370711718578271,45); (1282772799805379376317081807654749,44);
  (8754120345864276369972766692108883,44); (2564894763584400331494721599623822,43);
  (1376763629772929642218991170047188,42); (3563132473266652857480315745093271,42);
  (1570568059194544031830053377963436,41); (3591730639295749995599790563572788,41);
  (1350336236111249332898469794342559,40); (2730025785952956500811656261314270,40);
  (9051472421028517352037731608909207,40); (1618757964098582601037538094541517,39);
  (4874060070411943381614832847268502,39); (7716541187743024268719950103932798,39);
  (2165006980306845598039673659233942,38); (3037239749633694152242864577154301,38);
  (8120869069184256956487105965998427,38); (1010722916950244857051309984441901,37);
  (2626164710814588722463538454329371,37); (2903988583372599192715412801589307,37);
  (7456967951436457991719749056139972,37); (7338656256700912209592421633583452,37);
  (1889309814813832736300901460069308,36); (1657857734795615246759107015703771,36);
  (4331388044876284174149612506280919,36); (3395230525821022179781382545572030,36);
  (9094298755730851669726869980251481,36); (6378296424481648420635363483477149,36);
  (1766686502699549346489411668432540,35); (1109728184862528165155380606691467,35);
  (3202332559619972069841938985076625,35); (1801441190763428572448387145679640,35);
  (5453205587463561086654789649735728,35); (2742949793423721008051818445376698,35);
  (8770891021351454543654312880627598,35); (3930709761543951982035699472272398,35);
  (1337923755655846930038969195938622,34); (5310190471777346578703658081344253,35);
  (1941713980500552695309507679261984,34); (6765309538116665682569626459346401,35);
  (2687801893450265433288161102564730,34); (8123892031364076933347376686233242,35);
  (3556578469724639265314676232804803,34); (9185696671659401046744620508072968,35);
  (4508954870669529880200671479401728,34); (9770408165467205613235361054500011,35);
  (5491045129330470119799328520598272,34); (9770408165467205613235361054500011,35);
  (6443421530275360734685323767195197,34); (9185696671659401046744620508072968,35);
  (7312198106549734566711838897435270,34); (8123892031364076933347376686233242,35);
  (8058286019499447304690492320738017,34); (6765309538116665682569626459346401,35);
  (8662076244344153069961030804061378,34); (5310190471777346578703658081344253,35);
  (9122910897864854545634568711937240,34); (3930709761543951982035699472272398,35);
  (9454679441253643891334521035026428,34); (2742949793423721008051818445376698,35);
  (9679766744038002793015806101492338,34); (1801441190763428572448387145679640,35);
  (9823331349730045065351058833156746,34); (1109728184862528165155380606691467,35);
  (9909057012442691483302731300197486,34); (6378296424481648420635363483477149,36);
  (9956686119551237158258503874937191,34); (3395230525821022179781382545572028,36);
  (9981106901851861672636990985399307,34); (1657857734795615246759107015703771,36);
  (9992543032048563542008280250943859,34); (7338656256700912209592421633583452,37);
  (9997373835289185411277536461545671,34); (2903988583372599192715412801589307,37);
  (9999187913093081574304351289403400,34); (1010722916950244857051309984441902,37);
  (9999783499301969315440196032634076,34); (3037239749633694152242864577154297,38);
  (9999951259399295880566183851671527,34); (7716541187743024268719950103932776,39);
  (9999990948527578971482647962268392,34); (1618757964098582601037538094541517,39);
  (9999998649663763888750667101530206,34); (2730025785952956500811656261314270,40);
  (9999999842943194080545596816994661,34); (3591730639295749995599790563572788,41);
  (9999999986232363702270703577810088,34); (3563132473266652857480315745093270,42);
  (9999999999124587965413572363002724,34); (2564894763584400331494721599623822,43);
  (9999999999961338002699252594276292,34); (1282772799805379376317081807654750,44);
  (9999999999998870849224910042366768,34); (4243483152742671810037083235797966,46);
  (9999999999999979371567339891674730,34); (8782480988306505619112069298686619,48);
  (9999999999999999778654126070555512,34); (1067730314074709794224430112140813,49);
  (9999999999999999998701102784110447,34); (7099860590700519788223138704075199,52)].
Definition tanh_sinh_55 : list (Z * Z) := [
  (6627935837472191211718905345195968,53); (3627156005133468019384586630738156,52);
  (1141338847406555870436422706230521,50); (5521693249104416465064684593817752,50);
  (1082036720324373240687641536575711,48); (4628202856979998171995190533277658,48);
  (6054865190520566334102116248386448,47); (2290037263836398598389418142998555,46);
  (2126880191481806809234548883102772,45); (7114085693657922264911765970649467,45);
  (4952275077640363533150483593821641,44); (1465239826097466682354164380197300,43);
  (8020560176934406515516110719083767,43); (2099671871124570584409665959097189,42);
  (9428568584517799580613928076340925,42); (2184650699944358328532950897951737,41);
  (8354141225700891525181396743460283,41); (1714015931227040374080714701183816,40);
  (5768568617289890803269897768232959,40); (1048568006427349987924841779549304,39);
  (3197292682925910181642091919229177,39); (5152640230942645780200399341821471,39);
  (1460226430949180754744374298751067,38); (2088189061994735787918919760715174,38);
  (5624244888472092444388730996682322,38); (7144871820197005866843785915890761,38);
  (1864873092751563538048228484675281,37); (2107387340435871939448643605957565,37);
  (5421024562998386661908339819571183,37); (5457956266395597694541879054151143,37);
  (1403882697040252507997433550142884,36); (1261545815442954759412455844517484,36);
  (3284745730617596577745580507081916,36); (2639330072639194440636005964458281,36);
  (7028832375082519752078127133064442,36); (5058527704590838170587449525889984,36);
  (1389919176172071052275307429804364,35); (8970346395449860245022437514193559,36);
  (2562122309975224880765272404303259,35); (1483412495487001423190615830249391,35);
  (4434085808393042584081767782094755,35); (2301000792451312325006931154481794,35);
  (7245425680723208831921369840613166,35); (3361105874813491238014938939300428,35);
  (1122775302467932007538234236858035,34); (4633712437639238469251851247516555,35);
  (1655612449057092265684308894241439,34); (6034166806229720143743887777538628,35);
  (2329199715050792424562874009965298,34); (7420911965705695058634741284921106,35);
  (3133273102576939063210924411108892,34); (8611828581576741358468598762638151,35);
  (4038794454908071103350377401663629,34); (9421150108048630775264851832631629,35);
  (5000000000000000000000000000000000,34); (9708419542594532201675619713553982,35);
  (5961205545091928896649622598336371,34); (9421150108048630775264851832631629,35);
  (6866726897423060936789075588891109,34); (8611828581576741358468598762638151,35);
  (7670800284949207575437125990034703,34); (7420911965705695058634741284921106,35);
  (8344387550942907734315691105758561,34); (6034166806229720143743887777538628,35);
  (8877224697532067992461765763141964,34); (4633712437639238469251851247516557,35);
  (9275457431927679116807863015938683,34); (3361105874813491238014938939300429,35);
  (9556591419160695741591823221790525,34); (2301000792451312325006931154481794,35);
  (9743787769002477511923472759569673,34); (1483412495487001423190615830249391,35);
  (9861008082382792894772469257019563,34); (8970346395449860245022437514193559,36);
  (9929711676249174802479218728669355,34); (5058527704590838170587449525889984,36);
  (9967152542693824034222544194929181,34); (2639330072639194440636005964458281,36);
  (9985961173029597474920025664498570,34); (1261545815442954759412455844517485,36);
  (9994578975437001613338091660180428,34); (5457956266395597694541879054151143,37);
  (9998135126907248436461951771515325,34); (2107387340435871939448643605957565,37);
  (9999437575511152790755561126900332,34); (7144871820197005866843785915890761,38);
  (9999853977356905081924525562570125,34); (2088189061994735787918919760715174,38);
  (9999968027073170740898183579080808,34); (5152640230942645780200399341821471,39);
  (9999994231431382710109196730102232,34); (1048568006427349987924841779549304,39);
  (9999999164585877429910847481860325,34); (1714015931227040374080714701183816,40);
  (9999999905714314154822004193860720,34); (2184650699944358328532950897951737,41);
  (9999999991979439823065593484483890,34); (2099671871124570584409665959097189,42);
  (9999999999504772492235963646684953,34); (1465239826097466682354164380197304,43);
  (9999999999978731198085181931907654,34); (7114085693657922264911765970649467,45);
  (9999999999999394513480947943366590,34); (2290037263836398598389418142998555,46);
  (9999999999999989179632796756267592,34); (4628202856979998171995190533277658,48);
  (9999999999999999885866115259344413,34); (5521693249104416465064684593817752,50);
  (9999999999999999999337206416252780,34); (3627156005133468019384586630738133,52)].
Definition tanh_sinh_56 : list (Z * Z) := [
  (3389333594774538461961631483501732,53); (1856944583263262129668927044336548,52);
  (5896014912746533490558915281659975,51); (2860518168914139693379885642908572,50);
  (5683525635754617547189986318582510,49); (2442001306800953603242404730526530,48);
  (3249496885722215219268249929888959,47); (1236623975959329438354522039074986,46);
  (1170312121196234653552447762697199,45); (3945321535807872251709786167591086,45);
  (2800503044852683292789953881142961,44); (8364878280963244763705302246275680,44);
  (4668083114459817973459212164786207,43); (1235696078643141034376950180481657,42);
  (5651867575004017210042942388399934,42); (1326326176229664181311817560470186,41);
  (5158373057799117104793879581748578,41); (1073566892859176324802391434150602,40);
  (3667676073900573948069736660584900,40); (6773058562705461916657344435570680,40);
  (2091715652428637459247348429045418,39); (3429669766642741408793376592466579,39);
  (9819677096157187792434771939775105,39); (1430717308181721905714296191831599,38);
  (3882950204040984433290718867047570,38); (5032272437104089259731974367721340,38);
  (1319966023727163740314258452118086,37); (1523522922787006546127569439311875,37);
  (3927925352641208765910133630257155,37); (4043654086903312477462445906782436,37);
  (1039722305032857887843482990004891,36); (9562709574635396989390762724402289,37);
  (2482798032348156975638316209490227,36); (2043770742689456600032225078089554,36);
  (5414596269425413527272714940759358,36); (3996028005108093742384607675354911,36);
  (1089875427585923237849891531289682,35); (7221253357918280025858125721947517,36);
  (2042912817788770823547018236485290,35); (1216103365384050512820504972285475,35);
  (3592457830557977162926721458023980,35); (1920641043566140174812877043940075,35);
  (5961981001742072419609282589315503,35); (2857454260055350089269104388818846,35);
  (9381743665008670440124287336514654,35); (4015815907419345433793665868763264,35);
  (1404893642952455207736479680401965,34); (5338289063968758614210701346173756,35);
  (2007641840591725769406285266500040,34); (6713403267915741854016949668442510,35);
  (2744070436251581250919777855527607,34); (7982626407104034366361455988544310,35);
  (3594625020661534124211088743446613,34); (8966255681537210009846615237984167,35);
  (4522421657767126215848698537048223,34); (9505121044990215168721876776320910,35);
  (5477578342232873784151301462951777,34); (9505121044990215168721876776320910,35);
  (6405374979338465875788911256553387,34); (8966255681537210009846615237984167,35);
  (7255929563748418749080222144472392,34); (7982626407104034366361455988544313,35);
  (7992358159408274230593714733499960,34); (6713403267915741854016949668442510,35);
  (8595106357047544792263520319598035,34); (5338289063968758614210701346173755,35);
  (9061825633499132955987571266348535,34); (4015815907419345433793665868763264,35);
  (9403801899825792758039071741068450,34); (2857454260055350089269104388818845,35);
  (9640754216944202283707327854197602,34); (1920641043566140174812877043940075,35);
  (9795708718221122917645298176351471,34); (1216103365384050512820504972285475,35);
  (9891012457241407676215010846871032,34); (7221253357918280025858125721947517,36);
  (9945854037305745864727272850592407,34); (3996028005108093742384607675354911,36);
  (9975172019676518430243616837905098,34); (2043770742689456600032225078089554,36);
  (9989602776949671421121565170099951,34); (9562709574635396989390762724402289,37);
  (9996072074647358791234089866369744,34); (4043654086903312477462445906782436,37);
  (9998680033976272836259685741547881,34); (1523522922787006546127569439311875,37);
  (9999611704979595901556670928113295,34); (5032272437104089259731974367721340,38);
  (9999901803229038428122075652280602,34); (1430717308181721905714296191831599,38);
  (9999979082843475713625407526515709,34); (3429669766642741408793376592466579,39);
  (9999996332323926099426051930263340,34); (6773058562705461916657344435570678,40);
  (9999999484162694220088289520612041,34); (1073566892859176324802391434150602,40);
  (9999999943481324249959827899570576,34); (1326326176229664181311817560470190,41);
  (9999999995331916885540182026540788,34); (1235696078643141034376950180481657,42);
  (9999999999719949695514731670721004,34); (8364878280963244763705302246275684,44);
  (9999999999988296878788037653464475,34); (3945321535807872251709786167591086,45);
  (9999999999999675050311427778478072,34); (1236623975959329438354522039074986,46);
  (9999999999999994316474364245382452,34); (2442001306800953603242404730526530,48);
  (9999999999999999941039850872534664,34); (2860518168914139693379885642908555,50);
  (9999999999999999999661066640522546,34); (1856944583263262129668927044336548,52)].
Definition tanh_sinh_57 : list (Z * Z) := [
  (1736846018289084014308335860494833,53); (9526364504701836351930918457200336,53);
  (3051319428708338863052033417557101,51); (1484448159854914254026370841200243,50);
  (2989415918337983692579410243451082,49); (1290069926112017120333096811127662,48);
  (1745375117986284293186984995866201,47); (6682109811759975300805614690582516,47);
  (6441267806910647405047956488499373,46); (2188041548103604870645215308312894,45);
  (1583163250651902084143046239340541,44); (4772515596806536719502528698177287,44);
  (2714483982322252605205246291905413,43); (7263492835957877096623282609672327,43);
  (3383194610374651861644939358286422,42); (8037992311146663881009137068856845,42);
  (3179141338672264827845274056905494,41); (6708916402866726344139431633769132,41);
  (2326616211201447928436369293922859,40); (4363062239272885029665794300716010,40);
  (1364860521688414944988932077829720,39); (2275803412304465494734036896634754,39);
  (6584534506351693841835445888948527,39); (9769526080466029650589345752479283,39);
  (2672555788878736438415240411884423,38); (3531666688609758748854020254807459,38);
  (9313001101698018964579591312033767,38); (1097343446668428478993031108189585,37);
  (2836814225411134451939871442134097,37); (2984545215862164323825327499560134,37);
  (7675078551966071475152044039326617,37); (7221205095544943657601795158478346,37);
  (1870533999901183470111570254153768,36); (1576585636602438791119543557905135,36);
  (4157585183693411356749024465529658,36); (3144584159589413052805838031202061,36);
  (8518313947092930317729018633520187,36); (5790220595522303182825693798303193,36);
  (1623541870777283710986176159281232,35); (9927714928566314213736535315500841,36);
  (2900564427157940391125847743767568,35); (1595722034590778501374371097339527,35);
  (4887839531681206923805679223023672,35); (2416416838671024491050144622716663,35);
  (7807713854379631499760518215806010,35); (3458756762270777901938965612632263,35);
  (1186820672677423223342929662846159,34); (4687987024489313554909307473128588,35);
  (1721866695971384532977633238152199,34); (6020458254503776342958834796808841,35);
  (2389974761701753982942291056537195,34); (7323635108116555573116747282227347,35);
  (3180105648741104807628024354144810,34); (8432127870135587461328017976084290,35);
  (4064349803793244334455246623740055,34); (9180524242676322876146967797604393,35);
  (5000000000000000000000000000000000,34); (9445285948656173536085403534535661,35);
  (5935650196206755665544753376259945,34); (9180524242676322876146967797604393,35);
  (6819894351258895192371975645855191,34); (8432127870135587461328017976084290,35);
  (7610025238298246017057708943462805,34); (7323635108116555573116747282227347,35);
  (8278133304028615467022366761847801,34); (6020458254503776342958834796808842,35);
  (8813179327322576776657070337153840,34); (4687987024489313554909307473128588,35);
  (9219228614562036850023948178419400,34); (3458756762270777901938965612632263,35);
  (9511216046831879307619432077697633,34); (2416416838671024491050144622716663,35);
  (9709943557284205960887415225623244,34); (1595722034590778501374371097339527,35);
  (9837645812922271628901382384071877,34); (9927714928566314213736535315500843,36);
  (9914816860529070696822709813664798,34); (5790220595522303182825693798303193,36);
  (9958424148163065886432509755344704,34); (3144584159589413052805838031202060,36);
  (9981294660000988165298884297458462,34); (1576585636602438791119543557905135,36);
  (9992324921448033928524847955960674,34); (7221205095544943657601795158478346,37);
  (9997163185774588865548060128557867,34); (2984545215862164323825327499560134,37);
  (9999068699889830198103542040868796,34); (1097343446668428478993031108189585,37);
  (9999732744421112126356158475958812,34); (3531666688609758748854020254807459,38);
  (9999934154654936483061581645541110,34); (9769526080466029650589345752479283,39);
  (9999986351394783115850550110679222,34); (2275803412304465494734036896634754,39);
  (9999997673383788798552071563630707,34); (4363062239272885029665794300716010,40);
  (9999999682085866132773517215472595,34); (6708916402866726344139431633769132,41);
  (9999999966168053896253481383550605,34); (8037992311146663881009137068856845,42);
  (9999999997285516017677747394794754,34); (7263492835957877096623282609672348,43);
  (9999999999841683674934809791585696,34); (4772515596806536719502528698177286,44);
  (9999999999993558732193089352594953,34); (2188041548103604870645215308312894,45);
  (9999999999999825462488201371570680,34); (6682109811759975300805614690582516,47);
  (9999999999999997010584081662016307,34); (1290069926112017120333096811127662,48);
  (9999999999999999969486805712916611,34); (1484448159854914254026370841200243,50);
  (9999999999999999999826315398171092,34); (9526364504701836351930918457200392,53)].
Definition tanh_sinh_58 : list (Z * Z) := [
  (8918640072504932716587064157048497,54); (4897010762598831819952168344836543,53);
  (1581928121493090004258999348757151,51); (7716490361217364077038487247457349,51);
  (1574491276833001336750981638823473,49); (6823541884252177869211822841518800,49);
  (9382615865237585183882962480267625,48); (3613062924809433737435597914651517,47);
  (3546191601433242323734531143899435,46); (1213537899973216766470969274282513,45);
  (8947297559468057747384159623628606,45); (2721419461366081855195491604020739,44);
  (1577159868171774030937919346651248,43); (4264656507970663224085383896708171,43);
  (2022464546827969210146083153370115,42); (4863072491481445725474448009652985,42);
  (1955810652597662346333437069258675,41); (4183364968771923428607352725110088,41);
  (1472668458583960244054850808866971,40); (2803235484997434030783342869042005,40);
  (8883313821997175305545042593751443,40); (1505637947947603171691350113743176,39);
  (4402892337792805522981846802990323,39); (6649216284833510044890951389772334,39);
  (1833962481401725678398274725801326,38); (2469899870100930508559445988034413,38);
  (6550243533914986406931817775681847,38); (7875150731019291223269416177423831,38);
  (2042244211721662152566090260004441,37); (2194684235811393788131411581842379,37);
  (5647380926716220364706707748654628,37); (5432708224518328822910086307212298,37);
  (1404729933829423745224995849762083,36); (1211655319573121127624264672850052,36);
  (3182209796064338296793050237793088,36); (2465280180074103285142143959119337,36);
  (6636618265674607606959976645948778,36); (4625011784792556642742448516277046,36);
  (1286114913682220276025218224024061,35); (8072039920992769268895376424527628,36);
  (2334173485309552060344426458681221,35); (1320004293664464832845872977941812,35);
  (3993207881368531782099461533734889,35); (2033465603467472827014133434443598,35);
  (6473186939458089375010162886553148,35); (2962134455585399799618672460609481,35);
  (9984196089328219337518025092839149,35); (4089515134452570447708002470092849,35);
  (1469930215324581701572917804542731,34); (5356520270155580273934880871568503,35);
  (2070875755078041348909493494602574,34); (6656706033447348119824478117946344,35);
  (2797533585289954028264944836664393,34); (7844178614270032578879099118623696,35);
  (3630545649445176704639659572624540,34); (8757354519457462037320677998681280,35);
  (4535095272086110391183415407051375,34); (9255255146808630190881813520834646,35);
  (5464904727913889608816584592948625,34); (9255255146808630190881813520834646,35);
  (6369454350554823295360340427375460,34); (8757354519457462037320677998681280,35);
  (7202466414710045971735055163335606,34); (7844178614270032578879099118623696,35);
  (7929124244921958651090506505397426,34); (6656706033447348119824478117946344,35);
  (8530069784675418298427082195457269,34); (5356520270155580273934880871568503,35);
  (9001580391067178066248197490716085,34); (4089515134452570447708002470092849,35);
  (9352681306054191062498983711344686,34); (2962134455585399799618672460609481,35);
  (9600679211863146821790053846626511,34); (2033465603467472827014133434443598,35);
  (9766582651469044793965557354131878,34); (1320004293664464832845872977941812,35);
  (9871388508631777972397478177597595,34); (8072039920992769268895376424527628,36);
  (9933633817343253923930400233540512,34); (4625011784792556642742448516277046,36);
  (9968177902039356617032069497622070,34); (2465280180074103285142143959119337,36);
  (9985952700661705762547750041502379,34); (1211655319573121127624264672850052,36);
  (9994352619073283779635293292251345,34); (5432708224518328822910086307212298,37);
  (9997957755788278337847433909739994,34); (2194684235811393788131411581842379,37);
  (9999344975646608501359306818222432,34); (7875150731019291223269416177423831,38);
  (9999816603751859827432160172527420,34); (2469899870100930508559445988034413,38);
  (9999955971076622071944770181531970,34); (6649216284833510044890951389772336,39);
  (9999991116686178002824694454957407,34); (1505637947947603171691350113743176,39);
  (9999998527331541416039755945149192,34); (2803235484997434030783342869042005,40);
  (9999999804418934740233765366656294,34); (4183364968771923428607352725110090,41);
  (9999999979775354531720307898539168,34); (4863072491481445725474448009652985,42);
  (9999999998422840131828225969062081,34); (4264656507970663224085383896708171,43);
  (9999999999910527024405319422526158,34); (2721419461366081855195491604020739,44);
  (9999999999996453808398566757676265,34); (1213537899973216766470969274282513,45);
  (9999999999999906173841347624148162,34); (3613062924809433737435597914651517,47);
  (9999999999999998425508723166998664,34); (6823541884252177869211822841518800,49);
  (9999999999999999984180718785069101,34); (7716490361217364077038487247457349,51);
  (9999999999999999999910813599274951,34); (4897010762598831819952168344836573,53)].
Definition tanh_sinh_59 : list (Z * Z) := [
  (4588877201168353062016180765917596,54); (2522268857455706345971047730864414,53);
  (8215634910972349290651960730947473,52); (4017871249374215715680485273654285,51);
  (8303713217282591008316676559130631,50); (3613524689652397855501011943778250,49);
  (5048039113562532303754679507652099,48); (1954915354162037735126346428220492,47);
  (1952916472030771334157508009523714,46); (6731153136131029353102173664191021,46);
  (5055355252268304036893512507743057,45); (1551051437194372097010153219514861,44);
  (9156457960951529916518789653021008,44); (2501248052530554138000484784030569,43);
  (1207487276385546061233723749437680,42); (2937481017147931252767524994418010,42);
  (1201146696635781373916157312610623,41); (2603086594061243147084488579087517,41);
  (9301780383671189464480583062654045,41); (1796515901530483194495519382368022,40);
  (5767633441504594909789793021627296,40); (9932347934688219057323317747082358,40);
  (2936093198651869701206438188399240,39); (4511132383322817136745392577730663,39);
  (1254827326426643784884655122584456,38); (1721475815582486292441936912914659,38);
  (4592971064101867578208011847237710,38); (5631597734468340807794199040793328,38);
  (1465605541400019704340096259793492,37); (1607996264897499850513651242177904,37);
  (4142189931921901061736070020137791,37); (4072184330948431879470755494566251,37);
  (1051576366701439753264880177047954,36); (9277765500372002886433413389074023,37);
  (2427992627708332054797519692816417,36); (1925618345707645478426896189214401,36);
  (5154414195229401126692234906277587,36); (3680544137909618959561989096074271,36);
  (1015619298010435048353188761906531,35); (6537958908663174446879577996401276,36);
  (1872364780644718323149689580417908,35); (1087437691653586085460604465676550,35);
  (3251412372408936190744516791422562,35); (1703424591534785876138323819021320,35);
  (5347564640718289954681056936822894,35); (2523658844323756933853342394615262,35);
  (8366454438587513171235633310905090,35); (3545853661625122568169666135653451,35);
  (1249435176319586717262704500807552,34); (4731795423499914648931059293897421,35);
  (1785782776368382233587032992599697,34); (5999628401249964600350201050945775,35);
  (2447994648254835507055280251827087,34); (7225531991390741967186366120617847,35);
  (3224478237865702605725776920407950,34); (8259164971535332012838929999342509,35);
  (4088452050847771610226969457271641,34); (8952840590226919758767981084528537,35);
  (5000000000000000000000000000000000,34); (9197495667750752586016247508626624,35);
  (5911547949152228389773030542728358,34); (8952840590226919758767981084528537,35);
  (6775521762134297394274223079592049,34); (8259164971535332012838929999342509,35);
  (7552005351745164492944719748172913,34); (7225531991390741967186366120617847,35);
  (8214217223631617766412967007400303,34); (5999628401249964600350201050945775,35);
  (8750564823680413282737295499192448,34); (4731795423499914648931059293897421,35);
  (9163354556141248682876436668909491,34); (3545853661625122568169666135653451,35);
  (9465243535928171004531894306317711,34); (2523658844323756933853342394615262,35);
  (9674858762759106380925548320857745,34); (1703424591534785876138323819021320,35);
  (9812763521935528167685031041958209,34); (1087437691653586085460604465676550,35);
  (9898438070198956495164681123809346,34); (6537958908663174446879577996401276,36);
  (9948455858047705988733077650937224,34); (3680544137909618959561989096074270,36);
  (9975720073722916679452024803071835,34); (1925618345707645478426896189214401,36);
  (9989484236332985602467351198229521,34); (9277765500372002886433413389074025,37);
  (9995857810068078098938263929979861,34); (4072184330948431879470755494566251,37);
  (9998534394458599980295659903740207,34); (1607996264897499850513651242177904,37);
  (9999540702893589813242179198815276,34); (5631597734468340807794199040793335,38);
  (9999874517267357335621511534487742,34); (1721475815582486292441936912914659,38);
  (9999970639068013481302987935618116,34); (4511132383322817136745392577730663,39);
  (9999994232366558495405090210206979,34); (9932347934688219057323317747082358,40);
  (9999999069821961632881053551941694,34); (1796515901530483194495519382368022,40);
  (9999999879885330336421862608384269,34); (2603086594061243147084488579087517,41);
  (9999999987925127236144539387662762,34); (2937481017147931252767524994418010,42);
  (9999999999084354203904847008348121,34); (2501248052530554138000484784030561,43);
  (9999999999949446447477316959631064,34); (1551051437194372097010153219514861,44);
  (9999999999998047083527969228665842,34); (6731153136131029353102173664191021,46);
  (9999999999999949519608864374676962,34); (1954915354162037735126346428220491,47);
  (9999999999999999169628678271740900,34); (3613524689652397855501011943778272,49);
  (9999999999999999991784365089027650,34); (4017871249374215715680485273654309,51);
  (9999999999999999999954111227988316,34); (2522268857455706345971047730864414,53)].
Definition tanh_sinh_60 : list (Z * Z) := [
  (2365732556377263121806879748792999,54); (1301636527071806549314188638785091,53);
  (4274020961184638406763401615708287,52); (2095467671680664938531232561122840,51);
  (4385058961461715632726850931419904,50); (1915896181512056860188372580848474,49);
  (2718228020599657728024056835821211,48); (1058461113046200881750209334037104,47);
  (1075832104353562827958364435735485,46); (3734020584129521577507757407256193,46);
  (2855756503658610679518655337177176,45); (8836095058105018077926003424496542,45);
  (5312085514371146266093890562049786,44); (1465519335284870677563219065818626,43);
  (7200445787412442140465753608267280,43); (1771634638843686793491930342313438,42);
  (7364591583547885957737133489056327,42); (1616511119778159984140847351390702,41);
  (5863288640497553008942995354671514,41); (1148539855398125420790613812854706,40);
  (3735855567305776350103862832647979,40); (6533860050101829503750935827345458,40);
  (1952780487294110206253843725156474,39); (3051116815553907391240534201402643,39);
  (8561270409661933013192768731870433,39); (1195864271361647644549807337432703,38);
  (3210894792650341293099238907677475,38); (4013234053050274265731367721357954,38);
  (1048535060906606010995838003738475,37); (1173941714400461786912685551347941,37);
  (3028667883962931524499218273811805,37); (3041366161063825980640115162924391,37);
  (7847420395935738364996929368006713,37); (7078403459762163375893782528284492,37);
  (1846773857069861998454822450574553,36); (1498660899593175931604296633294976,36);
  (3990899845107397166765776533098834,36); (2918308599870868039894299519103941,36);
  (7995468585875511128415114309481627,36); (5275738074090692848559146342651290,36);
  (1497247010206629955403999035023501,35); (8923395730419784100850488822256261,36);
  (2638901207427330648170529022839546,35); (1420870669651025132890011963967205,35);
  (4402650061836982804115842739800458,35); (2139784275822275526504033793274607,35);
  (6985052473608469301824141453806874,35); (3057458077678369572250941111573631,35);
  (1057723772579329288422626454092137,34); (4152831212781215805882271203181693,35);
  (1533050669171756604293616786087838,34); (5366152135597947813892794337505469,35);
  (2131550940174554323356645099926844,34); (6596217816962992979583952125323289,35);
  (2848391821746325424153015406901090,34); (7708789664818067829590157299259053,35);
  (3664517514623989719281221915529829,34); (8558293644243324950826714371067786,35);
  (4547046149050901560970026516124970,34); (9019462215438236914902751880886812,35);
  (5452953850949098439029973483875030,34); (9019462215438236914902751880886812,35);
  (6335482485376010280718778084470170,34); (8558293644243324950826714371067786,35);
  (7151608178253674575846984593098911,34); (7708789664818067829590157299259053,35);
  (7868449059825445676643354900073157,34); (6596217816962992979583952125323289,35);
  (8466949330828243395706383213912162,34); (5366152135597947813892794337505469,35);
  (8942276227420670711577373545907864,34); (4152831212781215805882271203181692,35);
  (9301494752639153069817585854619312,34); (3057458077678369572250941111573631,35);
  (9559734993816301719588415726019954,34); (2139784275822275526504033793274607,35);
  (9736109879257266935182947097716046,34); (1420870669651025132890011963967205,35);
  (9850275298979337004459600096497651,34); (8923395730419784100850488822256261,36);
  (9920045314141244888715848856905183,34); (5275738074090692848559146342651290,36);
  (9960091001548926028332342234669012,34); (2918308599870868039894299519103942,36);
  (9981532261429301380015451775494254,34); (1498660899593175931604296633294976,36);
  (9992152579604064261635003070631994,34); (7078403459762163375893782528284492,37);
  (9996971332116037068475500781726188,34); (3041366161063825980640115162924391,37);
  (9998951464939093393989004161996261,34); (1173941714400461786912685551347941,37);
  (9999678910520734965870690076109233,34); (4013234053050274265731367721357948,38);
  (9999914387295903380669868072312681,34); (1195864271361647644549807337432701,38);
  (9999980472195127058897937461562749,34); (3051116815553907391240534201402643,39);
  (9999996264144432694223649896137168,34); (6533860050101829503750935827345458,40);
  (9999999413671135950244699105700465,34); (1148539855398125420790613812854706,40);
  (9999999926354084164521140422628665,34); (1616511119778159984140847351390702,41);
  (9999999992799554212587557859534246,34); (1771634638843686793491930342313438,42);
  (9999999999468791448562885373390610,34); (1465519335284870677563219065818621,43);
  (9999999999971442434963413893204814,34); (8836095058105018077926003424496542,45);
  (9999999999998924167895646437172042,34); (3734020584129521577507757407256193,46);
  (9999999999999972817719794003422719,34); (1058461113046200881750209334037104,47);
  (9999999999999999561494103853828436,34); (1915896181512056860188372580848474,49);
  (9999999999999999995725979038815362,34); (2095467671680664938531232561122840,51);
  (9999999999999999999976342674436228,34); (1301636527071806549314188638785091,53)].
Definition tanh_sinh_61 : list (Z * Z) := [
  (1221962657130277428452243421018582,54); (6729896351610595347340234178992209,54);
  (2227201788836336526221911595222692,52); (1094617444408437491621891677525391,51);
  (2318688847061634856802621576638096,50); (1017016186469881039757980149400465,49);
  (1464920067602134716409023349991660,48); (5734821143598208374782269682093706,48);
  (5928608303938233341090847666617342,47); (2071700263808165149162211997014046,46);
  (1612929901378450050262818076630453,45); (5031734081722918521304835696426173,45);
  (3079708678739164782840585486914737,44); (8578569891248283635752911161021480,44);
  (4288817862260539901033452767468220,43); (1066940136139754632318114671859906,42);
  (4508317655495572606462215765279735,42); (1001917939926557833331376551179895,41);
  (3688609284137272474057215471085312,41); (7325602354782102153307957065180950,41);
  (2414266463616127369330177081911474,40); (4286610228300704035912878065766183,40);
  (1295451630241245491755859623283899,39); (2057450333314946573820363983027643,39);
  (5824836249748081362350178404762320,39); (8280550284168373486135631198183922,39);
  (2238113826685632574800881868785258,38); (2850237212903911412004943088299247,38);
  (7478754155499303026228883107906015,38); (8540552905809509469151040811895823,38);
  (2207660516689615854589397957505651,37); (2263423901133835687670681204786848,37);
  (5838057936567417467538777470432332,37); (5381192773944715300702072703978305,37);
  (1400373324456793789824451537228258,36); (1162227371376233122126021116413578,36);
  (3080624936604032746897304571163065,36); (2305700898586471623027991233236784,36);
  (6275399631381952793522562903318516,36); (4241834073374029855945885601416598,36);
  (1193642985469835757554577931912696,35); (7294968834641469476426304200589059,36);
  (2135117468424328073190411085587841,35); (1180417214471876330268039172207880,35);
  (3612913328600269532038689546558709,35); (1806212001255177526159478651238241,35);
  (5811442973883374360429629144084922,35); (2622928592308439404306402681805133,35);
  (8920316158417804367867726618842056,35); (3623159267735032042393691113801457,35);
  (1310583499091782863392153691356088,34); (4766280126256631797560868444234215,35);
  (1847442354772140830889178475930631,34); (5972793141803173667194087117204511,35);
  (2503430601349840889150206248478845,34); (7127201595649360163225956049420192,35);
  (3266581171597719139249452517737018,34); (8092695319260927596021586756641629,35);
  (4111225394297290091879289175861928,34); (8737068672780951958345405379097504,35);
  (5000000000000000000000000000000000,34); (8963697768659452899711121123448408,35);
  (5888774605702709908120710824138072,34); (8737068672780951958345405379097504,35);
  (6733418828402280860750547482262983,34); (8092695319260927596021586756641629,35);
  (7496569398650159110849793751521155,34); (7127201595649360163225956049420190,35);
  (8152557645227859169110821524069369,34); (5972793141803173667194087117204511,35);
  (8689416500908217136607846308643912,34); (4766280126256631797560868444234215,35);
  (9107968384158219563213227338115795,34); (3623159267735032042393691113801457,35);
  (9418855702611662563957037085591508,34); (2622928592308439404306402681805133,35);
  (9638708667139973046796131045344128,34); (1806212001255177526159478651238241,35);
  (9786488253157567192680958891441215,34); (1180417214471876330268039172207880,35);
  (9880635701453016424244542206808729,34); (7294968834641469476426304200589059,36);
  (9937246003686180472064774370966815,34); (4241834073374029855945885601416598,36);
  (9969193750633959672531026954288369,34); (2305700898586471623027991233236785,36);
  (9985996266755432062101755484627718,34); (1162227371376233122126021116413578,36);
  (9994161942063432582532461222529568,34); (5381192773944715300702072703978305,37);
  (9997792339483310384145410602042495,34); (2263423901133835687670681204786848,37);
  (9999252124584450069697377111689208,34); (8540552905809509469151040811895820,38);
  (9999776188617331436742519911813121,34); (2850237212903911412004943088299250,38);
  (9999941751637502519186376498215954,34); (8280550284168373486135631198183922,39);
  (9999987045483697587545082441403769,34); (2057450333314946573820363983027643,39);
  (9999997585733536383872630669822919,34); (4286610228300704035912878065766183,40);
  (9999999631139071586272752594278452,34); (7325602354782102153307957065180950,41);
  (9999999954916823445044273935377843,34); (1001917939926557833331376551179895,41);
  (9999999995711182137739460098966547,34); (1066940136139754632318114671859906,42);
  (9999999999692029132126083521715941,34); (8578569891248283635752911161021480,44);
  (9999999999983870700986215499497372,34); (5031734081722918521304835696426173,45);
  (9999999999999407139169606176665891,34); (2071700263808165149162211997014045,46);
  (9999999999999985350799323978652837,34); (5734821143598208374782269682093706,48);
  (9999999999999999768131115293836515,34); (1017016186469881039757980149400464,49);
  (9999999999999999997772798211163663,34); (1094617444408437491621891677525391,51);
  (9999999999999999999987780373428698,34); (6729896351610595347340234178992211,54)].
Definition tanh_sinh_62 : list (Z * Z) := [
  (6323618429097659051758046814553507,55); (3486022981746221838212643492236419,54);
  (1162509726509066775062990251314336,52); (5727014276764444225937423446923917,52);
  (1227627087330559726513336617633584,50); (5404976730041513173873644145838686,50);
  (7901454282912183602648743133135351,49); (3109323566941951511871611333328643,48);
  (3268254686013075945094469725073970,47); (1149611623512629907274502988374836,46);
  (9108542199840879319246006222817229,46); (2864287589169835675184759981456299,45);
  (1784355662446153747874963020496341,44); (5017089953169878000767233797436882,44);
  (2551774246571525532760574514553727,43); (6416574917310016488035390065506780,43);
  (2755638411797601965443635937520972,42); (6198457448052989477830989765243781,42);
  (2316120746543733520538010700556396,41); (4661870393370779880490187750209759,41);
  (1556736088338770842734847287660707,40); (2804935862264975561465408661915330,40);
  (8572447393959204097012165842660225,40); (1383360374928837402399439985600332,39);
  (3952306580515599055895143227302320,39); (5715697746694137622959080733630317,39);
  (1555569928279717748358371775980959,38); (2017551069994449971971227953647899,38);
  (5318390030855568661767746623744381,38); (6192027676292986209780018196528395,38);
  (1604325416469694454571741666911697,37); (1678589950644657547799920585821177,37);
  (4329946973524312144659356829721085,37); (4076581082066191716607040476808274,37);
  (1058651693093970425239380482422081,36); (8981658779990824768023629088779206,37);
  (2370822727871039009886881288416239,36); (1815328786858828620177808124486349,36);
  (4910692384081553618259862768765380,36); (3398543236451688512523668232127959,36);
  (9487688506688841018032007828069344,36); (5942136903519972941835326860565883,36);
  (1722292280347987024107519235464669,35); (9769046742132696046664326818201336,36);
  (2955568855272595340778084487951815,35); (1518272998251814163651596571449647,35);
  (4819017828660112535145462238802299,35); (2239577925282508934643335095496204,35);
  (7496051203531214999802341065619254,35); (3143930222462663267539418519028962,35);
  (1116008855705719997910399992173299,34); (4206721114796285394877003806293723,35);
  (1594283942102103558145213328135101,34); (5368301349422156954325171212688358,35);
  (2189797865683651143055032304195055,34); (6532775635028291672988549165060432,35);
  (2896827946507481700208407685222886,34); (7576618953252659534175987353661785,35);
  (3696698524002700004622627288521097,34); (8368426120278444159275892070275750,35);
  (4558336485745077285334500148310198,34); (8796548931087549610185575225201670,35);
  (5441663514254922714665499851689802,34); (8796548931087549610185575225201670,35);
  (6303301475997299995377372711478903,34); (8368426120278444159275892070275750,35);
  (7103172053492518299791592314777114,34); (7576618953252659534175987353661785,35);
  (7810202134316348856944967695804945,34); (6532775635028291672988549165060431,35);
  (8405716057897896441854786671864899,34); (5368301349422156954325171212688358,35);
  (8883991144294280002089600007826702,34); (4206721114796285394877003806293723,35);
  (9250394879646878500019765893438074,34); (3143930222462663267539418519028962,35);
  (9518098217133988746485453776119771,34); (2239577925282508934643335095496204,35);
  (9704443114472740465922191551204817,34); (1518272998251814163651596571449647,35);
  (9827770771965201297589248076453534,34); (9769046742132696046664326818201336,36);
  (9905123114933111589819679921719307,34); (5942136903519972941835326860565883,36);
  (9950893076159184463817401372312346,34); (3398543236451688512523668232127959,36);
  (9976291772721289609901131187115837,34); (1815328786858828620177808124486349,36);
  (9989413483069060295747606195175778,34); (8981658779990824768023629088779206,37);
  (9995670053026475687855340643170279,34); (4076581082066191716607040476808274,37);
  (9998395674583530305545428258333088,34); (1678589950644657547799920585821177,37);
  (9999468160996914443133823225337626,34); (6192027676292986209780018196528395,38);
  (9999844443007172028225164162822402,34); (2017551069994449971971227953647895,38);
  (9999960476934194844009441048567726,34); (5715697746694137622959080733630316,39);
  (9999991427552606040795902987834158,34); (1383360374928837402399439985600332,39);
  (9999998443263911661229157265152713,34); (2804935862264975561465408661915330,40);
  (9999999768387925345626647946198931,34); (4661870393370779880490187750209760,41);
  (9999999972443615882023980345563640,34); (6198457448052989477830989765243781,42);
  (9999999997448225753428474467239426,34); (6416574917310016488035390065506780,43);
  (9999999999821564433755384625212502,34); (5017089953169878000767233797436882,44);
  (9999999999990891457800159120680755,34); (2864287589169835675184759981456299,45);
  (9999999999999673174531398692405490,34); (1149611623512629907274502988374836,46);
  (9999999999999992098545717087816398,34); (3109323566941951511871611333328643,48);
  (9999999999999999877237291266944028,34); (5404976730041513173873644145838686,50);
  (9999999999999999998837490273490933,34); (5727014276764444225937423446923917,52);
  (9999999999999999999993676381570902,34); (3486022981746221838212643492236419,54)].
Definition tanh_sinh_63 : list (Z * Z) := [
  (3278474620350577015222420651009246,55); (1809001319742291815919156148067992,54);
  (6077638371072640503460278448142594,53); (3001007321098138223461160925268459,52);
  (6507894571127863398408354120059589,51); (2875841545799938670629085634988706,50);
  (4265452703410091702509941847773854,49); (1687002246552281054916073375911954,48);
  (1802356850698682038538539174026386,47); (6380572422045627831263673224460556,47);
  (5143215520774433829305308903277550,46); (1629951350378364154441147741193750,45);
  (1033236104066942308518942608450943,44); (2931746017928719150348515582758760,44);
  (1516691410877107328595346477582092,43); (3853833289862053703956171908188893,43);
  (1681896750386399730220567128204024,42); (3827950348190408155707990958077860,42);
  (1451666260089376568375915033558029,41); (2960278471560006029376719718103126,41);
  (1001637276305546279484219623051876,40); (1830770631946233190076729815923266,40);
  (5658942109152584783244402146698953,40); (9275001451568796927463488023250010,40);
  (2674660252695417651647802856204433,39); (3933216532718455946483830709273685,39);
  (1078141063197287236773067696744674,38); (1423502367837533860967701766110749,38);
  (3771030513485728527833321791362195,38); (4474214102411077191094714511169903,38);
  (1162392979354091640781886167841828,37); (1240596492384716201665654094366106,37);
  (3201746441292034442658105513106287,37); (3077588246367999837834304386224572,37);
  (7979150241740480039386684237137555,37); (6917057996228268822384081375674385,37);
  (1819140371551386287485065598850939,36); (1424337018730005708447424147347034,36);
  (3831464574448728713539494718253522,36); (2713523208674907151256782787075568,36);
  (7519240834924466858686870094787375,36); (4823209039709785163129434101594428,36);
  (1385194560327865510802610698475010,35); (8055196778646031863708117711020870,36);
  (2410521251410232592792879218363247,35); (1271208439351926412088795085765819,35);
  (3983425801588108830656974164709752,35); (1903892688690887316868329089197690,35);
  (6277864084401405923027854098306322,35); (2714495748718148332970769465836363,35);
  (9468201383551748164887104669471170,35); (3691416002516552300344544575529717,35);
  (1370246919592886510536492890198833,34); (4792471998756119840049558205119055,35);
  (1906929698997748001007761234507361,34); (5940911851789578579503560143315412,35);
  (2556441910524008041917735939703293,34); (7029123087004489087954869549290718,35);
  (3306585833329637021621871489234012,34); (7932462569259776968430793097984392,35);
  (4132780084546333222520033586243519,34); (8532284008666481740403070427759771,35);
  (5000000000000000000000000000000000,34); (8742698185525336735703300667407634,35);
  (5867219915453666777479966413756482,34); (8532284008666481740403070427759771,35);
  (6693414166670362978378128510765988,34); (7932462569259776968430793097984392,35);
  (7443558089475991958082264060296709,34); (7029123087004489087954869549290718,35);
  (8093070301002251998992238765492639,34); (5940911851789578579503560143315412,35);
  (8629753080407113489463507109801169,34); (4792471998756119840049558205119052,35);
  (9053179861644825183511289533052884,34); (3691416002516552300344544575529718,35);
  (9372213591559859407697214590169367,34); (2714495748718148332970769465836363,35);
  (9601657419841189116934302583529026,34); (1903892688690887316868329089197690,35);
  (9758947874858976740720712078163676,34); (1271208439351926412088795085765819,35);
  (9861480543967213448919738930152499,34); (8055196778646031863708117711020870,36);
  (9924807591650755331413131299052127,34); (4823209039709785163129434101594428,36);
  (9961685354255512712864605052817465,34); (2713523208674907151256782787075567,36);
  (9981808596284486137125149344011492,34); (1424337018730005708447424147347034,36);
  (9992020849758259519960613315762862,34); (6917057996228268822384081375674385,37);
  (9996798253558707965557341894486893,34); (3077588246367999837834304386224572,37);
  (9998837607020645908359218113832157,34); (1240596492384716201665654094366106,37);
  (9999622896948651427147216667820864,34); (4474214102411077191094714511169903,38);
  (9999892185893680271276322693230325,34); (1423502367837533860967701766110754,38);
  (9999973253397473045823483521971438,34); (3933216532718455946483830709273685,39);
  (9999994341057890847415216755597853,34); (9275001451568796927463488023250010,40);
  (9999998998362723694453720515780377,34); (1830770631946233190076729815923266,40);
  (9999999854833373991062343162408498,34); (2960278471560006029376719718103126,41);
  (9999999983181032496136002697794329,34); (3827950348190408155707990958077860,42);
  (9999999998483308589122892671404653,34); (3853833289862053703956171908188893,43);
  (9999999999896676389593305769148105,34); (2931746017928719150348515582758760,44);
  (9999999999994856784479225566170694,34); (1629951350378364154441147741193750,45);
  (9999999999999819764314930131796147,34); (6380572422045627831263673224460557,47);
  (9999999999999995734547296589908298,34); (1687002246552281054916073375911954,48);
  (9999999999999999934921054288721365,34); (2875841545799938670629085634988724,50);
  (9999999999999999999392236162892736,34); (3001007321098138223461160925268459,52);
  (9999999999999999999996721525379650,34); (1809001319742291815919156148067992,54)].
Definition tanh_sinh_64 : list (Z * Z) := [
  (1702786021581181772173914279184637,55); (9404125675765476270932791556895466,55);
  (3182452033907973545684706293101946,53); (1574952446662199146124864473365270,52);
  (3454282143734050733901736851435679,51); (1531920794154093728334438354462596,50);
  (2304559524384958693960665963401266,49); (9159491285182147455091438205592464,49);
  (9943373901291156702986276969964838,48); (3542109233161235506029397019450554,47);
  (2903926764460325642215607151272085,46); (9272742135952485301838165513058552,46);
  (5979739629162995986457292701229568,45); (1711830874587132520352499560485039,44);
  (9005863468840622428736233709987108,44); (2311728245888991088250558819128983,43);
  (1025114098312239577086668102512306,42); (2359999784693751143922638309389544,42);
  (9082559206399755191977777958508063,42); (1875836777440881330350900996782685,41);
  (6431344132536747559011783217505379,41); (1192018772965052482329009092087649,40);
  (3726856529160210459668303278269131,40); (6201569241335048029182799146698032,40);
  (1805372929932551724292963508829924,39); (2698547994293628910537730500564064,39);
  (7451908630397702119507527271399403,39); (1001186029239641361790744724678981,38);
  (2666203071630348164842311249346683,38); (3222308496265869183883903607249472,38);
  (8397207508057579661136461422963870,38); (9137964360104657511267215109883956,38);
  (2360473849263514174186895286068891,37); (2315497306708116598049990553765713,37);
  (5996109053304089000571654437081282,37); (5308922717804623226606514275977837,37);
  (1391727084837214015715341417024577,36); (1113774868615797027288604012662709,36);
  (2980729943054310895589256861996834,36); (2159254920843744299592564699008457,36);
  (5942023756672314954738150951119089,36); (3901609795540546160823771019117789,36);
  (1110863227591997552209753996184470,35); (6618610807156762087259601965122089,36);
  (1960224965029677487295945912866499,35); (1060366373551539115257453298942464,35);
  (3282709783617159171099886369213472,35); (1611894425656760384857498550068924,35);
  (5240708682629511484569930610491193,35); (2332914036800614193461450446186188,35);
  (8004876001518051309547575902988005,35); (3222074002588409319629930512375834,35);
  (1173216210023670884110998497876841,34); (4252072257695528858425964254746227,35);
  (1653667738259057335486735757016885,34); (5363950006470360437750402692275593,35);
  (2245741578515065732368405215807302,34); (6467080140249348968832817509242512,35);
  (2943008808975871019649028500639445,34); (7447762664871956584478558727359805,35);
  (3727229875114914943648965846010318,34); (8187154354156295385636262457742043,35);
  (4569021422751622490158500847469751,34); (8585455112170959946970145645102357,35);
  (5430978577248377509841499152530249,34); (8585455112170959946970145645102357,35);
  (6272770124885085056351034153989681,34); (8187154354156295385636262457742043,35);
  (7056991191024128980350971499360556,34); (7447762664871956584478558727359805,35);
  (7754258421484934267631594784192698,34); (6467080140249348968832817509242512,35);
  (8346332261740942664513264242983116,34); (5363950006470360437750402692275593,35);
  (8826783789976329115889001502123159,34); (4252072257695528858425964254746227,35);
  (9199512399848194869045242409701200,34); (3222074002588409319629930512375834,35);
  (9475929131737048851543006938950880,34); (2332914036800614193461450446186188,35);
  (9671729021638284082890011363078653,34); (1611894425656760384857498550068924,35);
  (9803977503497032251270405408713351,34); (1060366373551539115257453298942464,35);
  (9888913677240800244779024600381553,34); (6618610807156762087259601965122089,36);
  (9940579762433276850452618490488809,34); (3901609795540546160823771019117786,36);
  (9970192700569456891044107431380030,34); (2159254920843744299592564699008456,36);
  (9986082729151627859842846585829755,34); (1113774868615797027288604012662709,36);
  (9994003890946695910999428345562918,34); (5308922717804623226606514275977837,37);
  (9997639526150736485825813104713931,34); (2315497306708116598049990553765713,37);
  (9999160279249194242033886353857703,34); (9137964360104657511267215109883969,38);
  (9999733379692836965183515768875066,34); (3222308496265869183883903607249477,38);
  (9999925480913696022978804924727286,34); (1001186029239641361790744724678979,38);
  (9999981946270700674482757070364912,34); (2698547994293628910537730500564064,39);
  (9999996273143470839789540331696722,34); (6201569241335048029182799146698032,40);
  (9999999356865586746325244098821677,34); (1192018772965052482329009092087649,40);
  (9999999909174407936002448080222220,34); (1875836777440881330350900996782685,41);
  (9999999989748859016877604229133319,34); (2359999784693751143922638309389537,42);
  (9999999999099413653115937757126377,34); (2311728245888991088250558819128983,43);
  (9999999999940202603708370040135427,34); (1711830874587132520352499560485039,44);
  (9999999999997096073235539674357784,34); (9272742135952485301838165513058549,46);
  (9999999999999900566260987088432971,34); (3542109233161235506029397019450554,47);
  (9999999999999997695440475615041307,34); (9159491285182147455091438205592466,49);
  (9999999999999999965457178562659492,34); (1531920794154093728334438354462596,50);
  (9999999999999999999681754796609203,34); (1574952446662199146124864473365260,52);
  (9999999999999999999998297213978419,34); (9404125675765476270932791556895522,55)].
Definition tanh_sinh_65 : list (Z * Z) := [
  (8859610511599567042502068452886856,56); (4897264527524025219461749592050761,55);
  (1669035329138793499816404891520379,53); (8277867373744625524220741570144333,53);
  (1835742025550960839611027537520202,51); (8169640838971768409908521200854186,51);
  (1246163204964911793846141849684851,49); (4976624753944349995750965401722271,49);
  (5487830753767541615612228483800101,48); (1966830519717491070048697192594772,47);
  (1639508105477967569617067739757549,46); (5273910315149523080091728265146098,46);
  (3458970032322852512970877391248611,45); (9987961625280713648306929715498688,45);
  (5342548117054785929609817808582511,44); (1385036819430780888239862477910537,43);
  (6239735551615658484876666502238116,43); (1452616892591231581887213805228357,42);
  (5673007478794715871006893665682987,42); (1186262844794838620904707515614133,41);
  (4121145739353262353623589092926843,41); (7742929858117097290734186607723969,41);
  (2448818255148623814805019257619950,40); (4135551796619573899588090923483171,40);
  (1215553908350404641611664219949498,39); (1846080257355107096607227759831411,39);
  (5136795703609998698348839586267400,39); (7019832224980527299135149323416877,39);
  (1879767374304250714063555687558264,38); (2313201121794419862115919613948086,38);
  (6048663848329817341297106191811862,38); (6708527882821239942553947071379891,38);
  (1735151250275619517268050872133385,37); (1736280195266593853196357714660868,37);
  (4492694310140031663650472052761733,37); (4060987273167130142118427548759630,37);
  (1061637137391285641657736847000710,36); (8680195104804475853080380716837444,37);
  (2312223487283723071749940333965373,36); (1712490470196578182496997676588331,36);
  (4682287776702420979083320170135533,36); (3145570477488879748025501697478832,36);
  (8883394946535719114156761246653358,36); (5419678741568088760341355122578504,36);
  (1589492011203091681186846565812528,35); (8813322623438408797573277672488114,36);
  (2697313573233839478860241010631972,35); (1359412053864480838553415855712602,35);
  (4361426644847773767538574176766805,35); (1996370280847294521522465437760684,35);
  (6745410065178396617785448190612934,35); (2798676730864665279471657325144832,35);
  (1000921464310686431493987210384790,34); (3751336186772860792220428197108825,35);
  (1428420047312500415189826132428866,34); (4811298187370388223819647863597030,35);
  (1964329991569754105486210363920391,34); (5904809373210671736799673505323214,35);
  (2607176595147081671263377847944869,34); (6931678130728134850729230927671744,35);
  (3344646929621457400574285323250376,34); (7778205721320387615689269604596126,35);
  (4153214341382813158422174320604806,34); (8337655036474902260507701079471880,35);
  (5000000000000000000000000000000000,34); (8533437352831015722541958370363519,35);
  (5846785658617186841577825679395194,34); (8337655036474902260507701079471880,35);
  (6655353070378542599425714676749623,34); (7778205721320387615689269604596126,35);
  (7392823404852918328736622152055132,34); (6931678130728134850729230927671744,35);
  (8035670008430245894513789636079610,34); (5904809373210671736799673505323214,35);
  (8571579952687499584810173867571135,34); (4811298187370388223819647863597030,35);
  (8999078535689313568506012789615209,34); (3751336186772860792220428197108825,35);
  (9325458993482160338221455180938706,34); (2798676730864665279471657325144832,35);
  (9563857335515222623246142582323320,34); (1996370280847294521522465437760684,35);
  (9730268642676616052113975898936802,34); (1359412053864480838553415855712602,35);
  (9841050798879690831881315343418748,34); (8813322623438408797573277672488113,36);
  (9911166050534642808858432387533467,34); (5419678741568088760341355122578504,36);
  (9953177122232975790209166798298645,34); (3145570477488879748025501697478830,36);
  (9976877765127162769282500596660347,34); (1712490470196578182496997676588331,36);
  (9989383628626087143583422631529992,34); (8680195104804475853080380716837444,37);
  (9995507305689859968336349527947238,34); (4060987273167130142118427548759630,37);
  (9998264848749724380482731949127866,34); (1736280195266593853196357714660868,37);
  (9999395133615167018265870289380819,34); (6708527882821239942553947071379891,38);
  (9999812023262569574928593644431244,34); (2313201121794419862115919613948089,38);
  (9999948632042963900013016511604136,34); (7019832224980527299135149323416875,39);
  (9999987844460916495953583883357802,34); (1846080257355107096607227759831411,39);
  (9999997551181744851376185194980742,34); (4135551796619573899588090923483171,40);
  (9999999587885426064673764637641091,34); (7742929858117097290734186607723969,41);
  (9999999943269925212052841289931063,34); (1186262844794838620904707515614136,41);
  (9999999993760264448384341515123333,34); (1452616892591231581887213805228357,42);
  (9999999999465745188294521407039019,34); (1385036819430780888239862477910537,43);
  (9999999999965410299676771474870291,34); (9987961625280713648306929715498688,45);
  (9999999999998360491894522032430383,34); (5273910315149523080091728265146098,46);
  (9999999999999945121692462324583843,34); (1966830519717491070048697192594772,47);
  (9999999999999998753836795035088205,34); (4976624753944349995750965401722271,49);
  (9999999999999999981642579744490392,34); (8169640838971768409908521200854185,51);
  (9999999999999999999833096467086121,34); (8277867373744625524220741570144333,53);
  (9999999999999999999999114038948840,34); (4897264527524025219461749592050761,55)].
Definition tanh_sinh_66 : list (Z * Z) := [
  (4617642083724166345191803319307019,56); (2554638940225757371708600065946399,55);
  (8766658906419796545685071156626467,54); (4357219506084150339569091362564019,53);
  (9767770003027334310627855876183135,52); (4361742005211049989885852165324490,51);
  (6744121973449967135771546214235355,50); (2705875825659717814628998328191408,49);
  (3030030403257730704879713424046913,48); (1092402924339563070905888888419819,47);
  (9256134209980352167733010435032703,47); (2998906516702532381504176677917105,46);
  (1999905874013588432951588002433533,45); (5823642869500666760509632941583368,45);
  (3166556928411182628038231382020992,44); (8288802831896106166516243454586933,44);
  (3793198533749651139430040448970648,43); (8927150741317824674997085347721967,43);
  (3537601731891023917589635764935980,42); (7487248601696756925152510841455602,42);
  (2635648038928217427662970620319019,41); (5018043138604946167765644157379679,41);
  (1605482561373381766231803766326866,40); (2750704361349698197294776116522397,40);
  (8164294491739144543604056716493330,40); (1259339654812706516834458980542684,39);
  (3531641060369465576416978096138014,39); (4907113045526993066337206806778252,39);
  (1321651770327104952186335239407277,38); (1655331267407650123329249682899694,38);
  (4344583059407071620042626791455761,38); (4908963747611645898621402272137527,38);
  (1271802355367542775496016463557175,37); (1297656120033799806696704002428022,37);
  (3356479420396127539093010536876580,37); (3096113678473892424149907509299226,37);
  (8075055068994889340530049842800982,37); (6742608857232958319492376183116940,37);
  (1788541573961279033233784440392656,36); (1353716264616135299549000827330134,36);
  (3679252676286988767533579490497207,36); (2527732717850603710270190639958973,36);
  (7084106201350823659396353303151374,36); (4423206664840697821230979072174822,36);
  (1285273036639507695747364642608351,35); (7300089346745060512068873175899885,36);
  (2209998909559439422837617188906646,35); (1142279732497241359299546898098656,35);
  (3618931639103918472208402015062000,35); (1701513732034851171867195114089770,35);
  (5666278403237392187345639382697497,35); (2419926085656842782454554488560503,35);
  (8510414907350930737993705181245946,35); (3292416171013292247319518017051769,35);
  (1229303367360241686475248360863547,34); (4289702538303776942119148098778536,35);
  (1711246161732476591817181785582523,34); (5353961058412942569189084556478781,35);
  (2299501323992499942783225595704191,34); (6399717755541188487627225300634102,35);
  (2987086873822301959894873061703717,34); (7322268156654418309037236930461150,35);
  (3756238206177086909179343861997158,34); (8013926660083890082320890723948147,35);
  (4579150026974731000474967749373901,34); (8385235511568450771935197083030033,35);
  (5420849973025268999525032250626099,34); (8385235511568450771935197083030033,35);
  (6243761793822913090820656138002842,34); (8013926660083890082320890723948147,35);
  (7012913126177698040105126938296282,34); (7322268156654418309037236930461150,35);
  (7700498676007500057216774404295810,34); (6399717755541188487627225300634102,35);
  (8288753838267523408182818214417478,34); (5353961058412942569189084556478780,35);
  (8770696632639758313524751639136453,34); (4289702538303776942119148098778536,35);
  (9148958509264906926200629481875405,34); (3292416171013292247319518017051769,35);
  (9433372159676260781265436061730251,34); (2419926085656842782454554488560503,35);
  (9638106836089608152779159798493801,34); (1701513732034851171867195114089770,35);
  (9779000109044056057716238281109335,34); (1142279732497241359299546898098656,35);
  (9871472696336049230425263535739164,34); (7300089346745060512068873175899885,36);
  (9929158937986491763406036466968486,34); (4423206664840697821230979072174822,36);
  (9963207473237130112324664205095029,34); (2527732717850603710270190639958971,36);
  (9982114584260387209667662155596073,34); (1353716264616135299549000827330134,36);
  (9991924944931005110659469950157200,34); (6742608857232958319492376183116940,37);
  (9996643520579603872460906989463124,34); (3096113678473892424149907509299226,37);
  (9998728197644632457224503983536443,34); (1297656120033799806696704002428022,37);
  (9999565541694059292837995737320854,34); (4908963747611645898621402272137527,38);
  (9999867834822967289504781366476059,34); (1655331267407650123329249682899694,38);
  (9999964683589396305344235830219039,34); (4907113045526993066337206806778252,39);
  (9999991835705508260855456395943282,34); (1259339654812706516834458980542684,39);
  (9999998394517438626618233768196233,34); (2750704361349698197294776116522397,40);
  (9999999736435196107178257233702939,34); (5018043138604946167765644157379679,41);
  (9999999964623982681089760824103643,34); (7487248601696756925152510841455602,42);
  (9999999996206801466250348860569960,34); (8927150741317824674997085347721967,43);
  (9999999999683344307158881737196177,34); (8288802831896106166516243454586958,44);
  (9999999999980000941259864115670485,34); (5823642869500666760509632941583368,45);
  (9999999999999074386579001964783225,34); (2998906516702532381504176677917106,46);
  (9999999999999969699695967422692951,34); (1092402924339563070905888888419819,47);
  (9999999999999999325587802655003286,34); (2705875825659717814628998328191408,49);
  (9999999999999999990232229996972666,34); (4361742005211049989885852165324489,51);
  (9999999999999999999912333410935802,34); (4357219506084150339569091362564045,53);
  (9999999999999999999999538235791627,34); (2554638940225757371708600065946399,55)].
Definition tanh_sinh_67 : list (Z * Z) := [
  (2410806210417185822068473424675866,56); (1334848727193066078706044276678960,55);
  (4611648735977237003689357929085317,54); (2296836025065208477935106386325499,53);
  (5203584578632728984362282632946292,52); (2331322791909591922797967553587181,51);
  (3652906352938057129136538541701451,50); (1472283813652958353565594257996361,49);
  (1673699788084456212698112988392830,48); (6069003111237199017431808731080702,48);
  (5225699460296266804046756036433498,47); (1704953466810878331803654732661846,46);
  (1155809162531578387008162516552106,45); (3393390191107370173407587847336154,45);
  (1875261447499036849084626849355601,44); (4955099323302463530953190804886830,44);
  (2303104838532670703746576550754988,43); (5478040921833768077256000507897786,43);
  (2202524855658885416880014913076621,42); (4716826010991586124239607464949151,42);
  (1682431719516872241598966106439423,41); (3244912043151921586365428877837595,41);
  (1050310572069803705033224174915855,40); (1825014452815443326783177103633319,40);
  (5470509987719214588673377388164928,40); (8567222235355458752821706059818920,40);
  (2421846561212401368897302380169367,39); (3420143412329742245647286365084222,39);
  (9267365174399888182068670824636925,39); (1180893780918761602954941508103959,38);
  (3111876888431194194433001950282832,38); (3580661559221462166432547127981011,38);
  (9295324831032350950375972947641939,38); (9666880288644759891854647842143423,38);
  (2500439895839017904729579998495787,37); (2352783158139166057899648364342215,37);
  (6124567550979682827285735353154669,37); (5220487043048671034502969270721283,37);
  (1379565758141941147304344698305855,36); (1066649230166746591598480533779234,36);
  (2883047848202231490552994025414628,36); (2024711898035255487080400972376648,36);
  (5633719307676602111913637905915214,36); (3598256543314538659923463653993138,36);
  (1036429613285329292588196913877068,35); (6026590170193517699848638099569128,36);
  (1805704674316834150846090845849158,35); (9564742695110378941142162301459896,36);
  (2994266295403166150964956558124978,35); (1444718736544033068983882436584447,35);
  (4745513364272285766310886918663921,35); (2083625069447891992321305016526324,35);
  (7212839519293808950862468727456771,35); (2875818097297381884019380178548490,35);
  (1054263460459210557037343284210048,34); (3803595872296280410461013434728715,35);
  (1485108128632296275131942463924412,34); (4823590526977620393541969036320023,35);
  (2019728074587341236460944725295479,34); (5865194973424323507941600952231589,35);
  (2655772111890776049237036063811314,34); (6835168935548184674116896917490665,35);
  (3380904431135487984491328110424825,34); (7629664210167833906411148365932126,35);
  (4172615962409110646360340952848665,34); (8152431880055099225643989702248312,35);
  (5000000000000000000000000000000000,34); (8334971587046731911355914933262587,35);
  (5827384037590889353639659047151334,34); (8152431880055099225643989702248312,35);
  (6619095568864512015508671889575174,34); (7629664210167833906411148365932126,35);
  (7344227888109223950762963936188686,34); (6835168935548184674116896917490665,35);
  (7980271925412658763539055274704522,34); (5865194973424323507941600952231589,35);
  (8514891871367703724868057536075588,34); (4823590526977620393541969036320023,35);
  (8945736539540789442962656715789952,34); (3803595872296280410461013434728715,35);
  (9278716048070619104913753127254324,34); (2875818097297381884019380178548490,35);
  (9525448663572771423368911308133607,34); (2083625069447891992321305016526324,35);
  (9700573370459683384903504344187503,34); (1444718736544033068983882436584447,35);
  (9819429532568316584915390915415084,34); (9564742695110378941142162301459896,36);
  (9896357038671467070741180308612293,34); (6026590170193517699848638099569128,36);
  (9943662806923233978880863620940848,34); (3598256543314538659923463653993138,36);
  (9971169521517977685094470059745853,34); (2024711898035255487080400972376648,36);
  (9986204342418580588526956553016942,34); (1066649230166746591598480533779234,36);
  (9993875432449020317172714264646845,34); (5220487043048671034502969270721283,37);
  (9997499560104160982095270420001504,34); (2352783158139166057899648364342216,37);
  (9999070467516896764904962402705235,34); (9666880288644759891854647842143423,38);
  (9999688812311156880580556699804972,34); (3580661559221462166432547127981011,38);
  (9999907326348256001118179313291754,34); (1180893780918761602954941508103959,38);
  (9999975781534387875986311026976199,34); (3420143412329742245647286365084222,39);
  (9999994529490012280785411326622611,34); (8567222235355458752821706059818920,40);
  (9999998949689427930196294966775826,34); (1825014452815443326783177103633319,40);
  (9999999831756828048312775840103389,34); (3244912043151921586365428877837595,41);
  (9999999977974751443411145831199851,34); (4716826010991586124239607464949151,42);
  (9999999997696895161467329296253424,34); (5478040921833768077256000507897786,43);
  (9999999999812473855250096315091537,34); (4955099323302463530953190804886830,44);
  (9999999999988441908374684216129918,34); (3393390191107370173407587847336153,45);
  (9999999999999477430053970373319595,34); (1704953466810878331803654732661846,46);
  (9999999999999983263002119155437874,34); (6069003111237199017431808731080702,48);
  (9999999999999999634709364706194288,34); (1472283813652958353565594257996361,49);
  (9999999999999999994796415421367272,34); (2331322791909591922797967553587181,51);
  (9999999999999999999953883512640227,34); (2296836025065208477935106386325499,53);
  (9999999999999999999999758919378958,34); (1334848727193066078706044276678960,55)].
Definition tanh_sinh_68 : list (Z * Z) := [
  (1260742951889929099887357105462408,56); (6986301918972139635138484447316282,56);
  (2429521863769766112676909179279640,54); (1212467262955850180811518223472343,53);
  (2775407867863678815048522267945406,52); (1247456343373832603517346657418394,51);
  (1980219194504607994028680363419809,50); (8016539398833121305155255026417800,50);
  (9249047147512877985853221184613594,49); (3372698960540604224655950901512461,48);
  (2950311419358697735077967994405863,47); (9691579283553649227798147998702531,47);
  (6677153266091869869927593513612190,46); (1976115996909638110944856884063992,45);
  (1109662797732940810801177704240316,44); (2959143337070218629118126031601013,44);
  (1396731667625695192791849512659604,43); (3356719992810955859248832319911703,43);
  (1369222101599578540702408644962238,42); (2966152045588296474539890815369734,42);
  (1071999486379401752868231675652370,41); (2093835133655530844488909026973263,41);
  (6856779477938736514121177291107853,41); (1207905713303185298816122360312107,40);
  (3657031293771224790562538766635580,40); (5812651157377326766754780694512059,40);
  (1656641093887647467967607936826753,39); (2376908869925501637314125519087654,39);
  (6481058084265131725091783000572315,39); (8398854572047250875955828106179139,39);
  (2222818425948228446827491568869397,38); (2603596146503392507963822218284344,38);
  (6774713334906714524340351657917592,38); (7178318973576562354375982993496221,38);
  (1857462112367257145720823718448420,37); (1782158596677785620154174566151086,37);
  (4632113375360010831837221414252339,37); (4028991294554567230519974977137263,37);
  (1061137445691530312498000351691849,36); (8377758383131132457849454825398061,37);
  (2252924458168540975850762215219067,36); (1616652691466424817252672864963462,36);
  (4468106693607139703379794808039881,36); (2917877075147952240603687295417872,36);
  (8335099166651290043254638022679248,36); (4959203856839813993693082246215984,36);
  (1471372437441097880091734222789537,35); (7982050510496263912448634230238475,36);
  (2470568238384811499262310193793056,35); (1222280016917407188912378693376551,35);
  (3962925041048656701867685710545016,35); (1786989867285930870513347258968127,35);
  (6094432891475204406456231129175324,35); (2500796602236076309359688555055900,35);
  (9011728631597864226861745587179712,35); (3355476661663283630775924286801646,35);
  (1284241332615348663184464707467385,34); (4320362220469327488975314898333239,35);
  (1767067839319140898342402702599335,34); (5339092336012952903298228042416430,35);
  (2351190381395931826328434397544771,34); (6331179100301246394471846700688019,35);
  (3029201633788265617756140330891582,34); (7200145219388062522313292636480428,35);
  (3783837424822443167781052841278877,34); (7848233822876936520692487374962184,35);
  (4588766113635790958720406935661831,34); (8195044532492781715052797915313487,35);
  (5411233886364209041279593064338169,34); (8195044532492781715052797915313487,35);
  (6216162575177556832218947158721123,34); (7848233822876936520692487374962184,35);
  (6970798366211734382243859669108417,34); (7200145219388062522313292636480428,35);
  (7648809618604068173671565602455229,34); (6331179100301246394471846700688019,35);
  (8232932160680859101657597297400665,34); (5339092336012952903298228042416430,35);
  (8715758667384651336815535292532614,34); (4320362220469327488975314898333239,35);
  (9098827136840213577313825441282029,34); (3355476661663283630775924286801646,35);
  (9390556710852479559354376887082467,34); (2500796602236076309359688555055900,35);
  (9603707495895134329813231428945497,34); (1786989867285930870513347258968127,35);
  (9752943176161518850073768980620695,34); (1222280016917407188912378693376551,35);
  (9852862756255890211990826577721045,34); (7982050510496263912448634230238475,36);
  (9916649008333487099567453619773207,34); (4959203856839813993693082246215984,36);
  (9955318933063928602966202051919602,34); (2917877075147952240603687295417872,36);
  (9977470755418314590241492377847810,34); (1616652691466424817252672864963462,36);
  (9989388625543084696875019996483082,34); (8377758383131132457849454825398060,37);
  (9995367886624639989168162778585747,34); (4028991294554567230519974977137263,37);
  (9998142537887632742854279176281552,34); (1782158596677785620154174566151086,37);
  (9999322528666509328547565964834208,34); (7178318973576562354375982993496221,38);
  (9999777718157405177155317250843113,34); (2603596146503392507963822218284344,38);
  (9999935189419157348682749082169994,34); (8398854572047250875955828106179125,39);
  (9999983433589061123525320323920632,34); (2376908869925501637314125519087654,39);
  (9999996342968706228775209437461233,34); (5812651157377326766754780694512059,40);
  (9999999314322052206126348587882272,34); (1207905713303185298816122360312107,40);
  (9999999892800051362059824713176833,34); (2093835133655530844488909026973263,41);
  (9999999986307778984004214592975913,34); (2966152045588296474539890815369734,42);
  (9999999998603268332374304807208151,34); (3356719992810955859248832319911703,43);
  (9999999999889033720226705918919881,34); (2959143337070218629118126031601013,44);
  (9999999999993322846733908130130072,34); (1976115996909638110944856884063992,45);
  (9999999999999704968858064130226492,34); (9691579283553649227798147998702531,47);
  (9999999999999990750952852487122014,34); (3372698960540604224655950901512461,48);
  (9999999999999999801978080549539200,34); (8016539398833121305155255026417800,50);
  (9999999999999999997224592132136322,34); (1247456343373832603517346657418394,51);
  (9999999999999999999975704781362303,34); (1212467262955850180811518223472343,53);
  (9999999999999999999999873925704811,34); (6986301918972139635138484447316282,56)].
Definition tanh_sinh_69 : list (Z * Z) := [
  (6603882030861005966851884844116197,57); (3662368979528787743630202704100087,56);
  (1281790814296898384045551249223117,54); (6409434315330388066725129519808285,54);
  (1482046063282786514533790525063221,52); (6682268430622352298168102102807781,52);
  (1074356538918444601492613541241312,50); (4368122485394886876598909455195516,50);
  (5113396494374842799359405096689518,49); (1874865537520652018042353427914030,48);
  (1665747986881193492945879933285448,47); (5508346732448635272444767331078812,47);
  (3856019970264638651186310852791545,46); (1150133079091365717836024912570264,45);
  (6561347965880714306128474431714147,45); (1765447070579664363529847166765756,44);
  (8461062199558404385730674667233167,44); (2054036234558123909782753206365390,43);
  (8499476747478413691828547353642567,43); (1862007658786583960493521492682106,42);
  (6818431164118726030088897080788360,42); (1348290660579078648492086161508055,41);
  (4467240951910084446297180400982700,41); (7975823638055588926387225390856269,41);
  (2439201292107668845994581398071520,40); (3933480552877245208577925755700070,40);
  (1130439966817977839765350562568731,39); (1647256383140400308383655143675270,39);
  (4520743498326551733026730674001585,39); (5955815461511530488240269316024277,39);
  (1583487003019218248967854995488532,38); (1887325804112781369868435559113490,38);
  (4923995261763562643974178320176659,38); (5313635569349248284268034275889502,38);
  (1375975475177838837563181296969774,37); (1345643589492024900036972610678043,37);
  (3493575971212929412061982440274862,37); (3099569006519528839212702233045677,37);
  (8139511109450869556145008114209642,37); (6559382410539747762293890352295516,37);
  (1755718997550915109801541416239178,36); (1286797744314171850270300068134343,36);
  (3534129885933336654400016528096318,36); (2358773633975356842291836792468126,36);
  (6685356075596960067616252375614750,36); (4068029076615783968582055088136359,36);
  (1195756057214595305880074782637661,35); (6639677532153506505579579106273179,36);
  (2032974507582352297469199087037574,35); (1030553279514043020893952516535616,35);
  (3300198954342780249415623950661283,35); (1526897234568396054042458172770065,35);
  (5134403001585168646305156249567060,35); (2165698180496657008254941090570618,35);
  (7679071466141740815745948126928124,35); (2946283641930699127372376325682774,35);
  (1106788935495862279090866300275717,34); (3848831358732313840937609848358975,35);
  (1540324827360817686013708572866299,34); (4830093979730717373464923068052517,35);
  (2073207529074262373495245631536032,34); (5822678641919253998255653700891502,35);
  (2702356070375376880189450079193277,34); (6739832881715159090678040996093103,35);
  (3415485256666879512623521641492414,34); (7486581496781241752804150287766249,35);
  (4191063679272879343885457492163056,34); (7975936670204033354743227448788967,35);
  (5000000000000000000000000000000000,34); (8146457499062093890813963963175606,35);
  (5808936320727120656114542507836945,34); (7975936670204033354743227448788967,35);
  (6584514743333120487376478358507586,34); (7486581496781241752804150287766249,35);
  (7297643929624623119810549920806723,34); (6739832881715159090678040996093103,35);
  (7926792470925737626504754368463969,34); (5822678641919253998255653700891502,35);
  (8459675172639182313986291427133701,34); (4830093979730717373464923068052517,35);
  (8893211064504137720909133699724283,34); (3848831358732313840937609848358975,35);
  (9232092853385825918425405187307188,34); (2946283641930699127372376325682774,35);
  (9486559699841483135369484375043294,34); (2165698180496657008254941090570618,35);
  (9669980104565721975058437604933872,34); (1526897234568396054042458172770065,35);
  (9796702549241764770253080091296241,34); (1030553279514043020893952516535616,35);
  (9880424394278540469411992521736234,34); (6639677532153506505579579106273179,36);
  (9933146439244030399323837476243852,34); (4068029076615783968582055088136359,36);
  (9964658701140666633455999834719037,34); (2358773633975356842291836792468128,36);
  (9982442810024490848901984585837609,34); (1286797744314171850270300068134343,36);
  (9991860488890549130443854991885791,34); (6559382410539747762293890352295516,37);
  (9996506424028787070587938017559726,34); (3099569006519528839212702233045677,37);
  (9998624024524822161162436818703029,34); (1345643589492024900036972610678043,37);
  (9999507600473823643735602582167981,34); (5313635569349248284268034275889502,38);
  (9999841651299698078175103214500451,34); (1887325804112781369868435559113490,38);
  (9999954792565016734482669732693259,34); (5955815461511530488240269316024276,39);
  (9999988695600331820221602346494375,34); (1647256383140400308383655143675270,39);
  (9999997560798707892331154005418601,34); (3933480552877245208577925755700070,40);
  (9999999553275904808991555370281960,34); (7975823638055588926387225390856269,41);
  (9999999931815688358812739699111028,34); (1348290660579078648492086161508055,41);
  (9999999991500523252521586308171453,34); (1862007658786583960493521492682106,42);
  (9999999999153893780044159561426933,34); (2054036234558123909782753206365390,43);
  (9999999999934386520341192856938715,34); (1765447070579664363529847166765756,44);
  (9999999999996143980029735361348814,34); (1150133079091365717836024912570264,45);
  (9999999999999833425201311880650705,34); (5508346732448635272444767331078812,47);
  (9999999999999994886603505625157200,34); (1874865537520652018042353427914030,48);
  (9999999999999999892564346108155540,34); (4368122485394886876598909455195516,50);
  (9999999999999999998517953936717214,34); (6682268430622352298168102102807781,52);
  (9999999999999999999987182091857030,34); (6409434315330388066725129519808285,54);
  (9999999999999999999999933961179691,34); (3662368979528787743630202704100087,56)].
Definition tanh_sinh_70 : list (Z * Z) := [
  (3464713504112490156399936298470065,57); (1922929680673557499170176908030034,56);
  (6772278809206785258196515528230732,55); (3392887534040107451690521696539140,54);
  (7923208136766779161797834269839184,53); (3583382976751266992142707485417635,52);
  (5833681858257058885544271153776226,51); (2381857103168785823492460270285865,50);
  (2828256726009958331874643160483633,49); (1042560212741387010978161060297103,48);
  (9405406274502164214255061719796265,48); (3130431951557463188154838085126450,47);
  (2226093030280556489483687776976206,46); (6690481570024870938079669696414220,46);
  (3876906465400903759890340791013134,45); (1052299714255332646167165590055713,44);
  (5120001274549293697350670031754055,44); (1255246072829613146323299275574979,43);
  (5268643617438612281335881949794106,43); (1166921102608250419178931823456690,42);
  (4329442017300505685079781038510187,42); (8664739285165061065442847747963418,42);
  (2904698334661967996759955930697956,41); (5254414590024422447294221590871192,41);
  (1623343780884886514823659334244989,40); (2655088144360072417152579211909785,40);
  (7695360042977706035715611915594216,40); (1138466469008656170620275136933230,39);
  (3145370559345098059043806470725839,39); (4211168906501812437336215628912857,39);
  (1125059744703970099963393842667474,38); (1363983078346048205777907818093699,38);
  (3569141644895341135322245882620769,38); (3921176551231830623146414770179150,38);
  (1016494283355896845420724004247780,37); (1012868221592727688762601945143906,37);
  (2627617433410314469042713686218914,37); (2377077301056034076614761312643485,37);
  (6226357012056143366247888710052362,37); (5119681911902185677718015036776230,37);
  (1364544016970143007675241248436392,36); (1021082416036437733121322483817083,36);
  (2787939295463636809658182104408398,36); (1900951139106160274841252945399502,36);
  (5348045494330482784231087550238767,36); (3326727830727494824201509638447810,36);
  (9692278542957778359918970277361297,36); (5505712021450336882610731373791382,36);
  (1668487160885969389151795216735956,35); (8660518171643209567578010422064062,36);
  (2740903462403083437491812130891248,35); (1300074388274538101506719189844152,35);
  (4313468295844824055301099716776497,35); (1868248186091845516575973336873972,35);
  (6524018590284293173036537413988346,35); (2575743412879000425757767028952808,35);
  (9508029897757911045578823637110837,35); (3411761167894164783820090299095881,35);
  (1338012283343864211123596848525999,34); (4344736999531017984535997272223460,35);
  (1821184436524192597149774755062282,34); (5320009135355119887530588735942438,35);
  (2400916051880894568521759994177771,34); (6261874343400028739053258300125878,35);
  (3069480879391004691563839902083023,34); (7081374915357346117311464076276478,35);
  (3810130269107460100597661190053129,34); (7689605762983468472849038386616087,35);
  (4597908937459438950830525663042708,34); (8014123330687492875968690610841321,35);
  (5402091062540561049169474336957292,34); (8014123330687492875968690610841321,35);
  (6189869730892539899402338809946871,34); (7689605762983468472849038386616087,35);
  (6930519120608995308436160097916977,34); (7081374915357346117311464076276478,35);
  (7599083948119105431478240005822229,34); (6261874343400028739053258300125878,35);
  (8178815563475807402850225244937718,34); (5320009135355119887530588735942438,35);
  (8661987716656135788876403151474001,34); (4344736999531017984535997272223458,35);
  (9049197010224208895442117636288917,34); (3411761167894164783820090299095881,35);
  (9347598140971570682696346258601165,34); (2575743412879000425757767028952807,35);
  (9568653170415517594469890028322350,34); (1868248186091845516575973336873972,35);
  (9725909653759691656250818786910876,34); (1300074388274538101506719189844152,35);
  (9833151283911403061084820478326405,34); (8660518171643209567578010422064064,36);
  (9903077214570422216400810297226386,34); (5505712021450336882610731373791382,36);
  (9946519545056695172157689124497613,34); (3326727830727494824201509638447810,36);
  (9972120607045363631903418178955916,34); (1900951139106160274841252945399503,36);
  (9986354559830298569923247587515636,34); (1021082416036437733121322483817082,36);
  (9993773642987943856633752111289949,34); (5119681911902185677718015036776230,37);
  (9997372382566589685530957286313781,34); (2377077301056034076614761312643485,37);
  (9998983505716644103154579275995752,34); (1012868221592727688762601945143906,37);
  (9999643085835510465886467775411738,34); (3921176551231830623146414770179155,38);
  (9999887494025529602990003660615734,34); (1363983078346048205777907818093699,38);
  (9999968546294406549019409561935293,34); (4211168906501812437336215628912857,39);
  (9999992304639957022293964284388085,34); (1138466469008656170620275136933230,39);
  (9999998376656219115113485176340665,34); (2655088144360072417152579211909785,40);
  (9999999709530166533803200324004406,34); (5254414590024422447294221590871192,41);
  (9999999956705579826994943149202189,34); (8664739285165061065442847747963417,42);
  (9999999994731356382561387718664119,34); (1166921102608250419178931823456690,42);
  (9999999999487999872545070630264932,34); (1255246072829613146323299275574979,43);
  (9999999999961230935345990962401095,34); (1052299714255332646167165590055713,44);
  (9999999999997773906969719443510516,34); (6690481570024870938079669696414220,46);
  (9999999999999905945937254978357858,34); (3130431951557463188154838085126450,47);
  (9999999999999997171743273990041669,34); (1042560212741387010978161060297103,48);
  (9999999999999999941663181417429410,34); (2381857103168785823492460270285851,50);
  (9999999999999999999207679186323323,34); (3583382976751266992142707485417635,52);
  (9999999999999999999993227721190793,34); (3392887534040107451690521696539161,54);
  (9999999999999999999999965352864959,34); (1922929680673557499170176908030034,56)].
Definition tanh_sinh_71 : list (Z * Z) := [
  (1820613695470678282927740188158392,57); (1011204039944368310097181383172315,56);
  (3583139449487457179627951134555353,55); (1798498149182107211663924715003092,54);
  (4240712092521901367677653865328970,53); (1923660574914737107224348892089314,52);
  (3170259297815798326782788494636564,51); (1299720425605418710590451875291496,50);
  (1565051331328585257179218763925224,49); (5799310269948660143021009767964890,49);
  (5311056987458843931110906829682987,48); (1778912088106434253047318441053181,47);
  (1284742774514677072921020985949697,46); (3890057928883186608627704223335816,46);
  (2289203438331174865264197293166273,45); (6266720237726442386081361559215059,45);
  (3095054775243495006061290937141040,44); (7661275124951087012821713764725477,44);
  (3261490364481300132521234571505282,43); (7301295792130178977031975372992940,43);
  (2744485911865308167752400852596624,42); (5557594293963638749230108431056004,42);
  (1885081542380615032024105689418781,41); (3453894037346638255169782446964057,41);
  (1078058781968238339787328839589387,40); (1787763046576033248619361513596508,40);
  (5226336873675145217554555997163230,40); (7847277257540870513494098057146081,40);
  (2183007288038861224640459020326391,39); (2969151048037716116902433936419937,39);
  (7972762067508372773429702613682901,39); (9828466082232424001833657115567946,39);
  (2580171744273054549014656261748260,38); (2884826769169001098267074637595846,38);
  (7488921530666998143237224375883422,38); (7600377430436813873464281445379620,38);
  (1970919724833737613017773713701183,37); (1817354673292388590936784660080287,37);
  (4749965000605464081042739885002968,37); (3983671315109647832165721402368913,37);
  (1057680606043134031703819938184248,36); (8077627925287731438808298041390109,37);
  (2193492928492934037647442741454130,36); (1527353002095835985348221159909068,36);
  (4267117193584458103775813868159109,36); (2712291972978543298996827548393500,36);
  (7835898403587849349228054477868005,36); (4551449238499475679298946257615504,36);
  (1365817251402815611371339682328145,35); (7255086907678573008523987372244493,36);
  (2270433512811504178555264184449622,35); (1103239910350087133509384139281194,35);
  (3613987926694859810746027295756613,35); (1605783211468648284937476283052354,35);
  (5526928612113186561492883801308649,35); (2242678216976890035880425729274267,35);
  (8143169705540029355666445208427222,35); (3010444490654974975048936170038025,35);
  (1158453474124151056140623918178248,34); (3887637652973750822839938175196897,35);
  (1594090400203048969493281743795825,34); (4831474807468345814858139922896977,35);
  (2124850012023097146154862828696979,34); (5777785070067439719675578958963099,35);
  (2747046935806680677267528589535346,34); (6645854408369778120928198034438797,35);
  (3448504737364641160435360825758939,34); (7348707550958020175363110688563438,35);
  (4208628306726390461210627611344250,34); (7807555185022638183889489260656794,35);
  (5000000000000000000000000000000000,34); (7967138874233003285134017975983481,35);
  (5791371693273609538789372388655750,34); (7807555185022638183889489260656794,35);
  (6551495262635358839564639174241062,34); (7348707550958020175363110688563438,35);
  (7252953064193319322732471410464654,34); (6645854408369778120928198034438797,35);
  (7875149987976902853845137171303020,34); (5777785070067439719675578958963100,35);
  (8405909599796951030506718256204175,34); (4831474807468345814858139922896977,35);
  (8841546525875848943859376081821752,34); (3887637652973750822839938175196897,35);
  (9185683029445997064433355479157278,34); (3010444490654974975048936170038025,35);
  (9447307138788681343850711619869135,34); (2242678216976890035880425729274267,35);
  (9638601207330514018925397270424340,34); (1605783211468648284937476283052354,35);
  (9772956648718849582144473581555037,34); (1103239910350087133509384139281194,35);
  (9863418274859718438862866031767185,34); (7255086907678573008523987372244493,36);
  (9921641015964121506507719455221321,34); (4551449238499475679298946257615504,36);
  (9957328828064155418962241861318409,34); (2712291972978543298996827548393500,36);
  (9978065070715070659623525572585459,34); (1527353002095835985348221159909068,36);
  (9989423193939568659682961800618158,34); (8077627925287731438808298041390109,37);
  (9995250034999394535918957260114996,34); (3983671315109647832165721402368913,37);
  (9998029080275166262386982226286298,34); (1817354673292388590936784660080287,37);
  (9999251107846933300185676277562412,34); (7600377430436813873464281445379622,38);
  (9999741982825572694545098534373825,34); (2884826769169001098267074637595845,38);
  (9999920272379324916272265702973862,34); (9828466082232424001833657115567932,39);
  (9999978169927119611387753595409798,34); (2969151048037716116902433936419937,39);
  (9999994773663126324854782445444003,34); (7847277257540870513494098057146081,40);
  (9999998921941218031761660212671160,34); (1787763046576033248619361513596508,40);
  (9999999811491845761938496797589431,34); (3453894037346638255169782446964057,41);
  (9999999972555140881346918322475991,34); (5557594293963638749230108431056004,42);
  (9999999996738509635518699867478766,34); (7301295792130178977031975372992940,43);
  (9999999999690494522475650499393872,34); (7661275124951087012821713764725478,44);
  (9999999999977107965616688251347359,34); (6266720237726442386081361559215059,45);
  (9999999999998715257225485322927080,34); (3890057928883186608627704223335816,46);
  (9999999999999946889430125411560690,34); (1778912088106434253047318441053181,47);
  (9999999999999998434948668671414743,34); (5799310269948660143021009767964890,49);
  (9999999999999999968297407021842017,34); (1299720425605418710590451875291496,50);
  (9999999999999999999575928790747810,34); (1923660574914737107224348892089314,52);
  (9999999999999999999996416860550512,34); (1798498149182107211663924715003092,54);
  (9999999999999999999999981793863045,34); (1011204039944368310097181383172315,56)].
Definition tanh_sinh_72 : list (Z * Z) := [
  (9581606729341930712807234405951601,58); (5325693907997458228942730229417601,57);
  (1898427246939053633100094795980617,55); (9546237239320930268954521559906100,55);
  (2272316696797773789012082137602094,53); (1033772010590304580126421540665539,52);
  (1724261175434212255755395579401691,51); (7097373611570213365452571262569072,51);
  (8664469066249039077338018393743569,50); (3227015205809268790223535905145102,49);
  (2999351297911149321743309225789199,48); (1010839623601096143000049420239413,47);
  (7412590473165613640851976766210427,47); (2260784545755747832911179029127978,46);
  (1350846951679455864528185437122764,45); (3728862992492614279822132092328147,45);
  (1869126636881399060372954634493680,44); (4670327408029483448613666485168189,44);
  (2016348124417615422111789672122931,43); (4561233016199473700194137577046396,43);
  (1736980490751531790077609237762545,42); (3557992370743598672504837862736956,42);
  (1221099250843110506060254662167734,41); (2265469660873620412894101138442467,41);
  (7144437451788964032579473662452318,41); (1200878736993865351197280517957868,40);
  (3541416879756240618367503694358278,40); (5394934568606771684477850729094395,40);
  (1511412797067298286213076383306425,39); (2087649911643505665838701046332609,39);
  (5635541053850844531917852279857592,39); (7061594850195625751302971627656731,39);
  (1860336100829383464686172011244170,38); (2116045101802037791732223353723952,38);
  (5502632377810816179189591863937212,38); (5685870461984045510579534458202979,38);
  (1474364233333021946428810557504988,37); (1385185573668190994128740454688055,37);
  (3613926690488809618600703514074417,37); (3090294636628911478095151938883558,37);
  (8176475897365263255364322878775792,37); (6370802473835979050974370001903514,37);
  (1721277697394506425636005574080807,36); (1223511385898358614299602326039440,36);
  (3395890963304535232847081729857610,36); (2204767127029366256337823507357178,36);
  (6318954272461054298405082394948298,36); (3751332955663190828237075811591715,36);
  (1115219734607547601907666787342705,35); (6059126992439916116809135606134181,36);
  (1875911966787480463136320719538700,35); (9332042964742360929619188825804495,36);
  (3020003702672934912606706068369367,35); (1375433574415704366776081688103420,35);
  (4669429101018894436628850991081603,35); (1945268392441927975961908014194728,35);
  (6954012187089252934590534134753559,35); (2645008568880322142250558109308671,35);
  (9998664699617934594291802154134410,35); (3461756056896305839742362121475885,35);
  (1390607620852730339152129597851763,34); (4363451763176881013652297143180808,35);
  (1873649489233494162983224355698551,34); (5297295426208088754872287012693647,35);
  (2448779753019215892629152081616233,34); (6192146010598468733496966351254523,35);
  (3108041837543341730788231129285121,34); (6965916524478389123029875351228542,35);
  (3835209645112261837891317811042289,34); (7537608365089377346541070070871841,35);
  (4606613776810861438453891979330105,34); (7841788878274765118441891334658118,35);
  (5393386223189138561546108020669895,34); (7841788878274765118441891334658118,35);
  (6164790354887738162108682188957710,34); (7537608365089377346541070070871841,35);
  (6891958162456658269211768870714879,34); (6965916524478389123029875351228542,35);
  (7551220246980784107370847918383766,34); (6192146010598468733496966351254523,35);
  (8126350510766505837016775644301449,34); (5297295426208088754872287012693645,35);
  (8609392379147269660847870402148237,34); (4363451763176881013652297143180808,35);
  (9000133530038206540570819784586559,34); (3461756056896305839742362121475885,35);
  (9304598781291074706540946586524644,34); (2645008568880322142250558109308671,35);
  (9533057089898110556337114900891840,34); (1945268392441927975961908014194728,35);
  (9697999629732706508739329393163063,34); (1375433574415704366776081688103420,35);
  (9812408803321251953686367928046130,34); (9332042964742360929619188825804495,36);
  (9888478026539245239809233321265729,34); (6059126992439916116809135606134180,36);
  (9936810457275389457015949176050517,34); (3751332955663190828237075811591715,36);
  (9966041090366954647671529182701424,34); (2204767127029366256337823507357178,36);
  (9982787223026054935743639944259192,34); (1223511385898358614299602326039440,36);
  (9991823524102634736744635677121225,34); (6370802473835979050974370001903514,37);
  (9996386073309511190381399296485925,34); (3090294636628911478095151938883558,37);
  (9998525635766666978053571189442495,34); (1385185573668190994128740454688055,37);
  (9999449736762218918382081040813606,34); (5685870461984045510579534458202979,38);
  (9999813966389917061653531382798875,34); (2116045101802037791732223353723952,38);
  (9999943644589461491554680821477201,34); (7061594850195625751302971627656731,39);
  (9999984885872029327017137869236167,34); (2087649911643505665838701046332609,39);
  (9999996458583120243759381632496306,34); (5394934568606771684477850729094395,40);
  (9999999285556254821103596742052634,34); (1200878736993865351197280517957867,40);
  (9999999877890074915688949393974534,34); (2265469660873620412894101138442467,41);
  (9999999982630195092484682099223908,34); (3557992370743598672504837862736945,42);
  (9999999997983651875582384577888212,34); (4561233016199473700194137577046396,43);
  (9999999999813087336311860093962706,34); (4670327408029483448613666485168189,44);
  (9999999999986491530483205441354719,34); (3728862992492614279822132092328147,45);
  (9999999999999258740952683438635915,34); (2260784545755747832911179029127978,46);
  (9999999999999970006487020888506782,34); (1010839623601096143000049420239413,47);
  (9999999999999999133553093375096092,34); (3227015205809268790223535905145102,49);
  (9999999999999999982757388245657877,34); (7097373611570213365452571262569072,51);
  (9999999999999999999772768330320223,34); (1033772010590304580126421540665545,52);
  (9999999999999999999998101572753061,34); (9546237239320930268954521559906157,55);
  (9999999999999999999999990418393271,34); (5325693907997458228942730229417601,57)].
Definition tanh_sinh_73 : list (Z * Z) := [
  (5050297230556087024106832677383690,58); (2809078825547792058042580437819921,57);
  (1007200671489008665646199644026000,55); (5073729514188454439785269103108862,55);
  (1218948515000809057428237808719460,53); (5561314274452318671282762418550667,53);
  (9385683984776705403410445019385474,52); (3878455686075045211860294256623870,51);
  (4799122850389077013784393512053959,50); (1796304907424228356081320411310305,49);
  (1694041577933685842342841262475985,48); (5743773956894063530039303400529006,48);
  (4275789354440660862512594112151299,47); (1313351524545112951946171245317488,46);
  (7966467401093941384257720089901818,46); (2217002205366131697198123991373886,45);
  (1127715384539058903567731018649855,44); (2843736942377562554978329137987079,44);
  (1244995522236945855542640175200776,43); (2845200895707766609856658234003713,43);
  (1097630636211119061485526487188927,42); (2273717702913090304195829920483802,42);
  (7895635244595718445015873418891309,42); (1482859046104221206552555812431817,41);
  (4725102801348517937178534180571953,41); (8047757447839376456966859862587968,41);
  (2394371910562210617502912154791702,40); (3699558508929267534732169848185623,40);
  (1043946758165647255671744266975091,39); (1463881480526397864259487841422435,39);
  (3973537774235735356322743232012846,39); (5059243301154106963173404801822098,39);
  (1337862581793536212973190548266271,38); (1547586951158188538485053507756779,38);
  (4032511049697988137233125951551181,38); (4240907136386637286700756166432599,38);
  (1099978348959959835948994448734870,37); (1052605782978853106971432226823569,37);
  (2742286793448878913322042004835438,37); (2390052670746084507159500669865002,37);
  (6304238022489891423220256990481841,37); (5009631830033427800323550999110876,37);
  (1347214301374785063149845644876790,36); (9772182593282700993340011824187993,37);
  (2695642623285348913697914513279992,36); (1786958368181941511731871489754016,36);
  (5082847924537779705005351550122367,36); (3082808250618897571008580262984837,36);
  (9083281593690180564670042578549677,36); (5045249245441452222912509838151953,36);
  (1546064923381322381745692908646599,35); (7869382022086852704734794696369104,36);
  (2517217723554745958456881778964340,35); (1174262266487873163386088298570693,35);
  (3934572324197640842547757327736284,35); (1681269064466786908721126894496231,35);
  (5922034119661315411837664476568866,35); (2314690102468415353411385355695808,35);
  (8604327968660742975253040059677998,35); (3068671610388002141268150241888041,35);
  (1209223549124969433842898950952362,34); (3920568310264367636164398366066894,35);
  (1646430200008063167707130820897603,34); (4828328300575248863444611855326248,35);
  (2174734791538671128242656773169493,34); (5730965628779621544755908535646487,35);
  (2789954705194200439131753840540618,34); (6553374696410565741067021121775527,35);
  (3480067892650571710823325863585630,34); (7215800514522693751678590994255562,35);
  (4225373720581118243286891520518197,34); (7646729609663612023913899155071832,35);
  (5000000000000000000000000000000000,34); (7796335573798498068084341098486204,35);
  (5774626279418881756713108479481803,34); (7646729609663612023913899155071832,35);
  (6519932107349428289176674136414370,34); (7215800514522693751678590994255562,35);
  (7210045294805799560868246159459381,34); (6553374696410565741067021121775524,35);
  (7825265208461328871757343226830507,34); (5730965628779621544755908535646487,35);
  (8353569799991936832292869179102397,34); (4828328300575248863444611855326247,35);
  (8790776450875030566157101049047638,34); (3920568310264367636164398366066892,35);
  (9139567203133925702474695994032201,34); (3068671610388002141268150241888040,35);
  (9407796588033868458816233552343114,34); (2314690102468415353411385355695808,35);
  (9606542767580235915745224267226371,34); (1681269064466786908721126894496231,35);
  (9748278227644525404154311822103566,34); (1174262266487873163386088298570693,35);
  (9845393507661867761825430709135340,34); (7869382022086852704734794696369106,36);
  (9909167184063098194353299574214504,34); (5045249245441452222912509838151953,36);
  (9949171520754622202949946484498777,34); (3082808250618897571008580262984837,36);
  (9973043573767146510863020854867200,34); (1786958368181941511731871489754016,36);
  (9986527856986252149368501543551232,34); (9772182593282700993340011824187993,37);
  (9993695761977510108576779743009518,34); (5009631830033427800323550999110876,37);
  (9997257713206551121086677957995164,34); (2390052670746084507159500669865002,37);
  (9998900021651040040164051005551264,34); (1052605782978853106971432226823571,37);
  (9999596748895030201186276687404845,34); (4240907136386637286700756166432606,38);
  (9999866213741820646378702680945174,34); (1547586951158188538485053507756777,38);
  (9999960264622257642646436772567680,34); (5059243301154106963173404801822099,39);
  (9999989560532418343527443282557331,34); (1463881480526397864259487841422435,39);
  (9999997605628089437789382497087845,34); (3699558508929267534732169848185622,40);
  (9999999527489719865148206282146583,34); (8047757447839376456966859862587968,41);
  (9999999921043647554042815549841265,34); (1482859046104221206552555812431817,41);
  (9999999989023693637888809385144736,34); (2273717702913090304195829920483802,42);
  (9999999998755004477763054144457361,34); (2845200895707766609856658234003713,43);
  (9999999999887228461546094109643227,34); (2843736942377562554978329137987079,44);
  (9999999999992033532598906058615742,34); (2217002205366131697198123991373886,45);
  (9999999999999572421064555933913748,34); (1313351524545112951946171245317488,46);
  (9999999999999983059584220663141576,34); (5743773956894063530039303400529006,48);
  (9999999999999999520087714961092300,34); (1796304907424228356081320411310316,49);
  (9999999999999999990614316015223295,34); (3878455686075045211860294256623870,51);
  (9999999999999999999878105148499919,34); (5561314274452318671282762418550667,53);
  (9999999999999999999998992799328510,34); (5073729514188454439785269103108862,55);
  (9999999999999999999999994949702770,34); (2809078825547792058042580437819921,57)].
Definition tanh_sinh_74 : list (Z * Z) := [
  (2665888474962916138036371559709868,58); (1483852173187747280328629811661247,57);
  (5350822584497141288689814092112581,56); (2700142273292276919668426589682326,55);
  (6546097673818214284193572151140084,54); (2994895880964323128163863319444695,53);
  (5113069875767204940389468065626359,52); (2120963734922078413603206990993759,51);
  (2659444856335045214411852063043385,50); (1000271803577296453796136120878191,49);
  (9569254618535527482450846773469523,49); (3263690404953225766092629707599430,48);
  (2465846463177494609254844395537868,47); (7626672225050486023145551684482880,47);
  (4695456568517639483662939090025422,46); (1317124754202045652714516942337996,45);
  (6797797581879682411048373268009357,45); (1729610040109791835470057741154351,44);
  (7677907822095293219239752037300668,44); (1772211516115034437369990541320863,43);
  (6925746609419708051023541573061678,43); (1450464319399300696435424471806288,42);
  (5096374825289640833542887494283867,42); (9686364882238795397241894446860538,42);
  (3118857116958259713351470609764978,41); (5381021167724404715731127790602244,41);
  (1615341259847370820066525465274809,40); (2530682294672330973525928079167838,40);
  (7193883708070983080765230350874055,40); (1023773042903296938562818834654671,39);
  (2794828275164108074107906691202480,39); (3614591455246021923515344391541586,39);
  (9596839138856063184733855106035768,39); (1128582279946685327342015898893204,38);
  (2947484930805968449432954257655765,38); (3153850410334287054429585162947078,38);
  (8185056459964034326020163989052072,38); (7975003538435513688601384605643417,38);
  (2075407216304508608236514229582775,37); (1842984246500413276450737665584196,37);
  (4848017331786035182043986160726905,37); (3927648699384450013929600920499500,37);
  (1051725765635704898347797331461178,36); (7782226251954788876610397177565516,37);
  (2134367878407354890423640103492001,36); (1444134482774206796274117937138266,36);
  (4078354638664913710868176497229778,36); (2526119481702558412343129018075338,36);
  (7379951194178915428873099010633442,36); (4188813052865613845262966065023439,36);
  (1271083386318869837765412865326910,35); (6616154955971049631053694042957098,36);
  (2092925269191954082559386987782384,35); (9993672297929908591459130283408068,36);
  (3306905672088044156218227839061241,35); (1448183850620178872729523512817707,35);
  (5029764012536271814209115965468431,35); (2018074115930331457251303894170462,35);
  (7383510099994503397542746670656315,35); (2708849523544106001940426550680703,35);
  (1048309545084547576492657946656202,34); (3505925064555390810564811355186599,35);
  (1442026323218296023391053232960211,34); (4377074710873091729627845742476645,35);
  (1924517488565262706682573784384797,34); (5271463776455737632698497335102460,35);
  (2494877186176838995452153908004378,34); (6122279683132275880395501860612500,35);
  (3144992191287117766385332440401304,34); (6853713009625749105018475090297465,35);
  (3859159777343174797359526786957051,34); (7391840503459721998127384062749319,35);
  (4614912429722922855067029973668631,34); (7677424648903719297074036806350751,35);
  (5385087570277077144932970026331369,34); (7677424648903719297074036806350751,35);
  (6140840222656825202640473213042949,34); (7391840503459721998127384062749319,35);
  (6855007808712882233614667559598697,34); (6853713009625749105018475090297465,35);
  (7505122813823161004547846091995621,34); (6122279683132275880395501860612500,35);
  (8075482511434737293317426215615203,34); (5271463776455737632698497335102460,35);
  (8557973676781703976608946767039789,34); (4377074710873091729627845742476645,35);
  (8951690454915452423507342053343798,34); (3505925064555390810564811355186599,35);
  (9261648990000549660245725332934370,34); (2708849523544106001940426550680703,35);
  (9497023598746372818579088403453156,34); (2018074115930331457251303894170462,35);
  (9669309432791195584378177216093877,34); (1448183850620178872729523512817707,35);
  (9790707473080804591744061301221762,34); (9993672297929908591459130283408068,36);
  (9872891661368113016223458713467309,34); (6616154955971049631053694042957098,36);
  (9926200488058210845711269009893666,34); (4188813052865613845262966065023441,36);
  (9959216453613350862891318235027703,34); (2526119481702558412343129018075338,36);
  (9978656321215926451095763598965080,34); (1444134482774206796274117937138266,36);
  (9989482742343642951016522026685389,34); (7782226251954788876610397177565515,37);
  (9995151982668213964817956013839274,34); (3927648699384450013929600920499500,37);
  (9997924592783695491391763485770417,34); (1842984246500413276450737665584196,37);
  (9999181494354003596567397983601095,34); (7975003538435513688601384605643417,38);
  (9999705251506919403155056704574236,34); (3153850410334287054429585162947078,38);
  (9999904031608611439368152661448939,34); (1128582279946685327342015898893204,38);
  (9999972051717248358919258920933088,34); (3614591455246021923515344391541586,39);
  (9999992806116291929016919234769649,34); (1023773042903296938562818834654671,39);
  (9999998384658740152629179933474536,34); (2530682294672330973525928079167838,40);
  (9999999688114288304174028664852939,34); (5381021167724404715731127790602244,41);
  (9999999949036251747103591664571125,34); (9686364882238795397241894446860566,42);
  (9999999993074253390580291948976458,34); (1450464319399300696435424471806292,42);
  (9999999999232209217790470678076025,34); (1772211516115034437369990541320863,43);
  (9999999999932022024181203175889515,34); (1729610040109791835470057741154351,44);
  (9999999999995304543431482360516338,34); (1317124754202045652714516942337996,45);
  (9999999999999753415353682250539075,34); (7626672225050486023145551684482883,47);
  (9999999999999990430745381464472517,34); (3263690404953225766092629707599429,48);
  (9999999999999999734055514366495479,34); (1000271803577296453796136120878191,49);
  (9999999999999999994886930124232795,34); (2120963734922078413603206990993759,51);
  (9999999999999999999934539023261819,34); (2994895880964323128163863319444695,53);
  (9999999999999999999999464917741550,34); (2700142273292276919668426589682327,55);
  (9999999999999999999999997334111526,34); (1483852173187747280328629811661247,57)].
Definition tanh_sinh_75 : list (Z * Z) := [
  (1409295929909207929226208632890777,58); (7849560668717519352973328022903649,58);
  (2846417113953614487581006262658734,56); (1438804686596707296655486317460879,55);
  (3519285470004715499204401295832887,54); (1614481093267838182982857643559595,53);
  (2787717006634476647428541177974397,52); (1160701504920711678976553799412017,51);
  (1474455753617070649505474152354120,50); (5572102994088823627952732229126953,50);
  (5406248817757816716469576791724662,49); (1854495625168031703260622631767715,48);
  (1421770936275270731773661700040538,47); (4427253743916435347453251840189716,47);
  (2766025525685478225074326114816489,46); (7819437838108579852732548766961083,46);
  (4094131235358196794339857920205716,45); (1050857144495731505363030031471440,44);
  (4729443950389248418483991844903941,44); (1102333008976654028888456532537290,43);
  (4363621933711640432366510360961190,43); (9237219714453899477306902576923217,43);
  (3283946193311099255400007710550635,42); (6314910949589628392658879679236301,42);
  (2054676537351657563053025401711455,41); (3590008204302084773425316533575034,41);
  (1087471318553671904250313604456554,40); (1726935843752166018822492224771775,40);
  (4946071465800388102356566249082663,40); (7141298394078514766461871404491345,40);
  (1961055565495233897971577656417025,39); (2575423388948024119036382818453487,39);
  (6866901444770203685928667664099679,39); (8206961632707765842376222849765972,39);
  (2148898003757395814509187023651818,38); (2338646340943226784875734355612572,38);
  (6074804807160859945835733510453764,38); (6024504713425242989404460481822790,38);
  (1566618521034102971301805740907668,37); (1416960792983268006429957360246265,37);
  (3718530221498719063132087627939321,37); (3070352491896779342503617473572797,37);
  (8189500245490202387532010800642486,37); (6179564326108539259294589316427429,37);
  (1685710855960557025440622660777433,36); (1163741975378993270696723645106116,36);
  (3264285650453993422364754863600931,36); (2064078282842010458067096964804260,36);
  (5981422634248386788211922670447233,36); (3467855172413630367304566903768119,36);
  (1042480265119090777678545361709335,35); (5546371494608253676868439552778967,36);
  (1735918443221280075565141451117145,35); (8479536386721502749245887875820756,36);
  (2772478201611500517359981403779417,35); (1243400151888538124703950581513204,35);
  (4260957316207809218749882345351300,35); (1753294793528771645995202399623555,35);
  (6318768143094261340665440858576575,35); (2381885846677181499051129666872126,35);
  (9061856046830593587211635973840182,35); (3121330241487862676938748278725119,35);
  (1259074882521526380482852932193845,34); (3948136236121754369960890841542785,35);
  (1697373450505937010856838945573319,34); (4821185967377124717374649730093826,35);
  (2222938433818952533731525968177270,34); (5682608624795956199975856806044736,35);
  (2831181549131982547872928150576283,34); (6462499573410937658942671311943909,35);
  (3510270544574969323725048007129989,34); (7087627760122221118828861462599721,35);
  (4241357693619014515214731955435331,34); (7492952248528594626876552689202316,35);
  (5000000000000000000000000000000000,34); (7633434101654647352268336569732689,35);
  (5758642306380985484785268044564668,34); (7492952248528594626876552689202316,35);
  (6489729455425030676274951992870012,34); (7087627760122221118828861462599721,35);
  (7168818450868017452127071849423716,34); (6462499573410937658942671311943909,35);
  (7777061566181047466268474031822730,34); (5682608624795956199975856806044738,35);
  (8302626549494062989143161054426682,34); (4821185967377124717374649730093826,35);
  (8740925117478473619517147067806155,34); (3948136236121754369960890841542785,35);
  (9093814395316940641278836402615981,34); (3121330241487862676938748278725119,35);
  (9368123185690573865933455914142343,34); (2381885846677181499051129666872125,35);
  (9573904268379219078125011765464870,34); (1753294793528771645995202399623555,35);
  (9722752179838849948264001859622057,34); (1243400151888538124703950581513204,35);
  (9826408155677871992443485854888286,34); (8479536386721502749245887875820754,36);
  (9895751973488090922232145463829067,34); (5546371494608253676868439552778971,36);
  (9940185773657516132117880773295528,34); (3467855172413630367304566903768120,36);
  (9967357143495460065776352451363990,34); (2064078282842010458067096964804260,36);
  (9983142891440394429745593773392226,34); (1163741975378993270696723645106116,36);
  (9991810499754509797612467989199359,34); (6179564326108539259294589316427429,37);
  (9996281469778501280936867912372061,34); (3070352491896779342503617473572797,37);
  (9998433381478965897028698194259093,34); (1416960792983268006429957360246265,37);
  (9999392519519283914005416426648954,34); (6024504713425242989404460481822790,38);
  (9999785110199624260418549081297635,34); (2338646340943226784875734355612576,38);
  (9999931330985552297963140713323360,34); (8206961632707765842376222849765972,39);
  (9999980389444345047661020284223436,34); (2575423388948024119036382818453487,39);
  (9999995053928534199611897643433750,34); (7141298394078514766461871404491345,40);
  (9999998912528681446328095749686397,34); (1726935843752166018822492224771775,40);
  (9999999794532346264834243694697459,34); (3590008204302084773425316533575034,41);
  (9999999967160538066889007445999922,34); (6314910949589628392658879679236300,42);
  (9999999995636378066288359567633489,34); (9237219714453899477306902576923217,43);
  (9999999999527055604961075158151600,34); (1102333008976654028888456532537290,43);
  (9999999999959058687646418032056601,34); (1050857144495731505363030031471441,44);
  (9999999999997233974474314521774926,34); (7819437838108579852732548766961083,46);
  (9999999999999857822906372472926824,34); (4427253743916435347453251840189716,47);
  (9999999999999994593751182242183284,34); (1854495625168031703260622631767715,48);
  (9999999999999999852554424638292934,34); (5572102994088823627952732229126954,50);
  (9999999999999999997212282993365523,34); (1160701504920711678976553799412017,51);
  (9999999999999999999964807145299952,34); (1614481093267838182982857643559595,53);
  (9999999999999999999999715358288604,34); (1438804686596707296655486317460879,55);
  (9999999999999999999999998590704070,34); (7849560668717519352973328022903649,58)].
Definition tanh_sinh_76 : list (Z * Z) := [
  (7460822147164682881208163198511169,59); (4158315277168778462492028211637602,58);
  (1516146509290368252509841961087209,56); (7676525862765602525510178489073753,56);
  (1894068959859824245981425740484761,54); (8712173437454112745343359511522595,54);
  (1521125210221990889467825377700183,52); (6356532408360118857614569128977759,52);
  (8178738536670205821438765274613493,51); (3105183570857392354261600080582261,50);
  (3054808605878814032437621194322807,49); (1053795037521755060187460987912535,48);
  (8196284736855005710085464902331219,48); (2569160878098052555301991343032793,47);
  (1628598974484483792849984521637501,46); (4639038750993142635372032896078005,46);
  (2463748096688627246022241813122629,45); (6378155279501001541259905255300398,45);
  (2909966033999755282647137900241370,44); (6847413715068470593170855152506918,44);
  (2745479007112800494840117264479031,43); (5873042044091096472804757117983695,43);
  (2112577495045897074184211905339997,42); (4109078092463180216214181782590923,42);
  (1351068571294801194111358990495450,41); (2389974018558520859295484818025535,41);
  (7305911667593681681534186652453110,41); (1175687336712389525602147421383047,40);
  (3393055798918629534214990823937960,40); (4968806523435165092307419277628956,40);
  (1372784482828315864212233404110739,39); (1830115012373875148950318967730342,39);
  (4901494315436840197987518753892431,39); (5951486282799208940463347164738813,39);
  (1562735530841916843444066069486611,38); (1729218190083271821875242365376415,38);
  (4497085960398466211362109914537212,38); (4537903908852084856836675290629086,38);
  (1179520501955857768747466398166063,37); (1086254915558121598911127481769898,37);
  (2844885145033504761695795165593472,37); (2393239695883836337707559625556009,37);
  (6360779590465410666902631165161609,37); (4892897290712385165901052604203411,37);
  (1328042211677769802633548549628716,36); (9351358527425534306902053686063296,37);
  (2606304109201802366055728288456822,36); (1681819342134542669438996416480366,36);
  (4836220530008266223869378457855836,36); (2862954452863695050808570694513300,36);
  (8529490326438316188857987546099890,36); (4636409392514025589407173330226401,36);
  (1436372512015056290182901053620380,35); (7173822713622504158549291414505222,36);
  (2318801176196568994874338473290015,35); (1064291382977900781356371120069017,35);
  (3600689993081932955445139785676447,35); (1518199532134431882426241380761583,35);
  (5393516292232284655886140416447679,35); (2086723993498536532165290671272163,35);
  (7811718095897413294661493095145823,35); (2767532171246814243529625896543646,35);
  (1096088594244586557826624678752140,34); (3544707334278723830818594505524357,35);
  (1492273556379276077351116482405706,34); (4386121598218413018202106985524223,35);
  (1973843168613145158713353597741892,34); (5242964103378029435425673771702681,35);
  (2539298551854763561420279532328076,34); (6052512948152071571763815623967516,35);
  (3180430992451142837557412640561186,34); (6744695319052919615299359469085760,35);
  (3882057201645994480508783426643519,34); (7251931278546913909557021076637735,35);
  (4622833637005352216956249643016784,34); (7520472649792369931619417559009657,35);
  (5377166362994647783043750356983215,34); (7520472649792369931619417559009657,35);
  (6117942798354005519491216573356481,34); (7251931278546913909557021076637735,35);
  (6819569007548857162442587359438814,34); (6744695319052919615299359469085760,35);
  (7460701448145236438579720467671923,34); (6052512948152071571763815623967516,35);
  (8026156831386854841286646402258109,34); (5242964103378029435425673771702681,35);
  (8507726443620723922648883517594293,34); (4386121598218413018202106985524223,35);
  (8903911405755413442173375321247861,34); (3544707334278723830818594505524357,35);
  (9218828190410258670533850690485417,34); (2767532171246814243529625896543646,35);
  (9460648370776771534411385958355233,34); (2086723993498536532165290671272163,35);
  (9639931000691806704455486021432355,34); (1518199532134431882426241380761583,35);
  (9768119882380343100512566152670998,34); (1064291382977900781356371120069017,35);
  (9856362748798494370981709894637962,34); (7173822713622504158549291414505222,36);
  (9914705096735616838111420124539000,34); (4636409392514025589407173330226401,36);
  (9951637794699917337761306215421441,34); (2862954452863695050808570694513300,36);
  (9973936958907981976339442717115431,34); (1681819342134542669438996416480366,36);
  (9986719577883222301973664514503713,34); (9351358527425534306902053686063293,37);
  (9993639220409534589333097368834839,34); (4892897290712385165901052604203411,37);
  (9997155114854966495238304204834407,34); (2393239695883836337707559625556009,37);
  (9998820479498044142231252533601833,34); (1086254915558121598911127481769898,37);
  (9999550291403960153378863789008546,34); (4537903908852084856836675290629086,38);
  (9999843726446915808315655593393051,34); (1729218190083271821875242365376419,38);
  (9999950985056845631598020124812461,34); (5951486282799208940463347164738802,39);
  (9999986272155171716841357877665959,34); (1830115012373875148950318967730343,39);
  (9999996606944201081370465785009176,34); (4968806523435165092307419277628954,40);
  (9999999269408833240631831846581335,34); (1175687336712389525602147421383047,40);
  (9999999864893142870519880588864100,34); (2389974018558520859295484818025535,41);
  (9999999978874225049541029258157880,34); (4109078092463180216214181782590923,42);
  (9999999997254520992887199505159882,34); (5873042044091096472804757117983695,43);
  (9999999999709003396600024471735287,34); (6847413715068470593170855152506918,44);
  (9999999999975362519033113727539777,34); (6378155279501001541259905255300398,45);
  (9999999999998371401025515516207150,34); (4639038750993142635372032896078005,46);
  (9999999999999918037152631449942899,34); (2569160878098052555301991343032793,47);
  (9999999999999996945191394121185967,34); (1053795037521755060187460987912535,48);
  (9999999999999999918212614633297942,34); (3105183570857392354261600080582261,50);
  (9999999999999999998478874789778010,34); (6356532408360118857614569128977759,52);
  (9999999999999999999981059310401403,34); (8712173437454112745343359511522650,54);
  (9999999999999999999999848385349070,34); (7676525862765602525510178489073751,56);
  (9999999999999999999999999253917785,34); (4158315277168778462492028211637604,58)].
Definition tanh_sinh_77 : list (Z * Z) := [
  (3955349490624775567854701224113408,59); (2205954206174144975016295092076209,58);
  (8086114062510596127197040435525743,57); (4100787765723266674919372478990128,56);
  (1020471373680652893037867333117773,54); (4706063619882893924924179665949796,54);
  (8306702825278050243693942769841894,53); (3483628149384236750649325101931149,52);
  (4538963686196363667469069787165919,51); (1731115573524739168782296465748045,50);
  (1726425584372976474287218428695583,49); (5988357847837616292478551970299926,49);
  (4724302579356284586806070289536954,48); (1490450224753039438105432372992321,47);
  (9584390187023940952329551955585331,47); (2750423962829336856142588968252761,46);
  (1481451458684766063643474388914006,45); (3867415816604547847823712715939395,45);
  (1788522067850656180152393171393576,44); (4247935081914071501656171992319343,44);
  (1725040590628486916147247086458669,43); (3728169395853170925808708367222919,43);
  (1356850915360608849727962801364255,42); (2668804952812404180690677945424776,42);
  (8867860852169663022113905193766976,42); (1587754192338570505683580359158454,41);
  (4898417966757138150015397148328630,41); (7985647116182187823657103196450010,41);
  (2322611650693387850153174927294447,40); (3448685620845996761555638475565317,40);
  (9587667479096897167509894773225043,40); (1297097683483331907906287448794455,39);
  (3490200465068878474861100019642331,39); (4304126354855743869333881029602361,39);
  (1133647347157159191947106054178604,38); (1275021421150139151177343999785327,38);
  (3320729746641152375178760887955009,38); (3408403603725231547068757451985999,38);
  (8858151315887388885801305055543740,38); (8303462257399647309251304127288600,38);
  (2170977614717431188555564508555783,37); (1860116565528754315120780010050506,37);
  (4927997353555878778778892880793566,37); (3863143179297072532214118171006147,37);
  (1043671053322391440275840706128833,36); (7493312275591433489637827587131107,37);
  (2075886653105168836344807587948081,36); (1366556313535317553080908974802408,36);
  (3900923002296323545679215404341223,36); (2357057172636359560232204840475368,36);
  (6962282886511475794965252861715059,36); (3865009323667112858653432971341624,36);
  (1185723882031593544358456012099180,35); (6051992751097550266709865813562279,36);
  (1934777076657273659097877967544095,35); (9082916010447882816848214775442540,36);
  (3035389476103501013670980466679331,35); (1310479326727564172597662716226815,35);
  (4592215462110991547113442539686985,35); (1821839927580929916353222237488309,35);
  (6716277239698446751964393193905971,35); (2444436965502157412821291741608303,35);
  (9515166992716476291940087406003561,35); (3168775852546391490223866211037326,35);
  (1307991027652754422265294927073247,34); (3970815135429050044984405166294276,35);
  (1746952245574834002181224386019088,34); (4810522142445195358006321543610049,35);
  (2269534606054238139260948054016684,34); (5633048082001973548797042877842431,35);
  (2870822414832049118541240053267946,34); (6373305980743407739523011550155429,35);
  (3539200293301346059171881845786282,34); (6963966505720041562385774700444107,35);
  (4256632613010601262037743137704689,34); (7345760049876064617840861190719716,35);
  (5000000000000000000000000000000000,34); (7477879550630162156056842248400481,35);
  (5743367386989398737962256862295311,34); (7345760049876064617840861190719716,35);
  (6460799706698653940828118154213718,34); (6963966505720041562385774700444107,35);
  (7129177585167950881458759946732054,34); (6373305980743407739523011550155429,35);
  (7730465393945761860739051945983317,34); (5633048082001973548797042877842431,35);
  (8253047754425165997818775613980913,34); (4810522142445195358006321543610049,35);
  (8692008972347245577734705072926754,34); (3970815135429050044984405166294276,35);
  (9048483300728352370805991259399644,34); (3168775852546391490223866211037327,35);
  (9328372276030155324803560680609404,34); (2444436965502157412821291741608303,35);
  (9540778453788900845288655746031302,34); (1821839927580929916353222237488309,35);
  (9696461052389649898632901953332066,34); (1310479326727564172597662716226815,35);
  (9806522292334272634090212203245591,34); (9082916010447882816848214775442540,36);
  (9881427611796840645564154398790082,34); (6051992751097550266709865813562279,36);
  (9930377171134885242050347471382849,34); (3865009323667112858653432971341624,36);
  (9960990769977036764543207845956588,34); (2357057172636359560232204840475368,36);
  (9979241133468948311636551924120519,34); (1366556313535317553080908974802408,36);
  (9989563289466776085597241592938712,34); (7493312275591433489637827587131106,37);
  (9995072002646444121221221107119207,34); (3863143179297072532214118171006147,37);
  (9997829022385282568811444435491443,34); (1860116565528754315120780010050506,37);
  (9999114184868411261111419869494446,34); (8303462257399647309251304127288601,38);
  (9999667927025335884762482123911205,34); (3408403603725231547068757451985999,38);
  (9999886635265284284080805289394583,34); (1275021421150139151177343999785325,38);
  (9999965097995349311215251388999804,34); (4304126354855743869333881029602361,39);
  (9999990412332520903102832490105227,34); (1297097683483331907906287448794455,39);
  (9999997677388349306612149846825072,34); (3448685620845996761555638475565317,40);
  (9999999510158203324286184998460285,34); (7985647116182187823657103196450010,41);
  (9999999911321391478303369778860947,34); (1587754192338570505683580359158454,41);
  (9999999986431490846393911502720372,34); (2668804952812404180690677945424777,42);
  (9999999998274959409371513083852753,34); (3728169395853170925808708367222920,43);
  (9999999999821147793214934381984761,34); (4247935081914071501656171992319330,44);
  (9999999999985185485413152339363565,34); (3867415816604547847823712715939395,45);
  (9999999999999041560981297605904767,34); (2750423962829336856142588968252760,46);
  (9999999999999952756974206437154131,34); (1490450224753039438105432372992321,47);
  (9999999999999998273574415627023525,34); (5988357847837616292478551970299926,49);
  (9999999999999999954610363138036364,34); (1731115573524739168782296465748045,50);
  (9999999999999999999169329717472195,34); (3483628149384236750649325101931171,52);
  (9999999999999999999989795286263193,34); (4706063619882893924924179665949796,54);
  (9999999999999999999999919138859374,34); (4100787765723266674919372478990128,56);
  (9999999999999999999999999604465052,34); (2205954206174144975016295092076209,58)].
Definition tanh_sinh_78 : list (Z * Z) := [
  (2099841233369805496748484572422147,59); (1171851436446371445364820599567567,58);
  (4318036134220145551918528230300250,57); (2193318956863980165186376048245315,56);
  (5503819511204109860260694373639387,55); (2544616133437976368942478112572126,54);
  (4539811989025040967451638489458955,53); (1910532394138094665832933318822667,52);
  (2520256092596236766237232314121065,51); (9654700680610743188586260022609832,51);
  (9758725320703306348949936260054386,50); (3403203791840014328536415825912520,49);
  (2722705341761924643143936585266048,48); (8644186433031410653322577251802671,48);
  (5637925933845427992045237066184728,47); (1629690471383576007686075378132964,46);
  (8901231546632107184796237035484729,46); (2342819024562672700053286924856530,45);
  (1098111633499686632686492875863252,44); (2632006720838582241650138693852848,44);
  (1082454705223772308364798248424448,43); (2362985992401594136366093650070457,43);
  (8701112456603271872380425736850329,43); (1730247782619164370166776068146252,42);
  (5810171174582740848552437810992461,42); (1052665391882446296395908828553122,41);
  (3277806563023453554492121026181794,41); (5411977442274387787589533515748822,41);
  (1586492898159407617590683543899735,40); (2387846620507958384848282845901864,40);
  (6681006287456446565168028621913387,40); (9169705618530867270550911990406234,40);
  (2479393017347454949596167495861504,39); (3104442456661793027763998683805394,39);
  (8203715770595616705771780526022969,39); (9375366132804204516599868109392342,39);
  (2445990464222973215492544311862276,38); (2552859494361862771606040121289070,38);
  (6635739683476798180899197951416448,38); (6329307972836011632025440333396340,38);
  (1652548822170902573622913746826329,37); (1441663459267382530582284399697881,37);
  (3808439271028385952675948154987526,37); (3041543747784915064724378422363052,37);
  (8181751566744083317652942955701650,37); (5987776737138006101722093413243583,37);
  (1649419904613821246486932513767162,36); (1107346136717050201492025888587477,36);
  (3139037075573142432072630184089628,36); (1935281191614097262206367999507190,36);
  (5669749075452546654933022294304688,36); (3213198994011465989668929958524129,36);
  (9765462133177105271110659460951103,36); (5091517944870992800564559477758832,36);
  (1610608485569429372736669880280132,35); (7729476817500348055659362543383258,36);
  (2552819227028731333689722807961806,35); (1127769560640496309314187883724174,35);
  (3900485357758042237417383678003722,35); (1585396087858560085485448531436872,35);
  (5759812620909027066178194217694568,35); (2151304107509701425604470444794049,35);
  (8237941274227265324543436794543467,35); (2821325416414897180573804155291830,35);
  (1143168798842802050259911823557672,34); (3578516458931787696472176367636485,35);
  (1541359505029365750993864264361129,34); (4391059948111659770095912326591260,35);
  (2021680956638057194647017572554530,34); (5212191367568700267023696069363061,35);
  (2582128794757945071593641210483023,34); (5983042898551885877167971115804112,35);
  (3214449478336882358191490309723620,34); (6638785772930033969309380437746803,35);
  (3903971625108864786711825486818303,34); (7117537467380868457595253642163123,35);
  (4630403444697303378976282887102353,34); (7370426578158618324725237185244604,35);
  (5369596555302696621023717112897647,34); (7370426578158618324725237185244604,35);
  (6096028374891135213288174513181697,34); (7117537467380868457595253642163123,35);
  (6785550521663117641808509690276380,34); (6638785772930033969309380437746803,35);
  (7417871205242054928406358789516977,34); (5983042898551885877167971115804112,35);
  (7978319043361942805352982427445470,34); (5212191367568700267023696069363061,35);
  (8458640494970634249006135735638871,34); (4391059948111659770095912326591260,35);
  (8856831201157197949740088176442328,34); (3578516458931787696472176367636485,35);
  (9176205872577273467545656320545654,34); (2821325416414897180573804155291829,35);
  (9424018737909097293382180578230544,34); (2151304107509701425604470444794049,35);
  (9609951464224195776258261632199628,34); (1585396087858560085485448531436872,35);
  (9744718077297126866631027719203819,34); (1127769560640496309314187883724174,35);
  (9838939151443057062726333011971987,34); (7729476817500348055659362543383259,36);
  (9902345378668228947288893405390489,34); (5091517944870992800564559477758832,36);
  (9943302509245474533450669777056954,34); (3213198994011465989668929958524129,36);
  (9968609629244268575679273698159103,34); (1935281191614097262206367999507190,36);
  (9983505800953861787535130674862329,34); (1107346136717050201492025888587477,36);
  (9991818248433255916682347057044298,34); (5987776737138006101722093413243583,37);
  (9996191560728971614047324051845012,34); (3041543747784915064724378422363052,37);
  (9998347451177829097426377086253174,34); (1441663459267382530582284399697881,37);
  (9999336426031652320181910080204858,34); (6329307972836011632025440333396331,38);
  (9999755400953577702678450745568813,34); (2552859494361862771606040121289070,38);
  (9999917962842294043832942282194740,34); (9375366132804204516599868109392342,39);
  (9999975206069826525450504038325040,34); (3104442456661793027763998683805394,39);
  (9999993318993712543553434831971378,34); (9169705618530867270550911990406234,40);
  (9999998413507101840592382409316456,34); (2387846620507958384848282845901864,40);
  (9999999672219343697654644550787899,34); (5411977442274387787589533515748822,41);
  (9999999941898288254172591514475622,34); (1052665391882446296395908828553122,41);
  (9999999991298887543396728127619574,34); (1730247782619164370166776068146252,42);
  (9999999998917545294776227691635201,34); (2362985992401594136366093650070464,43);
  (9999999999890188836650031336731350,34); (2632006720838582241650138693852848,44);
  (9999999999991098768453367892815203,34); (2342819024562672700053286924856530,45);
  (9999999999999436207406615457200795,34); (1629690471383576007686075378132964,46);
  (9999999999999972772946582380753568,34); (8644186433031410653322577251802671,48);
  (9999999999999999024127467929669365,34); (3403203791840014328536415825912520,49);
  (9999999999999999974797439074037632,34); (9654700680610743188586260022609832,51);
  (9999999999999999999546018801097495,34); (1910532394138094665832933318822655,52);
  (9999999999999999999994496180488795,34); (2544616133437976368942478112572126,54);
  (9999999999999999999999956819638657,34); (2193318956863980165186376048245315,56);
  (9999999999999999999999999790015877,34); (1171851436446371445364820599567567,58)].
Definition tanh_sinh_79 : list (Z * Z) := [
  (1116301510009969572801811063679462,59); (6233556034106301765007259994904497,59);
  (2308725324153152661492822814739035,57); (1174520568259872112686802437174220,56);
  (2971532743567691476393094915561013,55); (1377258559023191650399216512006179,54);
  (2483079089370905689441468012073014,53); (1048545515986938617562767686175105,52);
  (1400076643802678192067598082605684,51); (5386772091402886443484103162046566,51);
  (5517278050563165671361357738860568,50); (1934210511168791781110939979498449,49);
  (1568969245662718053383728623101566,48); (5012125064675661750540858483827224,48);
  (3315053012560145194015687067961698,47); (9650692759653361569501637272863833,47);
  (5344396942073983965067836296623937,46); (1417965699884165823938281744788542,45);
  (6735364964761546119351412520167865,45); (1628821398179223573330069611535324,44);
  (6783718052261581237918101514352875,44); (1495481943513832982395077419631292,43);
  (5571348097243095116700010153152985,43); (1119803453090701783654252726438799,42);
  (3800213832314886035940180472667333,42); (6965276351127229344567022367072913,42);
  (2189160536237550198542864360371451,41); (3659769709101536554259286041463050,41);
  (1081424357421870926163818606886037,40); (1649433158117229831050265675889825,40);
  (4645249011169013808583936317695815,40); (6466212722171229806764913614237745,40);
  (1757244933913878274961156535106389,39); (2233281664248874935744136120171444,39);
  (5922440149936433756814720031076652,39); (6875157093108070980722181739663298,39);
  (1797257775631281415838712607698789,38); (1906783868727466196350764131758550,38);
  (4958584434745945990265379168795023,38); (4811040081825750180409073743655743,38);
  (1254795642183533637654191752275520,37); (1114220934515818058816188348270998,37);
  (2935955934565493109421426264743328,37); (2388020031648055180459873662739327,37);
  (6398347163098523701103580970340846,37); (4771568054923215173443989232845017,37);
  (1307419767963930521700436687665292,36); (8948670238778317955179059132890043,37);
  (2520000882699193969928217666363535,36); (1584712009542710013306478825980508,36);
  (4606472848579850847088145868273938,36); (2664170574780983128723109964545488,36);
  (8024292234134387329488771051371298,36); (4271931305654963711921973801493406,36);
  (1337695595359016168657084549880473,35); (6559536553309752948137130125203827,36);
  (2142030289525937489964007762790882,35); (9677255956631733355352608920092330,36);
  (3305155829801634308440615524426593,35); (1375365991937258781869970650926269,35);
  (4927486531965566202320912365761066,35); (1886916465595198401894491298318576,35);
  (7113798893069914349078041083741858,35); (2502528309728316973276734554495588,35);
  (9963765422167203057611517816523720,35); (3211351291616517198878749584148928,35);
  (1355962145651405160685542190938723,34); (3989041376793572659657301529729932,35);
  (1795200733992802361004090543317515,34); (4796760007667200205012161559932692,35);
  (2314593967353308846890700961836310,34); (5582571261714977074760902952927162,35);
  (2908965588623965617113303533981408,34); (6285847274885041477083164616214954,35);
  (3566937372990327062353884914824583,34); (6844604104333553197844735122411590,35);
  (4271246098427139703157349206567813,34); (7204729825167225279107357184593721,35);
  (5000000000000000000000000000000000,34); (7329168697344159704636168940824077,35);
  (5728753901572860296842650793432186,34); (7204729825167225279107357184593721,35);
  (6433062627009672937646115085175417,34); (6844604104333553197844735122411590,35);
  (7091034411376034382886696466018592,34); (6285847274885041477083164616214954,35);
  (7685406032646691153109299038163691,34); (5582571261714977074760902952927162,35);
  (8204799266007197638995909456682484,34); (4796760007667200205012161559932692,35);
  (8644037854348594839314457809061276,34); (3989041376793572659657301529729932,35);
  (9003623457783279694238848218347627,34); (3211351291616517198878749584148928,35);
  (9288620110693008565092195891625814,34); (2502528309728316973276734554495588,35);
  (9507251346803443379767908763423894,34); (1886916465595198401894491298318576,35);
  (9669484417019836569155938447557340,34); (1375365991937258781869970650926269,35);
  (9785796971047406251003599223720913,34); (9677255956631733355352608920092327,36);
  (9866230440464098383134291545011952,34); (6559536553309752948137130125203827,36);
  (9919757077658656126705112289486288,34); (4271931305654963711921973801493406,36);
  (9953935271514201491529118541317261,34); (2664170574780983128723109964545489,36);
  (9974799991173008060300717823336365,34); (1584712009542710013306478825980508,36);
  (9986925802320360694782995633123347,34); (8948670238778317955179059132890043,37);
  (9993601652836901476298896419029659,34); (4771568054923215173443989232845017,37);
  (9997064044065434506890578573735257,34); (2388020031648055180459873662739326,37);
  (9998745204357816466362345808247725,34); (1114220934515818058816188348270998,37);
  (9999504141556525405400973462083120,34); (4811040081825750180409073743655750,38);
  (9999820274222436871858416128739230,34); (1906783868727466196350764131758550,38);
  (9999940775598500635662431852799689,34); (6875157093108070980722181739663298,39);
  (9999982427550660861217250388434649,34); (2233281664248874935744136120171444,39);
  (9999995354750988830986191416063682,34); (6466212722171229806764913614237745,40);
  (9999998918575642578129073836181392,34); (1649433158117229831050265675889825,40);
  (9999999781083946376244980145713564,34); (3659769709101536554259286041463050,41);
  (9999999961997861676851139640598194,34); (6965276351127229344567022367072935,42);
  (9999999994428651902756904883299989,34); (1119803453090701783654252726438799,42);
  (9999999999321628194773841876208191,34); (1495481943513832982395077419631292,43);
  (9999999999932646350352384538806485,34); (1628821398179223573330069611535324,44);
  (9999999999994655603057926016034932,34); (1417965699884165823938281744788542,45);
  (9999999999999668494698743985480599,34); (9650692759653361569501637272863833,47);
  (9999999999999984310307543372819466,34); (5012125064675661750540858483827224,48);
  (9999999999999999448272194943683433,34); (1934210511168791781110939979498449,49);
  (9999999999999999985999233561973218,34); (5386772091402886443484103162046567,51);
  (9999999999999999999751692091062909,34); (1048545515986938617562767686175105,52);
  (9999999999999999999997028467256432,34); (1377258559023191650399216512006179,54);
  (9999999999999999999999976912746758,34); (1174520568259872112686802437174220,56);
  (9999999999999999999999999888369849,34); (6233556034106301765007259994904497,59)].
Definition tanh_sinh_80 : list (Z * Z) := [
  (5942379015165562632205229498029608,60); (3320297260007599701761710104193984,59);
  (1235918761038664669376290622302951,57); (6297039134223699068189538471560652,57);
  (1605996484729273183483134049912711,55); (7461617422904303827951592776672461,55);
  (1359204161933939765631158997612579,53); (5758767163309142469863549643398957,53);
  (7781790531159702396652221395272946,52); (3006756460655628262410333560474796,51);
  (3119953129576555905902694998854452,50); (1099415025204316868167202642665051,49);
  (9040391538212152004518622156522517,49); (2905500504783983112797437108716616,48);
  (1948448844639683917547568077721103,47); (5711802423768076287943921248377211,47);
  (3206616955828366744525121539708554,46); (8574684898698736318816591833710229,46);
  (4127188275105024518984473285301609,45); (1006829898030177699443726603607198,44);
  (4246110650373183125295373863674556,44); (9450972932008525390783914878525736,44);
  (3562113696552610459739843978496551,43); (7235018169124569554893819001134969,43);
  (2481396195220156714805756676776746,42); (4599922869051167888843621367043703,42);
  (1459348352120280265506745555684828,41); (2469603159701947953441109968324422,41);
  (7356492372685579365777736457715508,41); (1136742612461888754279418565205038,40);
  (3222804083268917065968392511366273,40); (4548618826741510202830636231198908,40);
  (1242595447955758940961762935085637,39); (1602458069238275625968337925261369,39);
  (4265455865503579906483822477544405,39); (5028299212286287381030164095122679,39);
  (1317394776446602027048169527257332,38); (1420342943404685964499846014509432,38);
  (3696254498833804318269155606070440,38); (3646899506415410507719916252582449,38);
  (9504364683743956658599186145274208,38); (8587693457084136351182877938395569,38);
  (2257811411753010552674020085823978,37); (1869754738069892502487710516572966,37);
  (4991559556734874395783186686650796,37); (3792025746317285340248595869438158,37);
  (1033860949587596925150710853489995,36); (7212131760943325723021640789799745,37);
  (2018305973103597986384715550134254,36); (1294199896923455020963218129424427,36);
  (3733993566214138547379735137626327,36); (2203129656862872523497816288135546,36);
  (6578632270533674760261244325175253,36); (3574803735249793305438030390260688,36);
  (1108528875172659283590728702742969,35); (5551711836886940522613672599583773,36);
  (1793290610090705059180491617929236,35); (8280774674199080384338726455588944,36);
  (2794272117232924613370563907153096,35); (1189632515641316642990804865662460,35);
  (4205470964880625541832209768227951,35); (1649723921655223095681429901588921,35);
  (6127859054582141009234855456748139,35); (2211921624756699339871704420432887,35);
  (8661574565453500686584928528562558,35); (2870496990802798339798049852220646,35);
  (1189522962241819847718716720477460,34); (3607740261225283558101382108639901,35);
  (1589298390198242093961996303554251,34); (4392313125029497730916283937571709,35);
  (2068084553192049032941532580724270,34); (5179492323121401732208872825389839,35);
  (2623447865306228687708631811923995,34); (5914032427537938348021865145899419,35);
  (3247131802669639902106189464230910,34); (6535900726675481989817315501754652,35);
  (3924966673207745650113054047141315,34); (6988341182702164406176652412609161,35);
  (4637645515816242454537676983834315,34); (7226825920642035251488950306311792,35);
  (5362354484183757545462323016165685,34); (7226825920642035251488950306311792,35);
  (6075033326792254349886945952858685,34); (6988341182702164406176652412609161,35);
  (6752868197330360097893810535769090,34); (6535900726675481989817315501754652,35);
  (7376552134693771312291368188076006,34); (5914032427537938348021865145899419,35);
  (7931915446807950967058467419275730,34); (5179492323121401732208872825389839,35);
  (8410701609801757906038003696445749,34); (4392313125029497730916283937571709,35);
  (8810477037758180152281283279522540,34); (3607740261225283558101382108639901,35);
  (9133842543454649931341507147143745,34); (2870496990802798339798049852220646,35);
  (9387214094541785899076514454325186,34); (2211921624756699339871704420432887,35);
  (9579452903511937445816779023177205,34); (1649723921655223095681429901588921,35);
  (9720572788276707538662943609284691,34); (1189632515641316642990804865662460,35);
  (9820670938990929494081950838207076,34); (8280774674199080384338726455588944,36);
  (9889147112482734071640927129725703,34); (5551711836886940522613672599583770,36);
  (9934213677294663252397387556748247,34); (3574803735249793305438030390260688,36);
  (9962660064337858614526202648623738,34); (2203129656862872523497816288135547,36);
  (9979816940268964020136152844498656,34); (1294199896923455020963218129424427,36);
  (9989661390504124030748492891465100,34); (7212131760943325723021640789799743,37);
  (9995008440443265125604216813313350,34); (3792025746317285340248595869438158,37);
  (9997742188588246989447325979914177,34); (1869754738069892502487710516572966,37);
  (9999049563531625604334140081385472,34); (8587693457084136351182877938395569,38);
  (9999630374550116619568173084439393,34); (3646899506415410507719916252582449,38);
  (9999868260522355339797295183047275,34); (1420342943404685964499846014509434,38);
  (9999957345441344964200935161775225,34); (5028299212286287381030164095122670,39);
  (9999987574045520442410590382370649,34); (1602458069238275625968337925261369,39);
  (9999996777195916731082934031607488,34); (4548618826741510202830636231198908,40);
  (9999999264350762731442063422226355,34); (1136742612461888754279418565205038,40);
  (9999999854065164787971973449325445,34); (2469603159701947953441109968324422,41);
  (9999999975186038047798432851942433,34); (4599922869051167888843621367043703,42);
  (9999999996437886303447389540260157,34); (7235018169124569554893819001134969,43);
  (9999999999575388934962681687470464,34); (9450972932008525390783914878525736,44);
  (9999999999958728117248949754810155,34); (1006829898030177699443726603607198,44);
  (9999999999996793383044171633255474,34); (8574684898698736318816591833710232,46);
  (9999999999999805155115536031608245,34); (5711802423768076287943921248377211,47);
  (9999999999999990959608461787847996,34); (2905500504783983112797437108716616,48);
  (9999999999999999688004687042344410,34); (1099415025204316868167202642665051,49);
  (9999999999999999992218209468840298,34); (3006756460655628262410333560474796,51);
  (9999999999999999999864079583806605,34); (5758767163309142469863549643398921,53);
  (9999999999999999999998394003515270,34); (7461617422904303827951592776672461,55);
  (9999999999999999999999987640812390,34); (6297039134223699068189538471560652,57);
  (9999999999999999999999999940576210,34); (3320297260007599701761710104193986,59)].
Definition tanh_sinh_81 : list (Z * Z) := [
  (3167477751807704429981658399581071,60); (1770869932625038291528396433728377,59);
  (6624170873463118686800172535001673,58); (3380040187642553180561096569622508,57);
  (8688628704725490206350445335504387,56); (4046414763499776226900686859662435,55);
  (7445917623465261011171385555563251,54); (3165046538228814496925759955646222,53);
  (4327420544384436918974551635123352,52); (1678998736221635591083390645709997,51);
  (1764685353971470691917937274263093,50); (6249826488787474532569502184483554,50);
  (5208670179201137863553488443891953,49); (1683956913880948296157205727378846,48);
  (1144789599766476661221377100366422,47); (3378796705542087306124627855319463,47);
  (1922686757948823450263302008187311,46); (5180978444850254460134298976134233,46);
  (2526628686229663836728011101430753,45); (6216601624935463020553018331888102,45);
  (2654590430648631166831006058060779,44); (5964407156916600041606837801708287,44);
  (2274237254345862908683991764403148,43); (4666844853043519403840590973550073,43);
  (1617605235228403962647678418996687,42); (3032141984980773099838461399756252,42);
  (9710625037313376677700894571548169,42); (1663027113650307344007446224983829,41);
  (4994382442068369132606868411918159,41); (7816490779898354081452559962613822,41);
  (2231186477768424948560459431195831,40); (3192028303725802156952062679227746,40);
  (8767103908610253570815483282620332,40); (1146924591829986645050752648073713,39);
  (3064940793403857657936970605918089,39); (3667955289973385107917482215297865,39);
  (9633565750128493913937534777802879,39); (1055165801364613975875087108751837,38);
  (2748625691988993645467276581861615,38); (2756939040087977632783010046877075,38);
  (7181520872084078812615598714058194,38); (6600758415283569173370011924365596,38);
  (1732093625444990627310767362918873,37); (1459978177248658615262784337277061,37);
  (3884721607852951558429328716282372,37); (3005431501558823585332688472053283,37);
  (8156042993000650831608516414931035,37); (5797077215686687053333011477044238,37);
  (1612730964276118239126644001281308,36); (1054164288131504238991959199845081,36);
  (3019854762231850992206715059598773,36); (1817129197001659510869090978676555,36);
  (5381313113511886061882116477841976,36); (2983668230838457594724180358833565,36);
  (9165816316182768275141482976960888,36); (4686395163281248688571807948009686,36);
  (1498000575421159679988860617288887,35); (7066676566654313201653571983221100,36);
  (2357066279720307695104826077947714,35); (1026063324141884752177062214869601,35);
  (3581015797946579421228716075160993,35); (1437961615676199607583901707893777,35);
  (5265976203369046748045748986366088,35); (1948562762547933377139311045384468,35);
  (7510654482225963329711911951317929,35); (2556353082296359153248902707654404,35);
  (1040723690074988404920859576135533,34); (3249384870756449164497408219638801,35);
  (1402983952001941066048147614405829,34); (4003216102292511441500672093641494,35);
  (1842154457284771418408569856900277,34); (4780277042399609782315786592202263,35);
  (2358184126042007674503152579886283,34); (5531425106329139682053643543326307,35);
  (2945693217822916713474961525873826,34); (6200157580952417644306022324167110,35);
  (3593555404464703335822399556839336,34); (6729338098414924901371611211310138,35);
  (4285241536560021065660791445166504,34); (7069474064071331034953232250047627,35);
  (5000000000000000000000000000000000,34); (7186844058031308784982968647800964,35);
  (5714758463439978934339208554833496,34); (7069474064071331034953232250047627,35);
  (6406444595535296664177600443160664,34); (6729338098414924901371611211310138,35);
  (7054306782177083286525038474126173,34); (6200157580952417644306022324167110,35);
  (7641815873957992325496847420113717,34); (5531425106329139682053643543326307,35);
  (8157845542715228581591430143099724,34); (4780277042399609782315786592202263,35);
  (8597016047998058933951852385594171,34); (4003216102292511441500672093641494,35);
  (8959276309925011595079140423864466,34); (3249384870756449164497408219638803,35);
  (9248934551777403667028808804868207,34); (2556353082296359153248902707654404,35);
  (9473402379663095325195425101363391,34); (1948562762547933377139311045384468,35);
  (9641898420205342057877128392483902,34); (1437961615676199607583901707893777,35);
  (9764293372027969230489517392205228,34); (1026063324141884752177062214869601,35);
  (9850199942457884032001113938271111,34); (7066676566654313201653571983221100,36);
  (9908341836838172317248585170230391,34); (4686395163281248688571807948009686,36);
  (9946186868864881139381178835221579,34); (2983668230838457594724180358833565,36);
  (9969801452377681490077932849404013,34); (1817129197001659510869090978676554,36);
  (9983872690357238817608733559987186,34); (1054164288131504238991959199845081,36);
  (9991843957006999349168391483585068,34); (5797077215686687053333011477044238,37);
  (9996115278392147048441570671283716,34); (3005431501558823585332688472053283,37);
  (9998267906374555009372689232637081,34); (1459978177248658615262784337277061,37);
  (9999281847912791592118738440128594,34); (6600758415283569173370011924365595,38);
  (9999725137430801100635453272341813,34); (2756939040087977632783010046877079,38);
  (9999903664342498715060860624652221,34); (1055165801364613975875087108751837,38);
  (9999969350592065961423420630293940,34); (3667955289973385107917482215297865,39);
  (9999991232896091389746429184516717,34); (1146924591829986645050752648073713,39);
  (9999997768813522231575051439540569,34); (3192028303725802156952062679227746,40);
  (9999999500561755793163086739313158,34); (7816490779898354081452559962613822,41);
  (9999999902893749626866233222991055,34); (1663027113650307344007446224983829,41);
  (9999999983823947647715960373523217,34); (3032141984980773099838461399756260,42);
  (9999999997725762745654137091316008,34); (4666844853043519403840590973550073,43);
  (9999999999734540956935136883316899,34); (5964407156916600041606837801708287,44);
  (9999999999974733713137703361632721,34); (6216601624935463020553018331888102,45);
  (9999999999998077313242051176549738,34); (5180978444850254460134298976134233,46);
  (9999999999999885521040023352333878,34); (3378796705542087306124627855319463,47);
  (9999999999999994791329820798862135,34); (1683956913880948296157205727378846,48);
  (9999999999999999823531464602852931,34); (6249826488787474532569502184483554,50);
  (9999999999999999995672579455615562,34); (1678998736221635591083390645709997,51);
  (9999999999999999999925540823765347,34); (3165046538228814496925759955646222,53);
  (9999999999999999999999131137129528,34); (4046414763499776226900686859662435,55);
  (9999999999999999999999993375829126,34); (3380040187642553180561096569622508,57);
  (9999999999999999999999999968325222,34); (1770869932625038291528396433728377,59)].
Definition tanh_sinh_82 : list (Z * Z) := [
  (1690565719425931082594670323352808,60); (9457057430934493424588823152174810,60);
  (3554590265914365584582222079853891,58); (1816393705398852366665196822234253,57);
  (4705387551121550701201946017122613,56); (2196460598706484381927231100202622,55);
  (4082150824029248873636685915832564,54); (1740756189995903144029533900366272,53);
  (2407695764329861066262424391839620,52); (9379665245178111568273445088709757,52);
  (9983592152870279123150498398964296,51); (3553272338719011496810078446193544,50);
  (3000825246346250963206980549306877,49); (9758008505457960842621219340799145,49);
  (6723737495114475973599911389651637,48); (1997733171474722108839749521890354,47);
  (1152115060784949817382564332723332,46); (3127963478256525749219430589250568,46);
  (1545387873299976392532738210016185,45); (3834261627653472787087416875339868,45);
  (1657689236781270502775291725730820,44); (3759004834787377024027840194226772,44);
  (1449980809652212701748580188369640,43); (3005480603179757306124665783581016,43);
  (1052824997774102869249833168996770,42); (1995065939145969473676209493038923,42);
  (6450027288819793472182012953586448,42); (1117616351979949920409058664605636,41);
  (3384141352496209936493808420178872,41); (5362982441603431220809708720442920,41);
  (1541465616008554778538546617505361,40); (2234775014311134004237229909274926,40);
  (6172053362213177960203151207378651,40); (8188597134258016024130203755222970,40);
  (2197291384693845736930135469731435,39); (2668772577182111886531570285440647,39);
  (7028123373433954565726238833378212,39); (7818122456547763646884536669682501,39);
  (2039073305244953346410666657156982,38); (2078574789682791820534006111032008,38);
  (5413337011741929789340543716973129,38); (5059850598906290601933158570588267,38);
  (1325594830009475904346824636793836,37); (1136934787251595788315924028181407,37);
  (3016109936634664246237829461074883,37); (2375628684157035363640688629475233,37);
  (6419101540262554483544954955634253,37); (4647342693256067277894953504754674,37);
  (1285676735797395910507605893612200,36); (8564094053429901012112111468262983,37);
  (2436758345810637066878204042449403,36); (1494898205629008689918789346814527,36);
  (4392101954886379495948945502271292,36); (2483909836199623513209236736741634,36);
  (7562057700368094288360873985087344,36); (3945776582827350738610908127983576,36);
  (1248601228467768612249274337087528,35); (6014754474312354048077092809368505,36);
  (1983904905848454526587713042179251,35); (8825670095423437048858560648103725,36);
  (3042471693439462318705825271968794,35); (1249744914525966748733122399045592,35);
  (4514877600409707436728142639244609,35); (1711162825428944160452495849544979,35);
  (6496936513715655504366088686921107,35); (2268699484833166889623393384105341,35);
  (9082093831868964596061430213703351,35); (2915310282848010763536831621008928,35);
  (1235130470207432700706522728425470,34); (3632741108191919877973139633495302,35);
  (1636107645068809139001555053701824,34); (4390264207603543073623616185007164,35);
  (2113106616030706134274334781500873,34); (5145171431455337391154697545097257,35);
  (2663330987991513732452876679780344,34); (5845615520315725338419723589356659,35);
  (3278555690131003857914088656847122,34); (6435952661910740879055997074748588,35);
  (3945100541018158858138788565168726,34); (6864047731249673991463188226113566,35);
  (4644581399526532315844286912625454,34); (7089250847067396602001231438121988,35);
  (5355418600473467684155713087374546,34); (7089250847067396602001231438121988,35);
  (6054899458981841141861211434831274,34); (6864047731249673991463188226113566,35);
  (6721444309868996142085911343152879,34); (6435952661910740879055997074748588,35);
  (7336669012008486267547123320219656,34); (5845615520315725338419723589356659,35);
  (7886893383969293865725665218499127,34); (5145171431455337391154697545097257,35);
  (8363892354931190860998444946298175,34); (4390264207603543073623616185007165,35);
  (8764869529792567299293477271574531,34); (3632741108191919877973139633495300,35);
  (9091790616813103540393856978629664,34); (2915310282848010763536831621008928,35);
  (9350306348628434449563391131307890,34); (2268699484833166889623393384105342,35);
  (9548512239959029256327185736075538,34); (1711162825428944160452495849544979,35);
  (9695752830656053768129417472803121,34); (1249744914525966748733122399045592,35);
  (9801609509415154547341228695782076,34); (8825670095423437048858560648103725,36);
  (9875139877153223138775072566291247,34); (6014754474312354048077092809368505,36);
  (9924379422996319057116391260149127,34); (3945776582827350738610908127983576,36);
  (9956078980451136205040510544977288,34); (2483909836199623513209236736741634,36);
  (9975632416541893629331217959575506,34); (1494898205629008689918789346814527,36);
  (9987143232642026040894923941063879,34); (8564094053429901012112111468262983,37);
  (9993580898459737445516455045044366,34); (4647342693256067277894953504754674,37);
  (9996983890063365335753762170538925,34); (2375628684157035363640688629475233,37);
  (9998674405169990524095653175363206,34); (1136934787251595788315924028181408,37);
  (9999458666298825807021065945628302,34); (5059850598906290601933158570588267,38);
  (9999796092669475504665358933334286,34); (2078574789682791820534006111032005,38);
  (9999929718766265660454342737611666,34); (7818122456547763646884536669682512,39);
  (9999978027086153061542630698645303,34); (2668772577182111886531570285440647,39);
  (9999993827946637786822039796848792,34); (8188597134258016024130203755222970,40);
  (9999998458534383991445221461453382,34); (2234775014311134004237229909274926,40);
  (9999999661585864750379006350619158,34); (5362982441603431220809708720442920,41);
  (9999999935499727111802065278179871,34); (1117616351979949920409058664605636,41);
  (9999999989471750022258971307501669,34); (1995065939145969473676209493038923,42);
  (9999999998550019190347787298251421,34); (3005480603179757306124665783581007,43);
  (9999999999834231076321872949722471,34); (3759004834787377024027840194226771,44);
  (9999999999984546121267000236074673,34); (3834261627653472787087416875339866,45);
  (9999999999998847884939215050182619,34); (3127963478256525749219430589250568,46);
  (9999999999999932762625048855240264,34); (1997733171474722108839749521890354,47);
  (9999999999999996999174753653749037,34); (9758008505457960842621219340799145,49);
  (9999999999999999900164078471297210,34); (3553272338719011496810078446193544,50);
  (9999999999999999997592304235670139,34); (9379665245178111568273445088709759,52);
  (9999999999999999999959178491759708,34); (1740756189995903144029533900366272,53);
  (9999999999999999999999529461244887,34); (2196460598706484381927231100202622,55);
  (9999999999999999999999996445409734,34); (1816393705398852366665196822234253,57);
  (9999999999999999999999999983094343,34); (9457057430934493424588823152174810,60)].
Definition tanh_sinh_83 : list (Z * Z) := [
  (9034558452545867271534593718274649,61); (5056806881820274664505770260227766,60);
  (1909662627046845778654930877262054,58); (9772234471024290647561517259656986,58);
  (2550774656723718313467300024969661,56); (1193404785876740289669458041605424,55);
  (2239726698684512196067335570582370,54); (9580803020940404425410470345398188,54);
  (1340287636275236608309267422409333,52); (5242173018174656536214615443472075,52);
  (5649510130830531891686845975215141,51); (2020453365219017199661870358343753,50);
  (1728764565866738569071386529401952,49); (5653539258805727282745352990161399,49);
  (3947790288251208618410596025939048,48); (1180623033702709799815989023654357,47);
  (6899559273484953399687553162734854,47); (1887045410272731796350167888918426,46);
  (9444020708604109387630669076376810,46); (2362430635137932419024777503544722,45);
  (1034008770214722126383140425240139,44); (2365985571437108597079081854436315,44);
  (9232188831381328639012602040234701,44); (1932553774752598370210973493446402,43);
  (6841721469404125578471236764007175,43); (1310373280146683282649385629574981,42);
  (4276819365160032206981403893173563,42); (7495996169685175153031046309128298,42);
  (2288704955933041526685321139130285,41); (3671706062810413766923816417768358,41);
  (1062787518152363923051854715072387,40); (1560998889604942097609047870451652,40);
  (4335790258992312067684793986624305,40); (5832190724346482520584584785626791,40);
  (1571734106148684846452216075412995,39); (1936884435862510569848323011696538,39);
  (5115504521656412843267483316218163,39); (5777726618345374953565153629592544,39);
  (1509133255983956644980122468414326,38); (1562989030523141431357326925833615,38);
  (4070813850357915214374427179147557,38); (3868323018771633959445156953535716,38);
  (1012083570543385548845678465356250,37); (8830083595066724977942927919408677,38);
  (2336182158939543445192727216543639,37); (1872825415476491223928177649984230,37);
  (5040266909970804954211893559758404,37); (3715867240501053035940098445308206,37);
  (1022593031315256356441473178309054,36); (6939534498474208026531595005510178,37);
  (1961818532204007500606208817725561,36); (1226672045346657695799541417485669,36);
  (3576802075167373463514307295847654,36); (2062634885588761576802995390916246,36);
  (6225329536189171090770290725921979,36); (3313809429844795423539449972707456,36);
  (1038479976296539307333043588520641,35); (5106308795522960114552768608281017,36);
  (1666221165827473496141784075363129,35); (7571333176583481231200303942603432,36);
  (2579278929084586721232413409760819,35); (1083143793315305527304415865517123,35);
  (3862245201469871039429996966342094,35); (1498198165367683741338729908856141,35);
  (5606953945678288579959536075819311,35); (2006838276167652537634541166552205,35);
  (7906242398697899914390421800380124,35); (2606108851027149780200616086967028,35);
  (1084523837062006580085215419332272,34); (3283189172735081703265534527027941,35);
  (1449056811228051823212067857066417,34); (4013707459572847339384311077451953,35);
  (1887849813839746930353694869908306,34); (4761409932529230617801377445305610,35);
  (2400369646529779024430477556966332,34); (5479821764405034010347053419468836,35);
  (2981081792971032772166892540204445,34); (6116255373763612259632609598105370,35);
  (3619122058602032197889057790392158,34); (6617976105787958820947957133267184,35);
  (4298658544978568491574875358674203,34); (6939637261522285117670333203228844,35);
  (5000000000000000000000000000000000,34); (7050488752072339503602050263051719,35);
  (5701341455021431508425124641325798,34); (6939637261522285117670333203228844,35);
  (6380877941397967802110942209607843,34); (6617976105787958820947957133267184,35);
  (7018918207028967227833107459795555,34); (6116255373763612259632609598105370,35);
  (7599630353470220975569522443033668,34); (5479821764405034010347053419468836,35);
  (8112150186160253069646305130091694,34); (4761409932529230617801377445305610,35);
  (8550943188771948176787932142933584,34); (4013707459572847339384311077451954,35);
  (8915476162937993419914784580667727,34); (3283189172735081703265534527027941,35);
  (9209375760130210008560957819961987,34); (2606108851027149780200616086967028,35);
  (9439304605432171142004046392418068,34); (2006838276167652537634541166552205,35);
  (9613775479853012896057000303365790,34); (1498198165367683741338729908856141,35);
  (9742072107091541327876758659023918,34); (1083143793315305527304415865517123,35);
  (9833377883417252650385821592463687,34); (7571333176583481231200303942603432,36);
  (9896152002370346069266695641147935,34); (5106308795522960114552768608281017,36);
  (9937746704638108289092297092740780,34); (3313809429844795423539449972707455,36);
  (9964231979248326265364856927041523,34); (2062634885588761576802995390916248,36);
  (9980381814677959924993937911822745,34); (1226672045346657695799541417485669,36);
  (9989774069686847436435585268216910,34); (6939534498474208026531595005510179,37);
  (9994959733090029195045788106440243,34); (3715867240501053035940098445308206,37);
  (9997663817841060456554807272783457,34); (1872825415476491223928177649984230,37);
  (9998987916429456614451154321534644,34); (8830083595066724977942927919408677,38);
  (9999592918614964208478562557282085,34); (3868323018771633959445156953535716,38);
  (9999849086674401604335501987753158,34); (1562989030523141431357326925833615,38);
  (9999948844954783435871567325166838,34); (5777726618345374953565153629592544,39);
  (9999984282658938513151535477839247,34); (1936884435862510569848323011696538,39);
  (9999995664209741007687932315206014,34); (5832190724346482520584584785626791,40);
  (9999998937212481847636076948145285,34); (1560998889604942097609047870451652,40);
  (9999999771129504406695847331467886,34); (3671706062810413766923816417768358,41);
  (9999999957231806348399677930185960,34); (7495996169685175153031046309128298,42);
  (9999999993158278530595874421528763,34); (1310373280146683282649385629574985,42);
  (9999999999076781116861867136098740,34); (1932553774752598370210973493446402,43);
  (9999999999896599122978527787361687,34); (2365985571437108597079081854436315,44);
  (9999999999990555979291395890612369,34); (2362430635137932419024777503544723,45);
  (9999999999999310044072651504660031,34); (1887045410272731796350167888918426,46);
  (9999999999999960522097117487913816,34); (1180623033702709799815989023654357,47);
  (9999999999999998271235434133261431,34); (5653539258805727282745352990161399,49);
  (9999999999999999943504898691694681,34); (2020453365219017199661870358343753,50);
  (9999999999999999998659712363724764,34); (5242173018174656536214615443472075,52);
  (9999999999999999999977602733013155,34); (9580803020940404425410470345398188,54);
  (9999999999999999999999744922534328,34); (1193404785876740289669458041605424,55);
  (9999999999999999999999998090337373,34); (9772234471024290647561517259656986,58);
  (9999999999999999999999999990965441,34); (5056806881820274664505770260227766,60)].
Definition tanh_sinh_84 : list (Z * Z) := [
  (4834255149440599798612484148554594,61); (2707317821544924867779628053272517,60);
  (1027130617481609008646911254351466,58); (5263405262980609198268261357101452,58);
  (1384128558620639212454248539940151,56); (6490217658567326036097686753204706,56);
  (1229798669210649702156186959134853,54); (5276801679519497365154135391108188,54);
  (7464816445981766289335011083210999,53); (2931057960512385646898661611417892,52);
  (3197738883124228550355410385701599,51); (1149037556722013090736499671633737,50);
  (9959075870578365760375428431754660,50); (3275043223981027956833458766183028,49);
  (2317208351878913362460777686870274,48); (6974204901195427302969940895855983,48);
  (4129494263594498831369949962898395,47); (1137595268792417901395872449142751,46);
  (5766517684175612916373942379767932,46); (1454123342806126715533850372556171,45);
  (6442826728122619969157114151038997,45); (1487315294908251255227594333298913,44);
  (5870565903694549084391738287198596,44); (1240783380045452139707045769199807,43);
  (4439335761159488523677600748191080,43); (8591788219003523337941403448237706,43);
  (2831024476767511545387464704580641,42); (5017998353909548815711404699339077,42);
  (1544984963992993195224353910566467,41); (2508522521720639197525943888132330,41);
  (7312939304303028514047951807321326,41); (1087913825753139832271765160307131,40);
  (3039412461315497123749156138227876,40); (4144024379169546205488555748174292,40);
  (1121794098572768048637745623929354,39); (1402233231145749588076357041069465,39);
  (3714923868875081761441698550444854,39); (4258951346144321470163389012690145,39);
  (1114330271964967842880077789555927,38); (1172235025379122411418735285079893,38);
  (3054058513748012283082096154973215,38); (2949604117118722525119725758814463,38);
  (7709011509600664636161562477106096,38); (6839855525325957114122647924961681,38);
  (1805291662834740906836666830773195,37); (1472563378053412926885133333034927,37);
  (3948432480514430719079712924983097,37); (2963365181958907818204328872881395,37);
  (8114864765608206678572724393051130,37); (5608725185350210432955024963128070,37);
  (1575908280355915078083579580512841,36); (1004029011623073649646869636227425,36);
  (2906443767806292616112357573519975,36); (1708529613003802618237824617633846,36);
  (5113825139519695763403000375805319,36); (2776137377055762867700469499090651,36);
  (8618772668677035854254116444751320,36); (4324208075444679094178630412236028,36);
  (1396437512306778732614154972281813,35); (6478605312875545137803298453478007,36);
  (2181931533772551288685339394549549,35); (9362395236298315921503342162212369,36);
  (3296753479607298467197121076197212,35); (1308001466143053639885982489721699,35);
  (4827987666993978514411583736255419,35); (1769717080892086861981475764831036,35);
  (6866396025014027041454707724386997,35); (2321771995937533925073872684008777,35);
  (9499047613891401384223521080191515,35); (2956021982636018288068859701133536,35);
  (1279976377980956275340142546363323,34); (3653856602852246205264263395552294,35);
  (1681807224703108009595059281872348,34); (4385259622217255451672222733040233,35);
  (2156798526792346633322644867244494,34); (5109496037760920755018725940611022,35);
  (2701848929735260204285514048822170,34); (5777901709948231234386340960527492,35);
  (3308793022871355161892660574254811,34); (6338851823512648651492040639372969,35);
  (3964426562522499299994354815986694,34); (6744383659076146158132420941860405,35);
  (4651230764392233271397948541433435,34); (6957317776139605518554102762873414,35);
  (5348769235607766728602051458566566,34); (6957317776139605518554102762873414,35);
  (6035573437477500700005645184013305,34); (6744383659076146158132420941860405,35);
  (6691206977128644838107339425745189,34); (6338851823512648651492040639372969,35);
  (7298151070264739795714485951177830,34); (5777901709948231234386340960527492,35);
  (7843201473207653366677355132755507,34); (5109496037760920755018725940611022,35);
  (8318192775296891990404940718127652,34); (4385259622217255451672222733040233,35);
  (8720023622019043724659857453636677,34); (3653856602852246205264263395552293,35);
  (9050095238610859861577647891980849,34); (2956021982636018288068859701133536,35);
  (9313360397498597295854529227561301,34); (2321771995937533925073872684008777,35);
  (9517201233300602148558841626374458,34); (1769717080892086861981475764831036,35);
  (9670324652039270153280287892380279,34); (1308001466143053639885982489721699,35);
  (9781806846622744871131466060545045,34); (9362395236298315921503342162212370,36);
  (9860356248769322126738584502771819,34); (6478605312875545137803298453478007,36);
  (9913812273313229641457458835552487,34); (4324208075444679094178630412236028,36);
  (9948861748604803042365969996241947,34); (2776137377055762867700469499090649,36);
  (9970935562321937073838876424264801,34); (1708529613003802618237824617633844,36);
  (9984240917196440849219164204194872,34); (1004029011623073649646869636227425,36);
  (9991885135234391793321427275606949,34); (5608725185350210432955024963128070,37);
  (9996051567519485569280920287075016,34); (2963365181958907818204328872881395,37);
  (9998194708337165259093163333169226,34); (1472563378053412926885133333034927,37);
  (9999229098849039933536383843752289,34); (6839855525325957114122647924961680,38);
  (9999694594148625198771691790384503,34); (2949604117118722525119725758814468,38);
  (9999888566972803503215711992221045,34); (1172235025379122411418735285079894,38);
  (9999962850761311249182385583014495,34); (4258951346144321470163389012690145,39);
  (9999988782059014272319513622543762,34); (1402233231145749588076357041069465,39);
  (9999996960587538684502876250843861,34); (4144024379169546205488555748174292,40);
  (9999999268706069569697148595204819,34); (1087913825753139832271765160307131,40);
  (9999999845501503600700680477564609,34); (2508522521720639197525943888132330,41);
  (9999999971689755232324884546125353,34); (5017998353909548815711404699339062,42);
  (9999999995560664238840511476322398,34); (8591788219003523337941403448237706,43);
  (9999999999412943409630545091560826,34); (1240783380045452139707045769199807,43);
  (9999999999935571732718773800308429,34); (1487315294908251255227594333298913,44);
  (9999999999994233482315824387083626,34); (1454123342806126715533850372556171,45);
  (9999999999999587050573640550116864,34); (1137595268792417901395872449142751,46);
  (9999999999999976827916481210866375,34); (6974204901195427302969940895855983,48);
  (9999999999999999004092412942163423,34); (3275043223981027956833458766183028,49);
  (9999999999999999968022611168757715,34); (1149037556722013090736499671633737,50);
  (9999999999999999999253518355401824,34); (2931057960512385646898661611417892,52);
  (9999999999999999999987702013307893,34); (5276801679519497365154135391108220,54);
  (9999999999999999999999861587144139,34); (6490217658567326036097686753204707,56);
  (9999999999999999999999998972869382,34); (5263405262980609198268261357101452,58);
  (9999999999999999999999999995165744,34); (2707317821544924867779628053272517,60)].
Definition tanh_sinh_85 : list (Z * Z) := [
  (2589951180843035267638515973996231,61); (1451230603951000450693537587700208,60);
  (5530821532029935096394316576421757,59); (2838064193399073479876017754792731,58);
  (7518022141023226042096005151797156,57); (3532919347117269292237964916384471,56);
  (6757776951412185768946420014847259,55); (2908327130861569891571272282173895,54);
  (4159735073114317437008324342452306,53); (1639563843774009415849947661457901,52);
  (1810452178452317670179710267669177,51); (6535662915983283786232274653687822,51);
  (5737156496923350274680937699825200,50); (1896963959569735879419749050923027,49);
  (1359730466828009923070208937463973,48); (4118117107161034990559333521471693,48);
  (2470209587964674612237622515248381,47); (6853167973374879436521892969632319,47);
  (3518204027574328389164861729741857,46); (8941779288427862588317093793144050,46);
  (4010282014435935192658157915465661,45); (9338202219144245820331549258686704,45);
  (3728245838411262775599222482385762,44); (7954741846100969405742721149870983,44);
  (2876281280354163839705992487444585,43); (5623969643580966990525722603473243,43);
  (1870887268038008857340561132296125,42); (3352872363535903079789706463010892,42);
  (1041046072164306710229444095904237,41); (1710321493403039426999548791617734,41);
  (5022134805633960126821085633261134,41); (7565375427519019981022184151995037,41);
  (2126234919599531769530251683368634,40); (2937661287753988257351751698721141,40);
  (7989258975304518875439556836752825,40); (1012699915134279927388747331622957,39);
  (2691777837991951069845467840612591,39); (3131539176784179797858349316840808,39);
  (8209297067325653800809367811420689,39); (8769173733000929578445643122320881,39);
  (2285945746209876712768434847762483,38); (2243239230623265117332737514441788,38);
  (5858259001837836031379586916646868,38); (5284389957914402349317617460831745,38);
  (1391804637951981080808998287421499,37); (1154834574810302131261656417011975,37);
  (3085995655687564340298595476590159,37); (2357161159452625712092903183466394,37);
  (6425004719739308672839051372930260,37); (4521595689524005184407986248930254,37);
  (1263090247427920582813462698556053,36); (8197362148467041867502974086770578,37);
  (2356563457275962676067245243835019,36); (1411715456030093093486881706728534,36);
  (4191768385379012537520998169320271,36); (2319996191789218945570243742644585,36);
  (7137966525040640116607759417589052,36); (3652891199662658544556138443634266,36);
  (1167883836662549807636511263995195,35); (5529726949756438273767331199592079,36);
  (1841924362297164591432530770219042,35); (8071665197681254539425199694996654,36);
  (2808073369348776467896281685471864,35); (1138834380546812409868156141905525,35);
  (4148158993262026049025153476152847,35); (1556033773373813647799151653181677,35);
  (5949750338415816230741258824490782,35); (2061819085311600708785201925941150,35);
  (8300031425164809958888290896421236,35); (2651994389721498306923400896381671,35);
  (1127748955622462833690052493358041,34); (3313060411316225664347444890441588,35);
  (1494184960143813741200076745140677,34); (4020852868498779890234653599094317,35);
  (1932323627105345823372510052540126,34); (4740458975708418235334027047207916,35);
  (2441212092715180183459661554264158,34); (5427943332249583139094930002768967,35);
  (3015202592148367683684203852217805,34); (6034146427746722196718928140095545,35);
  (3643699642347381140148001673378528,34); (6510335587220941103810443147285030,35);
  (4311533376017780393902796033860064,34); (6814892686106494486632636542326305,35);
  (5000000000000000000000000000000000,34); (6919722047383157567198257589197175,35);
  (5688466623982219606097203966139936,34); (6814892686106494486632636542326305,35);
  (6356300357652618859851998326621471,34); (6510335587220941103810443147285030,35);
  (6984797407851632316315796147782195,34); (6034146427746722196718928140095545,35);
  (7558787907284819816540338445735842,34); (5427943332249583139094930002768967,35);
  (8067676372894654176627489947459873,34); (4740458975708418235334027047207916,35);
  (8505815039856186258799923254859321,34); (4020852868498779890234653599094319,35);
  (8872251044377537166309947506641959,34); (3313060411316225664347444890441588,35);
  (9169996857483519004111170910357876,34); (2651994389721498306923400896381671,35);
  (9405024966158418376925874117550922,34); (2061819085311600708785201925941150,35);
  (9585184100673797395097484652384716,34); (1556033773373813647799151653181677,35);
  (9719192663065122353210371831452814,34); (1138834380546812409868156141905525,35);
  (9815807563770283540856746922978095,34); (8071665197681254539425199694996654,36);
  (9883211616333745019236348873600480,34); (5529726949756438273767331199592079,36);
  (9928620334749593598833922405824110,34); (3652891199662658544556138443634265,36);
  (9958082316146209874624790018306798,34); (2319996191789218945570243742644585,36);
  (9976434365427240373239327547561650,34); (1411715456030093093486881706728534,36);
  (9987369097525720794171865373014439,34); (8197362148467041867502974086770578,37);
  (9993574995280260691327160948627070,34); (4521595689524005184407986248930254,37);
  (9996914004344312435659701404523410,34); (2357161159452625712092903183466394,37);
  (9998608195362048018919191001712580,34); (1154834574810302131261656417011975,37);
  (9999414174099816216396862041308335,34); (5284389957914402349317617460831745,38);
  (9999771405425379012328723156515224,34); (2243239230623265117332737514441788,38);
  (9999917907029326743461991906321886,34); (8769173733000929578445643122320881,39);
  (9999973082221620080489301545321594,34); (3131539176784179797858349316840808,39);
  (9999992010741024695481124560443162,34); (1012699915134279927388747331622957,39);
  (9999997873765080400468230469748317,34); (2937661287753988257351751698721141,40);
  (9999999497786519436603987317891437,34); (7565375427519019981022184151995037,41);
  (9999999895895392783569328977055590,34); (1710321493403039426999548791617734,41);
  (9999999981291127319619911426594389,34); (3352872363535903079789706463010893,42);
  (9999999997123718719645836160294008,34); (5623969643580966990525722603473243,43);
  (9999999999627175416158873722440077,34); (7954741846100969405742721149870983,44);
  (9999999999959897179855640648073419,34); (9338202219144245820331549258686707,45);
  (9999999999996481795972425671610836,34); (8941779288427862588317093793144050,46);
  (9999999999999752979041203532538777,34); (6853167973374879436521892969632319,47);
  (9999999999999986402695331719900769,34); (4118117107161034990559333521471693,48);
  (9999999999999999426284350307664973,34); (1896963959569735879419749050923027,49);
  (9999999999999999981895478215476824,34); (6535662915983283786232274653687822,51);
  (9999999999999999999584026492688568,34); (1639563843774009415849947661457901,52);
  (9999999999999999999993242223048587,34); (2908327130861569891571272282173895,54);
  (9999999999999999999999924819778590,34); (3532919347117269292237964916384471,56);
  (9999999999999999999999999446917846,34); (2838064193399073479876017754792731,58);
  (9999999999999999999999999997410048,34); (1451230603951000450693537587700208,60)].
Definition tanh_sinh_86 : list (Z * Z) := [
  (1389264050580464130367810344988288,61); (7788609450694819844411292810721103,61);
  (2981547589365976457563476403369925,59); (1531982037430678548982082458528745,58);
  (4087416392843568768458572411888274,57); (1924895073067788553180399233464156,56);
  (3716227960501956121932339139091422,55); (1604050471126941340943723153822810,54);
  (2319200032260265756869338415934812,53); (9175395437134507618510785515394012,53);
  (1025289163000067323918248026195104,51); (3718089099882768737106158772177227,51);
  (3305026498351820766556134422714239,50); (1098636929000600575319229822326070,49);
  (7976749983574828054644728194047795,49); (2430712720966652848088010559202544,48);
  (1476872922680894670588447603650182,47); (4125779981453766210172590746200195,47);
  (2144826039380774547037371200171486,46); (5493413244141949803948879421664892,46);
  (2493642741394989446907050497115545,45); (5856116841102759764926334966846068,45);
  (2364799532932973718159235692982981,44); (5092609598929548201470955785431680,44);
  (1860897080662574215821478540539017,43); (3675299814095788269543821538049697,43);
  (1234384235702462521079734566725130,42); (2236192185669597121964753953382801,42);
  (7002362713539637895638351513663578,42); (1163771559373360638638326016435280,41);
  (3442335943250977669956726948516390,41); (5249659085649966395832427877166232,41);
  (1484397700065123823558378861824601,40); (2077734703182058351862716481247285,40);
  (5677740902470815330936003773778651,40); (7296332121602260119788923687012517,40);
  (1946129683029162886593220865249659,39); (2296892586760750166605573132462855,39);
  (6034174264650065265324802036846294,39); (6543416940225084490265294844862895,39);
  (1707102385166949416290257764095107,38); (1701662056592340911649311841101713,38);
  (4441574872577695742375876763472020,38); (4072130978753231856497909016380784,38);
  (1070554349846658227869590912062978,37); (9033289474227765744815326604533662,38);
  (2406428947026988429891188625099993,37); (1870174772286730601217242146309607,37);
  (5075580551526123379532639862271556,37); (3635981807516675036315238724362814,37);
  (1010124029037709153059175076790460,36); (6676065584563339876981001169195756,37);
  (1906566147687656757053402522912062,36); (1163606248336459135650284619949178,36);
  (3428645042983441227397538454224885,36); (1934100371534466305631822613558461,36);
  (5899198346122244698524236293394238,36); (3078327681756136158462981329754870,36);
  (9747146515950064584205434903644553,36); (4708289681615563350313084333507699,36);
  (1551689189381316401451603423946192,35); (6941419979610462763429852371222354,36);
  (2386850979362361889454337402298106,35); (9889440411831031360751529090787489,36);
  (3556479971794580342561226485560731,35); (1364323281167312331367202441797882,35);
  (5144134413938949178051800188140708,35); (1825411170434059458625888235163621,35);
  (7235653879561789171091949383693706,35); (2371281208797439053911461827209142,35);
  (9912049533921194889709447320887759,35); (2992880380192601352581252795090170,35);
  (1324050610463748483165291823444728,34); (3671400533353477662087311272097233,35);
  (1726419028952510379061211028811555,34); (4377612519589401270574513296988931,35);
  (2199210223537858440707365558853560,34); (5072700899778473309937843903606785,35);
  (2739068263447163380418070553888185,34); (5710979835426106465433542879207195,35);
  (3337910366525202605960794482030742,34); (6244507496122135416070043440793095,35);
  (3982993709755916751566353579907282,34); (6629094970560883339666874237535291,35);
  (4657611601208750803641697683166010,34); (6830675511795113846516245022097596,35);
  (5342388398791249196358302316833989,34); (6830675511795113846516245022097596,35);
  (6017006290244083248433646420092718,34); (6629094970560883339666874237535291,35);
  (6662089633474797394039205517969258,34); (6244507496122135416070043440793095,35);
  (7260931736552836619581929446111816,34); (5710979835426106465433542879207195,35);
  (7800789776462141559292634441146441,34); (5072700899778473309937843903606785,35);
  (8273580971047489620938788971188445,34); (4377612519589401270574513296988931,35);
  (8675949389536251516834708176555272,34); (3671400533353477662087311272097233,35);
  (9008795046607880511029055267911224,34); (2992880380192601352581252795090170,35);
  (9276434612043821082890805061630628,34); (2371281208797439053911461827209142,35);
  (9485586558606105082194819981185930,34); (1825411170434059458625888235163621,35);
  (9644352002820541965743877351443927,34); (1364323281167312331367202441797882,35);
  (9761314902063763811054566259770190,34); (9889440411831031360751529090787489,36);
  (9844831081061868359854839657605382,34); (6941419979610462763429852371222354,36);
  (9902528534840499354157945650963555,34); (4708289681615563350313084333507699,36);
  (9941008016538777553014757637066057,34); (3078327681756136158462981329754867,36);
  (9965713549570165587726024615457751,34); (1934100371534466305631822613558461,36);
  (9980934338523123432429465974770879,34); (1163606248336459135650284619949178,36);
  (9989898759709622908469408249232096,34); (6676065584563339876981001169195756,37);
  (9994924419448473876620467360137728,34); (3635981807516675036315238724362814,37);
  (9997593571052973011570108811374900,34); (1870174772286730601217242146309607,37);
  (9998929445650153341772130409087937,34); (9033289474227765744815326604533662,38);
  (9999555842512742230425762412323653,34); (4072130978753231856497909016380784,38);
  (9999829289761483305058370974223591,34); (1701662056592340911649311841101716,38);
  (9999939658257353499347346751979633,34); (6543416940225084490265294844862885,39);
  (9999980538703169708371134067791347,34); (2296892586760750166605573132462855,39);
  (9999994322259097529184669063996227,34); (7296332121602260119788923687012517,40);
  (9999998515602299934876176441621138,34); (2077734703182058351862716481247285,40);
  (9999999655766405674902233004327304,34); (5249659085649966395832427877166232,41);
  (9999999929976372864603621043616484,34); (1163771559373360638638326016435280,41);
  (9999999987656157642975374789202655,34); (2236192185669597121964753953382801,42);
  (9999999998139102919337425784178521,34); (3675299814095788269543821538049686,43);
  (9999999999763520046706702628184076,34); (5092609598929548201470955785431679,44);
  (9999999999975063572586050105530930,34); (5856116841102759764926334966846068,45);
  (9999999999997855173960619225452962,34); (5493413244141949803948879421664892,46);
  (9999999999999852312707731910532940,34); (4125779981453766210172590746200196,47);
  (9999999999999992023250016425171946,34); (2430712720966652848088010559202544,48);
  (9999999999999999669497350164817923,34); (1098636929000600575319229822326070,49);
  (9999999999999999989747108369999328,34); (3718089099882768737106158772177206,51);
  (9999999999999999999768079996773974,34); (9175395437134507618510785515394012,53);
  (9999999999999999999996283772039499,34); (1604050471126941340943723153822820,54);
  (9999999999999999999999959125836072,34); (1924895073067788553180399233464157,56);
  (9999999999999999999999999701845241,34); (1531982037430678548982082458528745,58);
  (9999999999999999999999999998610736,34); (7788609450694819844411292810721103,61)].
Definition tanh_sinh_87 : list (Z * Z) := [
  (7461072908060389317685423044895216,62); (4185062523068806732747464075110991,61);
  (1609071446263049540052847430204482,59); (8278562189600734822362447294410012,59);
  (2224373095535405375176523735327336,57); (1049724255602621721734367562893773,56);
  (2045160058068831260182621901812897,55); (8853066318810167800210047825675846,55);
  (1293710830064760341523552066041133,53); (5137067672561851667574589078580863,53);
  (5807966716416325619950178149116994,52); (2115578337431926453608247217098740,51);
  (1903967935029879011846962776586853,50); (6362234582016529164175749359784188,50);
  (4678351620721492446836211282149001,49); (1434199322982147519108993000418290,48);
  (8825420421239550782926838305943197,48); (2482242838058852373696593412141052,47);
  (1306589909948124336430288112678968,46); (3371869753377790027700466568337363,46);
  (1549061145066026331877765326676672,45); (3668249015505806789130803397020204,45);
  (1498182747127693345370383869918863,44); (3255792427616578252589876417089074,44);
  (1202284948230265372122552910525753,43); (2398015281524665147505621252608213,43);
  (8131466979883354206097207981499328,43); (1488766342213512899386796420225942,42);
  (4701814989454642852563866692490850,42); (7903292535729120697005053385838639,42);
  (2355070442323787740290000088786454,41); (3635100798676072836000543700413944,41);
  (1034245491007274938077001385783395,40); (1466247188069400456867728191848407,40);
  (4026582685298635642129163075511429,40); (5244580947946253676276534445269209,40);
  (1403986482548397145291762893886112,39); (1680618844376870526515477955016921,39);
  (4425513618895425849773079060457587,39); (4870450592928272075127943254277898,39);
  (1271952865108791614021971587647151,38); (1287573344027906620535190914675564,38);
  (3359812951422666299466403035018303,38); (3129974901294769902522365886635876,38);
  (8215768930111444120737740789878871,38); (7047967793660659456098141337105924,38);
  (1872258660089174544585903599827293,37); (1480040994371771025241170763430602,37);
  (4000595649398853322875995661123417,37); (2916504783074326988251179458151179,37);
  (8060415714315222681454933658147713,37); (5423677151154409076450613225525532,37);
  (1539165210064316063078266812044940,36); (9567708560638432063330500943946849,37);
  (2798511034808498356234321113263950,36); (1608522260220821408930468010234935,36);
  (4865276570555630812927257823712782,36); (2587949058148926635385047071919793,36);
  (8118278711914626403397262379777521,36); (3999270114015502970707510185691911,36);
  (1304524557556935781257409823102268,35); (5954858247934963026561611060500096,36);
  (2024668241166007812018841012293880,35); (8566058205181682654853794941747589,36);
  (3042870348632700985060019875860537,35); (1193027949954557146458325085545443,35);
  (4438112155264409231398260659882849,35); (1611448839951183793518280764057664,35);
  (6293754017599883069328688580566595,35); (2113594091509472952387654059171593,35);
  (8691554449140494423474377562164647,35); (2694207204657158839363282862371397,35);
  (1170376527809552608187513512919496,34); (3339278211169166984219170631473999,35);
  (1538375842385417483048780157806704,34); (4024961260900238808229696115440589,35);
  (1975612799511248260744109951472351,34); (4717692023395255329068014543595372,35);
  (2480770097843186461779548932092266,34); (5375945927070375416089557770960871,35);
  (3048122089455759642063979300502976,34); (5953826249936618311253589149216388,35);
  (3667345617506045472703272690731383,34); (6406243533077188131294970478045898,35);
  (4323899269575256267457990731334487,34); (6694939529816685872804021475885705,35);
  (5000000000000000000000000000000000,34); (6794195483819275586565989313197469,35);
  (5676100730424743732542009268665513,34); (6694939529816685872804021475885705,35);
  (6332654382493954527296727309268617,34); (6406243533077188131294970478045898,35);
  (6951877910544240357936020699497024,34); (5953826249936618311253589149216388,35);
  (7519229902156813538220451067907735,34); (5375945927070375416089557770960870,35);
  (8024387200488751739255890048527650,34); (4717692023395255329068014543595372,35);
  (8461624157614582516951219842193295,34); (4024961260900238808229696115440589,35);
  (8829623472190447391812486487080503,34); (3339278211169166984219170631473999,35);
  (9130844555085950557652562243783535,34); (2694207204657158839363282862371396,35);
  (9370624598240011693067131141943342,34); (2113594091509472952387654059171593,35);
  (9556188784473559076860173934011714,34); (1611448839951183793518280764057664,35);
  (9695712965136729901493998012413947,34); (1193027949954557146458325085545443,35);
  (9797533175883399218798115898770612,34); (8566058205181682654853794941747586,36);
  (9869547544244306421874259017689774,34); (5954858247934963026561611060500096,36);
  (9918817212880853735966027376202225,34); (3999270114015502970707510185691911,36);
  (9951347234294443691870727421762873,34); (2587949058148926635385047071919793,36);
  (9972014889651915016437656788867361,34); (1608522260220821408930468010234935,36);
  (9984608347899356839369217331879550,34); (9567708560638432063330500943946849,37);
  (9991939584285684777318545066341853,34); (5423677151154409076450613225525532,37);
  (9995999404350601146677124004338877,34); (2916504783074326988251179458151178,37);
  (9998127741339910825455414096400173,34); (1480040994371771025241170763430602,37);
  (9999178423106988855587926225921013,34); (7047967793660659456098141337105924,38);
  (9999664018704857733370053359696498,34); (3129974901294769902522365886635876,38);
  (9999872804713489120838597802841235,34); (1287573344027906620535190914675564,38);
  (9999955744863811045741502269209396,34); (4870450592928272075127943254277898,39);
  (9999985960135174516028547082371060,34); (1680618844376870526515477955016920,39);
  (9999995973417314701364357870836924,34); (5244580947946253676276534445269209,40);
  (9999998965754508992725061922998614,34); (1466247188069400456867728191848407,40);
  (9999999764492955767621225970999990,34); (3635100798676072836000543700413944,41);
  (9999999952981850105453571474361333,34); (7903292535729120697005053385838616,42);
  (9999999991868533020116645793902791,34); (1488766342213512899386796420225942,42);
  (9999999998797715051769734627877447,34); (2398015281524665147505621252608220,43);
  (9999999999850181725287230665462961,34); (3255792427616578252589876417089075,44);
  (9999999999984509388549339736681223,34); (3668249015505806789130803397020203,45);
  (9999999999998693410090051875663570,34); (3371869753377790027700466568337363,46);
  (9999999999999911745795787604492171,34); (2482242838058852373696593412141052,47);
  (9999999999999995321648379278507554,34); (1434199322982147519108993000418290,48);
  (9999999999999999809603206497012099,34); (6362234582016529164175749359784188,50);
  (9999999999999999994192033283583674,34); (2115578337431926453608247217098740,51);
  (9999999999999999999870628916993525,34); (5137067672561851667574589078580863,53);
  (9999999999999999999997954839941931,34); (8853066318810167800210047825675899,55);
  (9999999999999999999999977756269045,34); (1049724255602621721734367562893773,56);
  (9999999999999999999999999839092856,34); (8278562189600734822362447294410010,59);
  (9999999999999999999999999999253893,34); (4185062523068806732747464075110991,61)].
Definition tanh_sinh_88 : list (Z * Z) := [
  (4011744833067093690946988834754114,62); (2251411671681421177421305961153361,61);
  (8693284665069062855705265813656961,60); (4478368355693557438948000842280473,59);
  (1211644714923474964286785722388913,57); (5729731223368635686075168479982764,57);
  (1126358173131426260418704404311710,55); (4889550077250536668615044904949656,55);
  (7220429920273570848340231630301351,54); (2877406258049965665838466884814190,53);
  (3290965394584836265334480565526190,52); (1203987008549547745598246620984654,51);
  (1096872933494123228048981080543911,50); (3684109292072449609479977686794128,50);
  (2743225123966828559820208378982751,49); (8459328891017634212595395848115108,49);
  (5271337186201545592509361033257235,48); (1492512376939044202358812136304944,47);
  (7953802187077201832711715365532884,47); (2067871587999754788877515257621260,46);
  (9613722834379808353344401280712108,46); (2295230744238790840473875415081224,45);
  (9480492959082435212486085011701287,45); (2078702654229162612600251347187342,44);
  (7757155330395285472348906337200223,44); (1562208195864499182369204281134758,43);
  (5348350211374597654277479087728352,43); (9894377161501129283890193480736656,43);
  (3151734895277406948687864820926882,42); (5356958948527141600502378149674027,42);
  (1608263680075976967884797694925471,41); (2511922524721639164933629267494917,41);
  (7191971846905403072542299132090675,41); (1032458090804927959987718001966178,40);
  (2849743105309231630801676139692669,40); (3761128558195490427298039056102336,40);
  (1010713026855153475439125282363580,39); (1226764930032613610879565903640328,39);
  (3238601900812827530089155605329941,39); (3616337470939915716469423487870297,39);
  (9456121391493433554047014092623637,39); (9718219448089427656194859114311309,39);
  (2535795303857095539073671881825148,38); (2399747953997324409568607632858849,38);
  (6290808678590201680673035961757921,38); (5485110387723242703312160531651816,38);
  (1453389006933814820810667003771519,37); (1168352505176633780036374128007654,37);
  (3146277155816943904423534895107703,37); (2333583379450540260420678450812025,37);
  (6417829939644288948924701875516934,37); (4395433642402843845466061767078350,37);
  (1239892946813736887883596202072375,36); (7848035722726623146751834036745248,37);
  (2279374885883136938511777376840085,36); (1334569203572005483708400708598115,36);
  (4004275476005964302839979026759580,36); (2170561493735454241233869456418611,36);
  (6747869672993338223080482098903305,36); (3389019620421776076086619436034110,36);
  (1094522979678612843105796473106240,35); (5096326187033163596002427037521654,36);
  (1713991303647534957035472339595368,35); (7401546168191906890615671243439769,36);
  (2598149129274530780469925082472780,35); (1040553291290509137558674965527790,35);
  (3821042911695121262357639860522130,35); (1418654501268397885292808473591428,35);
  (5462700572698778340243458290141589,35); (1878286048505157737684948273786803,35);
  (7604186827220199437001534024133095,35); (2417373953170060622613717202734661,35);
  (1032077134831907571113539819334208,34); (3026124183821524094235178176442330,35);
  (1367347262891872484876079820873190,34); (3685663988882528940401925329359277,35);
  (1769966420945472388337303462034511,34); (4367605889539719378694285909923321,35);
  (2240390085552789194509339496703052,34); (5034992149252582150102170556675211,35);
  (2775051623505794815642664443542399,34); (5644921216167605882103692980402099,35);
  (3365969442436347240558298974780057,34); (6152828993898677199061857987176517,35);
  (4000847031655813756703916161864296,34); (6517945507455143596580595425881408,35);
  (4663740399964695149018561156641410,34); (6709001866047221063940218164112199,35);
  (5336259600035304850981438843358590,34); (6709001866047221063940218164112199,35);
  (5999152968344186243296083838135705,34); (6517945507455143596580595425881408,35);
  (6634030557563652759441701025219943,34); (6152828993898677199061857987176517,35);
  (7224948376494205184357335556457601,34); (5644921216167605882103692980402099,35);
  (7759609914447210805490660503296947,34); (5034992149252582150102170556675211,35);
  (8230033579054527611662696537965489,34); (4367605889539719378694285909923321,35);
  (8632652737108127515123920179126810,34); (3685663988882528940401925329359278,35);
  (8967922865168092428886460180665793,34); (3026124183821524094235178176442330,35);
  (9239581317277980056299846597586691,34); (2417373953170060622613717202734661,35);
  (9453729942730122165975654170985842,34); (1878286048505157737684948273786803,35);
  (9617895708830487873764236013947788,34); (1418654501268397885292808473591428,35);
  (9740185087072546921953007491752723,34); (1040553291290509137558674965527790,35);
  (9828600869635246504296452766040463,34); (7401546168191906890615671243439769,36);
  (9890547702032138715689420352689377,34); (5096326187033163596002427037521654,36);
  (9932521303270066617769195179010967,34); (3389019620421776076086619436034110,36);
  (9959957245239940356971600209732404,34); (2170561493735454241233869456418611,36);
  (9977206251141168630614882226231599,34); (1334569203572005483708400708598115,36);
  (9987601070531862631121164037979275,34); (7848035722726623146751834036745248,37);
  (9993582170060355711051075298124483,34); (4395433642402843845466061767078350,37);
  (9996853722844183056095576465104893,34); (2333583379450540260420678450812025,37);
  (9998546610993066185179189332996228,34); (1168352505176633780036374128007654,37);
  (9999370919132140979831932696403824,34); (5485110387723242703312160531651816,38);
  (9999746420469614290446092632811818,34); (2399747953997324409568607632858854,38);
  (9999905438786085065664459529859075,34); (9718219448089427656194859114311309,39);
  (9999967613980991871724699108443947,34); (3616337470939915716469423487870297,39);
  (9999989892869731448465245608747176,34); (1226764930032613610879565903640328,39);
  (9999997150256894690768369198323861,34); (3761128558195490427298039056102336,40);
  (9999999280802815309459692745770087,34); (1032458090804927959987718001966178,40);
  (9999999839173631992402303211520230,34); (2511922524721639164933629267494918,41);
  (9999999968482651047225930513121351,34); (5356958948527141600502378149674027,42);
  (9999999994651649788625402345722522,34); (9894377161501129283890193480736656,43);
  (9999999999224284466960471452765110,34); (1562208195864499182369204281134762,43);
  (9999999999905195070409175647875140,34); (2078702654229162612600251347187342,44);
  (9999999999990386277165620191646655,34); (2295230744238790840473875415081224,45);
  (9999999999999204619781292279816729,34); (2067871587999754788877515257621260,46);
  (9999999999999947286628137984544074,34); (1492512376939044202358812136304944,47);
  (9999999999999997256774876033171440,34); (8459328891017634212595395848115108,49);
  (9999999999999999890312706650587677,34); (3684109292072449609479977686794128,50);
  (9999999999999999996709034605415165,34); (1203987008549547745598246620984654,51);
  (9999999999999999999927795700797265,34); (2877406258049965665838466884814208,53);
  (9999999999999999999998873641826868,34); (4889550077250536668615044904949656,55);
  (9999999999999999999999987883552851,34); (5729731223368635686075168479982764,57);
  (9999999999999999999999999913067153,34); (4478368355693557438948000842280473,59);
  (9999999999999999999999999999598825,34); (2251411671681421177421305961153361,61)].
Definition tanh_sinh_89 : list (Z * Z) := [
  (2159600006425758118949157202977042,62); (1212582862897808555316777039344606,61);
  (4701767235947198919634506808180067,60); (2425171030357661601312069795879312,59);
  (6606133958142015920880783190775595,58); (3130258341273653401909436258573553,57);
  (6207943718102841419464105809621560,56); (2702353199310352161924597983113878,55);
  (4031958115272975231163107256214551,54); (1612440531719927297049979715978224,53);
  (1865291788520605855253495569214038,52); (6853332956299515939426115400212420,52);
  (6319319707614235180983625699042099,51); (2133188980782007441644007394514229,50);
  (1608197590993830428364528524476002,49); (4987949143793508143231423999458775,49);
  (3147089560738991531052302257748054,48); (8968887990945571340678427742671772,48);
  (4838493942883076591008425347640238,47); (1267109550204179212340572590259496,46);
  (5960965465730553197192549681416376,46); (1434589640452889178190198493238091,45);
  (5992489313541451209413597923392312,45); (1325452425235967158662708695965869,44);
  (4998309174325234239492334351561927,44); (1016182152326705332370406591740739,43);
  (3512524497710888683233771801108757,43); (6564680057722937606159239050750498,43);
  (2109179692690746417558245872975392,42); (3624245921022325872926224006082426,42);
  (1096301249337999527050762794681627,41); (1732286453092024355458750519046841,41);
  (4991598705073251322868734076492725,41); (7254456334627252962767947877757566,41);
  (2012791026679446336605768787691795,40); (2691195715854085693260005912788018,40);
  (7260752892935912606679536491573036,40); (8933769607959061074817892316383703,40);
  (2364904191005299642413708170188351,39); (2678678398176581954011666714406859,39);
  (7014527850803968546654462809179193,39); (7316992959641185964953421070792219,39);
  (1909614362399821446317842784504013,38); (1835310712058692025799144559812875,38);
  (4806106528202369105267984829526034,38); (4258161471680216343691892943202066,38);
  (1125717623651538064377282570776319,37); (9200104835560714152079897576945580,38);
  (2468934653898343237778525731350153,37); (1862568650603253512710645757167022,37);
  (5098855568530127167338250632198528,37); (3553465082131285925429427981581338,37);
  (9966751980216032956719333182109807,37); (6422036567229205507972583440314705,37);
  (1852650208042280031886897436300463,36); (1104662703982580965280387843947961,36);
  (3288875657034029437744882781670303,36); (1816247313018641336976726133413679,36);
  (5597476648326668147508405166131449,36); (2865222496174017191565615509855558,36);
  (9164981630929479265665311525645904,36); (4351378547107974171922644049968713,36);
  (1448111282760089329711642207415478,35); (6380067512182774230094272471958397,36);
  (2214007416148452937588994154375815,35); (9053110675924835293839142522200590,36);
  (3283109572010909797260994108729003,35); (1245640084543568373051566813922314,35);
  (4731499846905726288191400563115013,35); (1664442560946384177313532326383271,35);
  (6638408400357842061342900890083933,35); (2162261819434378133297137419368157,35);
  (9080402555417706321412153424522293,35); (2732941625173318710736850227597456,35);
  (1212388860019832614920745420121684,34); (3362105701460077977093200815860482,35);
  (1581639539060890708235852737398284,34); (4026315251594144672711536275546620,35);
  (2017754036957172600025227749510161,34); (4693348001028842461889321367652932,35);
  (2519099453021232650134554057258767,34); (5323963189625641633935617214818788,35);
  (3079902329980399646336592541944362,34); (5875282088663491362894533283565304,35);
  (3690113061012707616550251724897824,34); (6305536096972117304663515941212110,35);
  (4335786762222889173725229844207017,34); (6579500388198368850535617161239461,35);
  (5000000000000000000000000000000000,34); (6673589488508187328450324735565412,35);
  (5664213237777110826274770155792982,34); (6579500388198368850535617161239461,35);
  (6309886938987292383449748275102176,34); (6305536096972117304663515941212110,35);
  (6920097670019600353663407458055638,34); (5875282088663491362894533283565304,35);
  (7480900546978767349865445942741234,34); (5323963189625641633935617214818788,35);
  (7982245963042827399974772250489839,34); (4693348001028842461889321367652930,35);
  (8418360460939109291764147262601718,34); (4026315251594144672711536275546618,35);
  (8787611139980167385079254579878316,34); (3362105701460077977093200815860482,35);
  (9091959744458229367858784657547770,34); (2732941625173318710736850227597456,35);
  (9336159159964215793865709910991607,34); (2162261819434378133297137419368157,35);
  (9526850015309427371180859943688498,34); (1664442560946384177313532326383271,35);
  (9671689042798909020273900589127100,34); (1245640084543568373051566813922314,35);
  (9778599258385154706241100584562418,34); (9053110675924835293839142522200590,36);
  (9855188871723991067028835779258452,34); (6380067512182774230094272471958397,36);
  (9908350183690705207343346884743541,34); (4351378547107974171922644049968711,36);
  (9944025233516733318524915948338686,34); (2865222496174017191565615509855557,36);
  (9967111243429659705622551172183296,34); (1816247313018641336976726133413679,36);
  (9981473497919577199681131025636995,34); (1104662703982580965280387843947961,36);
  (9990033248019783967043280666817891,34); (6422036567229205507972583440314704,37);
  (9994901144431469872832661749367801,34); (3553465082131285925429427981581338,37);
  (9997531065346101656762221474268651,34); (1862568650603253512710645757167022,37);
  (9998874282376348461935622717429223,34); (9200104835560714152079897576945577,38);
  (9999519389347179763089473201517048,34); (4258161471680216343691892943202066,38);
  (9999809038563760017855368215721550,34); (1835310712058692025799144559812875,38);
  (9999929854721491960314533455371908,34); (7316992959641185964953421070792219,39);
  (9999976350958089947003575862918298,34); (2678678398176581954011666714406859,39);
  (9999992739247107064087393320463509,34); (8933769607959061074817892316383703,40);
  (9999997987208973320553663394231212,34); (2691195715854085693260005912788018,40);
  (9999999500840129492674867713126591,34); (7254456334627252962767947877757566,41);
  (9999999890369875066200047294923720,34); (1732286453092024355458750519046841,41);
  (9999999978908203073092535824417541,34); (3624245921022325872926224006082426,42);
  (9999999996487475502289111316766228,34); (6564680057722937606159239050750516,43);
  (9999999999500169082567476576050767,34); (1016182152326705332370406591740739,43);
  (9999999999940075106864585487905864,34); (1325452425235967158662708695965869,44);
  (9999999999994039034534269446802808,34); (1434589640452889178190198493238091,45);
  (9999999999999516150605711692340900,34); (1267109550204179212340572590259496,46);
  (9999999999999968529104392610084689,34); (8968887990945571340678427742671772,48);
  (9999999999999998391802409006169572,34); (4987949143793508143231423999458775,49);
  (9999999999999999936806802923857648,34); (2133188980782007441644007394514229,50);
  (9999999999999999998134708211479394,34); (6853332956299515939426115400212420,52);
  (9999999999999999999959680418847270,34); (1612440531719927297049979715978214,53);
  (9999999999999999999999379205628189,34); (2702353199310352161924597983113877,55);
  (9999999999999999999999993393866041,34); (3130258341273653401909436258573553,57);
  (9999999999999999999999999952982328,34); (2425171030357661601312069795879312,59);
  (9999999999999999999999999999784040,34); (1212582862897808555316777039344606,61)].
Definition tanh_sinh_90 : list (Z * Z) := [
  (1163895531980486522642260734277382,62); (6538291651222267038458814148888768,62);
  (2545662409219155025137765140093122,60); (1314669946969207695043876761553498,59);
  (3605117957912510005717579325795496,58); (1711627080651324056423372272512119,57);
  (3424040189731451555521313387909684,56); (1494554854118149998267542783707503,55);
  (2252663186757873941747396484104355,54); (9039906777393352769827635415483628,54);
  (1057540862269826594616549328414957,52); (3901871449826702176766237049054735,52);
  (3640882977409641453580570495487226,51); (1235112488631791147396646433271004,50);
  (9426144240440038095247014971677329,50); (2940198515514612867265743357317604,49);
  (1878061244897624798741456092236873,48); (5386632238141347741981373383178284,48);
  (2941418507829991661646781046471841,47); (7758105476122551827581285653577463,47);
  (3692805451888649400154740072514279,46); (8957310939333347529968608937787281,46);
  (3783623872757674738618398240337097,45); (8440890936015751898299034865344339,45);
  (3216506230496157270109418081362655,44); (6600354769007195330320215678529529,44);
  (2303473709582429233436005147470103,43); (4348305380856978658098908080271825,43);
  (1409202509684999027478465775401524,42); (2447511547941329776489148432385998,42);
  (7459988033341516070855709845278718,42); (1192272990633599194171416640485881,41);
  (3457918648716990309029008250457727,41); (5086548717587734548759212123531769,41);
  (1418832671041774785978931826301650,40); (1921367122261220963039896491945895,40);
  (5205221701443801760156563636405223,40); (6490929811097965763849120113533547,40);
  (1723239412347168969305260479508737,39); (1979431458750309837931839139356127,39);
  (5192064316709260733832554153156823,39); (5495724231940081680402306512668416,39);
  (1434898027244775085556160318407343,38); (1400188127179472152515608545711246,38);
  (3663692477080428108381052722536791,38); (3297510178601340313273896495622968,38);
  (8699958561534795149394174967152228,38); (7226711199332653561556923021476512,38);
  (1933168130785637660710024993968142,37); (1482990623782601437824136387454767,37);
  (4042190854578112281946955451226573,37); (2865843833388708417688541179269787,37);
  (7994633525212280777312858620872811,37); (5242647265094440818375436043554186,37);
  (1502673218909848653936562384571734,36); (9122223016805937750419944820198149,37);
  (2695769730855490517481070937668952,36); (1516261242503186918405611250070769,36);
  (4633898683646173348882673456251169,36); (2416832395416599447396755948202493,36);
  (7659141686982171885545161218279060,36); (3706794271143468490318070650285115,36);
  (1221080944937350700034741375414567,35); (5486743233416414474384509768706745,36);
  (1882968029692006703026637504563470,35); (7857516476456910557736471019476441,36);
  (2815321372334641446041519924567356,35); (1090961564664649624967078950695844,35);
  (4089864722473722852685536436685149,35); (1470959215826322146934091590881188,35);
  (5783116563481889496205425252903032,35); (1928395921045177072694472468504784,35);
  (7971527392962321873169164010815893,35); (2460199435155862334772447696782981,35);
  (1072493662378244889809815054751090,34); (3055981749559818436447950422141456,35);
  (1409863990408098408601490075079676,34); (3696916574214236646141790051447883,35);
  (1812473826224720734423869710190539,34); (4355495418012551453806569274870997,35);
  (2280384859472973696153722547481886,34); (4996550757390288745897923797914849,35);
  (2809857951006957892728785984473962,34); (5579782337596552308677534799736099,35);
  (3393027552053191566609215864089877,34); (6063726422005248552114968970340245,35);
  (4018028040931496754768749876436097,34); (6410715474517636045105544219974952,35);
  (4669632304720832455970004335095156,34); (6592000698085504420551941746967788,35);
  (5330367695279167544029995664904844,34); (6592000698085504420551941746967788,35);
  (5981971959068503245231250123563903,34); (6410715474517636045105544219974952,35);
  (6606972447946808433390784135910122,34); (6063726422005248552114968970340245,35);
  (7190142048993042107271214015526037,34); (5579782337596552308677534799736099,35);
  (7719615140527026303846277452518114,34); (4996550757390288745897923797914849,35);
  (8187526173775279265576130289809461,34); (4355495418012551453806569274870997,35);
  (8590136009591901591398509924920324,34); (3696916574214236646141790051447885,35);
  (8927506337621755110190184945248911,34); (3055981749559818436447950422141456,35);
  (9202847260703767812683083598918410,34); (2460199435155862334772447696782980,35);
  (9421688343651811050379457474709696,34); (1928395921045177072694472468504784,35);
  (9591013527752627714731446356331485,34); (1470959215826322146934091590881188,35);
  (9718467862766535855395848007543264,34); (1090961564664649624967078950695844,35);
  (9811703197030799329697336249543652,34); (7857516476456910557736471019476441,36);
  (9877891905506264929996525862458544,34); (5486743233416414474384509768706745,36);
  (9923408583130178281144548387817209,34); (3706794271143468490318070650285115,36);
  (9953661013163538266511173265437488,34); (2416832395416599447396755948202493,36);
  (9973042302691445094825189290623309,34); (1516261242503186918405611250070769,36);
  (9984973267810901513460634376154282,34); (9122223016805937750419944820198147,37);
  (9992005366474787719222687141379127,34); (5242647265094440818375436043554186,37);
  (9995957809145421887718053044548773,34); (2865843833388708417688541179269787,37);
  (9998066831869214362339289975006032,34); (1482990623782601437824136387454767,37);
  (9999130004143846520485060582503284,34); (7226711199332653561556923021476512,38);
  (9999633630752291957189161894727747,34); (3297510178601340313273896495622968,38);
  (9999856510197275522491444383968159,34); (1400188127179472152515608545711246,38);
  (9999948079356832907392661674458468,34); (5495724231940081680402306512668415,39);
  (9999982767605876528310306947395204,34); (1979431458750309837931839139356127,39);
  (9999994794778298556198239843436362,34); (6490929811097965763849120113533547,40);
  (9999998581167328958225214021068175,34); (1921367122261220963039896491945895,40);
  (9999999654208135128300969097099176,34); (5086548717587734548759212123531769,41);
  (9999999925400119666584839291442902,34); (1192272990633599194171416640485881,41);
  (9999999985907974903150009725215342,34); (2447511547941329776489148432385997,42);
  (9999999997696526290417570766563996,34); (4348305380856978658098908080271838,43);
  (9999999999678349376950384272989058,34); (6600354769007195330320215678529546,44);
  (9999999999962163761272423252613816,34); (8440890936015751898299034865344338,45);
  (9999999999996307194548111350599845,34); (8957310939333347529968608937787281,46);
  (9999999999999705858149217000833836,34); (7758105476122551827581285653577463,47);
  (9999999999999981219387551023752013,34); (5386632238141347741981373383178284,48);
  (9999999999999999057385575955996191,34); (2940198515514612867265743357317604,49);
  (9999999999999999963591170225903586,34); (1235112488631791147396646433271004,50);
  (9999999999999999998942459137730174,34); (3901871449826702176766237049054735,52);
  (9999999999999999999977473368132421,34); (9039906777393352769827635415483628,54);
  (9999999999999999999999657595981028,34); (1494554854118149998267542783707503,55);
  (9999999999999999999999996394882042,34); (1711627080651324056423372272512119,57);
  (9999999999999999999999999974543376,34); (1314669946969207695043876761553498,59);
  (9999999999999999999999999999883610,34); (6538291651222267038458814148888768,62)].
Definition tanh_sinh_91 : list (Z * Z) := [
  (6279834448975671500569971786630040,63); (3529445527337316665527154396670973,62);
  (1379738887843374892275475932092650,60); (7134066827173012121180473657505565,60);
  (1969188416293955495303951047371707,58); (9367362560639395936937303692579401,58);
  (1889937938592257537102154783601650,56); (8271354157263686884853330925863284,56);
  (1259226651606759907044046800944805,54); (5070407883297660745125225944117500,54);
  (5997592284657993237390702800392829,53); (2221972724001595446989609496169330,52);
  (2097830186842424064442890413026561,51); (7151055041428355023252606627984716,51);
  (5523985424412049240889159253839635,50); (1732639810177080410906743114383851,49);
  (1120293532383968679293106952669244,48); (3233439879330943938721944030301030,48);
  (1787004033980592886072496822287678,47); (4746360865797463731273738344226315,47);
  (2285722481300113448815909951667807,46); (5587153167708402273220707483567447,46);
  (2386418956273783936892877062184967,45); (5368841303423203417946517858194789,45);
  (2067288161594790693249903138025971,44); (4280977487276225495905852020133698,44);
  (1508436092831397266452568074058711,43); (2875580816035204540891129398723638,43);
  (9400370197929664243758230883013390,43); (1649900692636847168035370239897250,42);
  (5067547771374946049696680907804210,42); (8190165098813911668723749098528961,42);
  (2391052446772949716641305401742563,41); (3559145836845654174991074624665961,41);
  (9982023697187893418740281093184016,41); (1368772755343054040338482886833735,40);
  (3724048764401330401900170367489144,40); (4705384660537248308107162159457794,40);
  (1253047903548066121816824887208937,39); (1459301287142623628274865761826186,39);
  (3834870715859074165613700730411711,39); (4117927666327189687867968837817232,39);
  (1075850357415565322507041505248285,38); (1065638005337376866488498346858067,38);
  (2786721251659486452709934476702541,38); (2547355406887996610469497534272306,38);
  (6708937856441521155535379089250430,38); (5662759884581225864635332968650076,38);
  (1510373598133575902170121591861540,37); (1177905989602286545397292590566479,37);
  (3197617727652347069737613600497195,37); (2305742879703769557381385619227170,37);
  (6399174053328435243357442006154165,37); (4269742105625782020957272448664942,37);
  (1216279870730945623308972447225959,36); (7515559684706595491272669135061731,37);
  (2205130783190265552675556697033357,36); (1262925614493382634528054647783926,36);
  (3828551606423576727740558727250436,36); (2033994747101138501870822095262502,36);
  (6388178207386356348516319685499521,36); (3150558584870840583886330821078997,36);
  (1027650038474386556994385820052820,35); (4707736203480562749897022058036450,36);
  (1598336357379259298678038367926743,35); (6803874472256882862065765427523927,36);
  (2409497611977229811130213171158855,35); (9531618857493051445484559844719687,36);
  (3528252173746053903639671633524620,35); (1296606476082715734169991933929619,35);
  (5027756972281535210056571534874355,35); (1715029857489544582979215297920788,35);
  (6983208303063603639772437545709752,35); (2207927738267989060455386949630222,35);
  (9466219519080165691386023390722512,35); (2768387356124301758285459640456695,35);
  (1253772473617665358898542116453284,34); (3381789839723265993570292076191572,35);
  (1623988282284536181242958594783510,34); (4025173213356012083815127379104747,35);
  (2058783631334460668280136416133052,34); (4667640046671284921868134560558317,35);
  (2556253208391191978082432935595822,34); (5272109299615461882883709864611778,35);
  (3110601273629219259552160761082691,34); (5798494593197403913396456663218874,35);
  (3712051074136073667721497095349553,34); (6208058197190687010556545330227636,35);
  (4347223958835011867770586785186511,34); (6468319027449743806867038759235906,35);
  (5000000000000000000000000000000000,34); (6557610411424523168124807215235694,35);
  (5652776041164988132229413214813489,34); (6468319027449743806867038759235906,35);
  (6287948925863926332278502904650447,34); (6208058197190687010556545330227636,35);
  (6889398726370780740447839238917308,34); (5798494593197403913396456663218874,35);
  (7443746791608808021917567064404178,34); (5272109299615461882883709864611778,35);
  (7941216368665539331719863583866948,34); (4667640046671284921868134560558319,35);
  (8376011717715463818757041405216490,34); (4025173213356012083815127379104747,35);
  (8746227526382334641101457883546716,34); (3381789839723265993570292076191571,35);
  (9053378048091983430861397660927748,34); (2768387356124301758285459640456695,35);
  (9301679169693639636022756245429025,34); (2207927738267989060455386949630222,35);
  (9497224302771846478994342846512564,34); (1715029857489544582979215297920788,35);
  (9647174782625394609636032836647538,34); (1296606476082715734169991933929619,35);
  (9759050238802277018886978682884115,34); (9531618857493051445484559844719687,36);
  (9840166364262074070132196163207326,34); (6803874472256882862065765427523927,36);
  (9897234996152561344300561417994718,34); (4707736203480562749897022058036450,36);
  (9936118217926136436514836803145004,34); (3150558584870840583886330821078997,36);
  (9961714483935764232722594412727496,34); (2033994747101138501870822095262504,36);
  (9977948692168097344473244433029666,34); (1262925614493382634528054647783926,36);
  (9987837201292690543766910275527741,34); (7515559684706595491272669135061731,37);
  (9993600825946671564756642557993847,34); (4269742105625782020957272448664942,37);
  (9996802382272347652930262386399503,34); (2305742879703769557381385619227170,37);
  (9998489626401866424097829878408138,34); (1177905989602286545397292590566479,37);
  (9999329106214355847884446462091075,34); (5662759884581225864635332968650076,38);
  (9999721327874834051354729006552330,34); (2547355406887996610469497534272306,38);
  (9999892414964258443467749295849474,34); (1065638005337376866488498346858067,38);
  (9999961651292841409258343862992695,34); (4117927666327189687867968837817232,39);
  (9999987469520964519338781831751127,34); (1459301287142623628274865761826186,39);
  (9999996275951235598669598099829633,34); (4705384660537248308107162159457794,40);
  (9999999001797630281210658125971890,34); (1368772755343054040338482886833735,40);
  (9999999760894755322705028335869461,34); (3559145836845654174991074624665961,41);
  (9999999949324522286250539503033192,34); (8190165098813911668723749098528961,42);
  (9999999990599629802070335756241770,34); (1649900692636847168035370239897250,42);
  (9999999998491563907168602733547432,34); (2875580816035204540891129398723638,43);
  (9999999999793271183840520930675009,34); (4280977487276225495905852020133685,44);
  (9999999999976135810437262160631071,34); (5368841303423203417946517858194789,45);
  (9999999999997714277518699886551185,34); (5587153167708402273220707483567448,46);
  (9999999999999821299596601940711394,34); (4746360865797463731273738344226315,47);
  (9999999999999988797064676160313207,34); (3233439879330943938721944030301030,48);
  (9999999999999999447601457558795076,34); (1732639810177080410906743114383851,49);
  (9999999999999999979021698131575759,34); (7151055041428355023252606627984757,51);
  (9999999999999999999400240771534201,34); (2221972724001595446989609496169330,52);
  (9999999999999999999987407733483933,34); (5070407883297660745125225944117533,54);
  (9999999999999999999999811006206140,34); (8271354157263686884853330925863287,56);
  (9999999999999999999999998030811583,34); (9367362560639395936937303692579401,58);
  (9999999999999999999999999986202611,34); (7134066827173012121180473657505565,60);
  (9999999999999999999999999999937201,34); (3529445527337316665527154396670973,62)].
Definition tanh_sinh_92 : list (Z * Z) := [
  (3392102231906533759382168880269347,63); (1907353392805878462345613335873995,62);
  (7485891031010204719102480522791125,61); (3875235336602947829611475934710427,60);
  (1076580477820283491232046989465816,58); (5130987475269442360126339635581813,58);
  (1043930580078946583923628086544892,56); (4580731403998088682142383246472114,56);
  (7042696436180041894684966733472588,55); (2845256378743593517996194574660283,54);
  (3402424197186069943473193092298753,53); (1265617529113404773707243294332007,52);
  (1208831497806352492698805181309609,51); (4140244170570964713882401732612777,51);
  (3236692978055085714358564801102831,50); (1020763307007228751723514189696037,49);
  (6680117333345426771690466592055752,49); (1939953287025534343993829685073678,48);
  (1084992809214636653294579032169236,47); (2901627071760327964557998706778497,47);
  (1413610828070616145603350321470848,46); (3481611848341246988405683146669488,46);
  (1503615409564449645841756698063599,45); (3410800046682763848708971340863671,45);
  (1327049929033506351146669081625740,44); (2772777084609928364858101519529964,44);
  (9864278447723976504722840868186228,44); (1898660937934372371241715114263141,43);
  (6260999369302050280600135114896147,43); (1110285305046504284224302204213782,42);
  (3436565873994205912771322620364929,42); (5615501895770892418464047275540623,42);
  (1650358024737871789721478453684254,41); (2485367284664227006071515234685667,41);
  (7009323667133202780751095881810060,41); (9730293414803836309330288329719778,41);
  (2659038615933405045815364366773707,40); (3403427255679269791795315590816526,40);
  (9092713918225108993626536058432355,40); (1073372016576984094265508303301169,39);
  (2826462613284890493073667632064328,39); (3078286694510335068474758901266508,39);
  (8049145820666107894636658997393714,39); (8090833687203671107502493293605144,39);
  (2115082244789056927525586114347486,38); (1963109635005736107661965219911731,38);
  (5162358216720219825111468786605452,38); (4426554037254078464211217019621830,38);
  (1177501265370555911050940636865621,37); (9333361413677492015305933074901096,38);
  (2524108948907411036213710740069677,37); (1850695358493972966800449625578156,37);
  (5111340943860520259065343867320358,37); (3469227332055744919605988623615640,37);
  (9824370393982151978298450391093623,37); (6177580927758643721160379022499240,37);
  (1800139995468448508837445486320326,36); (1049527575706726323494256795949883,36);
  (3156899565816074547150214962022258,36); (1707961046417422348507109254295532,36);
  (5317752181082320263959709842171700,36); (2671821105171728325316329455976109,36);
  (8632012771477432676950699164079823,36); (4030289272800558895053945216406813,36);
  (1354145945111149134709566413254318,35); (5878090956529497726957868315868940,36);
  (2058237460845260641136828792125444,35); (8308039127850354440753099924027411,36);
  (3037875851079176005619190044270696,35); (1140082619162369972980368054541503,35);
  (4362399265096387782326046813560970,35); (1521218669459737616542296542745335,35);
  (6104858405457410953737213813145333,35); (1975805480015117346038079319339162,35);
  (8337259374358044325060684111329485,35); (2499907306686157819526759927879695,35);
  (1112431500537509346812949227898698,34); (3082670633115493085179913847100849,35);
  (1451601476011711028007843425907415,34); (3705407672231308136219990601718767,35);
  (1853966399895223325771118873285202,34); (4341512096190691151021190886957705,35);
  (2319239617934877248659061724810549,34); (4957535567246093169687331479583849,35);
  (2843542727454072659117567743797698,34); (5515607126358380907929849834577602,35);
  (3419137958779244726159593161525731,34); (5977111256297680049229498537372236,35);
  (4034575055988919805070845951240680,34); (6307200098859695036243088408771505,35);
  (4675301249570370240587234159382773,34); (6479399310770431695093972172752530,35);
  (5324698750429629759412765840617227,34); (6479399310770431695093972172752530,35);
  (5965424944011080194929154048759320,34); (6307200098859695036243088408771505,35);
  (6580862041220755273840406838474269,34); (5977111256297680049229498537372236,35);
  (7156457272545927340882432256202302,34); (5515607126358380907929849834577602,35);
  (7680760382065122751340938275189450,34); (4957535567246093169687331479583849,35);
  (8146033600104776674228881126714797,34); (4341512096190691151021190886957705,35);
  (8548398523988288971992156574092585,34); (3705407672231308136219990601718767,35);
  (8887568499462490653187050772101300,34); (3082670633115493085179913847100850,35);
  (9166274062564195567493931588867052,34); (2499907306686157819526759927879695,35);
  (9389514159454258904626278618685467,34); (1975805480015117346038079319339163,35);
  (9563760073490361221767395318643903,34); (1521218669459737616542296542745335,35);
  (9696212414892082399438080995572931,34); (1140082619162369972980368054541503,35);
  (9794176253915473935886317120787457,34); (8308039127850354440753099924027411,36);
  (9864585405488885086529043358674569,34); (5878090956529497726957868315868943,36);
  (9913679872285225673230493008359203,34); (4030289272800558895053945216406813,36);
  (9946822478189176797360402901578282,34); (2671821105171728325316329455976108,36);
  (9968431004341839254528497850379777,34); (1707961046417422348507109254295531,36);
  (9981998600045315514911625545136796,34); (1049527575706726323494256795949883,36);
  (9990175629606017848021701549608906,34); (6177580927758643721160379022499241,37);
  (9994888659056139479740934656132679,34); (3469227332055744919605988623615640,37);
  (9997475891051092588963786289259930,34); (1850695358493972966800449625578156,37);
  (9998822498734629444088949059363135,34); (9333361413677492015305933074901096,38);
  (9999483764178327978017488853121339,34); (4426554037254078464211217019621830,38);
  (9999788491775521094307247441388565,34); (1963109635005736107661965219911731,38);
  (9999919508541793338921053633410027,34); (8090833687203671107502493293605158,39);
  (9999971735373867151095069263323680,34); (3078286694510335068474758901266508,39);
  (9999990907286081774891006373463941,34); (1073372016576984094265508303301169,39);
  (9999997340961384066594954184635633,34); (3403427255679269791795315590816526,40);
  (9999999299067633286679721924890411,34); (9730293414803836309330288329719778,41);
  (9999999834964197526212821027852155,34); (2485367284664227006071515234685666,41);
  (9999999965634341260057940872286773,34); (5615501895770892418464047275540623,42);
  (9999999993739000630697949719399866,34); (1110285305046504284224302204213782,42);
  (9999999999013572155227602349527716,34); (1898660937934372371241715114263135,43);
  (9999999999867295007096649364885334,34); (2772777084609928364858101519529964,44);
  (9999999999984963845904355503541583,34); (3410800046682763848708971340863671,45);
  (9999999999998586389171929383854396,34); (3481611848341246988405683146669488,46);
  (9999999999999891500719078536334671,34); (2901627071760327964557998706778497,47);
  (9999999999999993319882666654573228,34); (1939953287025534343993829685073678,48);
  (9999999999999999676330702194491428,34); (1020763307007228751723514189696037,49);
  (9999999999999999987911685021936476,34); (4140244170570964713882401732612752,51);
  (9999999999999999999659757580281393,34); (1265617529113404773707243294332014,52);
  (9999999999999999999992957303563820,34); (2845256378743593517996194574660266,54);
  (9999999999999999999999895606941992,34); (4580731403998088682142383246472114,56);
  (9999999999999999999999998923419523,34); (5130987475269442360126339635581813,58);
  (9999999999999999999999999992514109,34); (3875235336602947829611475934710427,60);
  (9999999999999999999999999999966079,34); (1907353392805878462345613335873995,62)].
Definition tanh_sinh_93 : list (Z * Z) := [
  (1834296001829712714856702061048190,63); (1031885864679902155377774784178842,62);
  (4065695231079086830247215457736953,61); (2107142844446760781703390906030247,60);
  (5891053685993715368658583619956370,59); (2812913050804806958842099712649467,58);
  (5770439137171857914182153421479224,57); (2538545263845847712118293422871544,56);
  (3940954286864423603792235289088914,55); (1597350548057400127520517060548839,54);
  (1930784938387561632107849283939757,53); (7210533447352679915848774718229423,53);
  (6966223905027320029165043286595499,52); (2397063584437756984294360036088855,51);
  (1896214771320911877516959758502405,50); (6012218340723855277101187972914712,50);
  (3981759026704421526304769826670223,49); (1163340036493370572683704912670553,48);
  (6583714191999970603315489053338340,48); (1772596907563360798968019648124065,47);
  (8735488223356400596187861853437565,47); (2167506485762091823653269659583670,46);
  (9464356692161873619112681771756500,46); (2164363426818674876309446573974132,45);
  (8508578835666105397557726751582023,45); (1793491192407853313450239106086560,44);
  (6441886922080611186006679057008703,44); (1251705961393699990875870665761363,43);
  (4163749471971092479485816789034896,43); (7458859739079503743733411427927088,43);
  (2326665082105264074114634645854380,42); (3843094683468308027801635624751059,42);
  (1137096187034106506223740024252960,41); (1732108977130340303734411732615813,41);
  (4912682312031495688497726734831260,41); (6902580346556965028886978718074730,41);
  (1894879162748536338880648672500777,40); (2456335981918048201301663256169671,40);
  (6584713468945697131337849198129701,40); (7877210115139343278615426948636164,40);
  (2078884652973656042786244926281370,39); (2295783910673193610683303528944543,39);
  (6009336025445952591550880106035713,39); (6128453278473268874894400545936725,39);
  (1601882378588238902435553616683529,38); (1509258129310152785824419262904373,38);
  (3963778376438379113816775003184285,38); (3451949070343830144472317291903736,38);
  (9160270982378529259047655273672462,38); (7377853931801879175956363072926973,38);
  (1988235693590376047423068584710928,37); (1481946860011838947363735084162421,37);
  (4074146044533441215514516424984502,37); (2812230537844037792539799414366923,37);
  (7919223075098575554914465100655807,37); (5066156100007447923644342169571931,37);
  (1466569258002837399437129967267548,36); (8702204072646610234786544903325910,37);
  (2597942135804111157050284665172966,36); (1430999460828052377474598844917660,36);
  (4418128424193646477479526673186576,36); (2260837536751952631221404697626894,36);
  (7236884077726889520713702314751465,36); (3442728575579366954762726866104330,36);
  (1145101551887898072716604988301745,35); (5066957704096212112123286295775674,36);
  (1754880108588021542973562878175782,35); (7224949760907346997611130744991975,36);
  (2610699446952038618430475030435279,35); (1000056106345578848056918922406561,35);
  (3777782461837997992499547090011639,35); (1345880497307306803951019292925844,35);
  (5326357304565381808602796588662750,35); (1763238679031251806248412988724588,35);
  (7327696540037098133643172232888664,35); (2250702033087564623757126150642110,35);
  (9848696705072969920624218390501032,35); (2800728406559403524511417393916079,35);
  (1294517564210655884146924273758532,34); (3398561900686565991228315682029101,35);
  (1665436040092475094034351135859955,34); (4021771239160387806171570268057229,35);
  (2098737290726695960481881216703695,34); (4640758306420097019218921868282140,35);
  (2592281782352206703066215283101574,34); (5220481574558370567364265178029220,35);
  (3140273110199779011023130038725135,34); (5723439185679682516251817739085801,35);
  (3733205147030045465298609556679289,34); (6113663101199333989000280751606192,35);
  (4358236771946768046653433309024937,34); (6361158401362681516677225316367188,35);
  (5000000000000000000000000000000000,34); (6445987921262189239932355451168106,35);
  (5641763228053231953346566690975063,34); (6361158401362681516677225316367188,35);
  (6266794852969954534701390443320711,34); (6113663101199333989000280751606192,35);
  (6859726889800220988976869961274865,34); (5723439185679682516251817739085801,35);
  (7407718217647793296933784716898425,34); (5220481574558370567364265178029220,35);
  (7901262709273304039518118783296304,34); (4640758306420097019218921868282140,35);
  (8334563959907524905965648864140044,34); (4021771239160387806171570268057229,35);
  (8705482435789344115853075726241468,34); (3398561900686565991228315682029104,35);
  (9015130329492703007937578160949897,34); (2800728406559403524511417393916079,35);
  (9267230345996290186635682776711132,34); (2250702033087564623757126150642110,35);
  (9467364269543461819139720341133726,34); (1763238679031251806248412988724588,35);
  (9622221753816200200750045290998836,34); (1345880497307306803951019292925844,35);
  (9738930055304796138156952496956471,34); (1000056106345578848056918922406561,35);
  (9824511989141197845702643712182423,34); (7224949760907346997611130744991975,36);
  (9885489844811210192728339501169826,34); (5066957704096212112123286295775674,36);
  (9927631159222731104792862976852486,34); (3442728575579366954762726866104330,36);
  (9955818715758063535225204733268133,34); (2260837536751952631221404697626892,36);
  (9974020578641958888429497153348269,34); (1430999460828052377474598844917660,36);
  (9985334307419971626005628700327325,34); (8702204072646610234786544903325910,37);
  (9992080776924901424445085534899344,34); (5066156100007447923644342169571931,37);
  (9995925853955466558784485483575016,34); (2812230537844037792539799414366923,37);
  (9998011764306409623952576931415289,34); (1481946860011838947363735084162421,37);
  (9999083972901762147074095234472632,34); (7377853931801879175956363072926971,38);
  (9999603622162356162088618322499682,34); (3451949070343830144472317291903736,38);
  (9999839811762141176109756444638331,34); (1509258129310152785824419262904372,38);
  (9999939906639745540474084491198940,34); (6128453278473268874894400545936719,39);
  (9999979211153470263439572137550736,34); (2295783910673193610683303528944543,39);
  (9999993415286531054302868662150801,34); (7877210115139343278615426948636164,40);
  (9999998105120837251463661119351327,34); (2456335981918048201301663256169671,40);
  (9999999508731768796850431150227326,34); (6902580346556965028886978718074730,41);
  (9999999886290381296589349377625998,34); (1732108977130340303734411732615813,41);
  (9999999976733349178947359258853655,34); (3843094683468308027801635624751070,42);
  (9999999995836250528028907520514183,34); (7458859739079503743733411427927088,43);
  (9999999999355811307791938881399333,34); (1251705961393699990875870665761363,43);
  (9999999999914914211643338946024423,34); (1793491192407853313450239106086560,44);
  (9999999999990535643307838126380888,34); (2164363426818674876309446573974132,45);
  (9999999999999126451177664359940381,34); (2167506485762091823653269659583670,46);
  (9999999999999934162858080000293966,34); (1772596907563360798968019648124065,47);
  (9999999999999996018240973295578472,34); (1163340036493370572683704912670553,48);
  (9999999999999999810378522867908812,34); (6012218340723855277101187972914675,50);
  (9999999999999999993033776094972681,34); (2397063584437756984294360036088855,51);
  (9999999999999999999806921506161244,34); (7210533447352679915848774718229421,53);
  (9999999999999999999996059045713135,34); (1597350548057400127520517060548848,54);
  (9999999999999999999999942295608629,34); (2538545263845847712118293422871544,56);
  (9999999999999999999999999410894632,34); (2812913050804806958842099712649467,58);
  (9999999999999999999999999995934304,34); (2107142844446760781703390906030247,60);
  (9999999999999999999999999999981657,34); (1031885864679902155377774784178842,62)].
Definition tanh_sinh_94 : list (Z * Z) := [
  (9929857781628052491912558272269955,64); (5588579893943199691023341131936134,63);
  (2210371210633347710016702123298643,61); (1146884006340711354849872636905185,60);
  (3226432638133875067510393598877697,59); (1543404378374569769537613969746458,58);
  (3191957227727682520770881814272480,57); (1407749131226401786141795891572934,56);
  (2206434661686821713250189327995540,55); (8971809487989623195659363785574586,55);
  (1096012029338503468925011209015017,53); (4109002975245003474817902653278586,53);
  (4014851717320454221351846265309996,52); (1387829818624347217450463537017059,51);
  (1110751283361998422348750284047157,50); (3540339146886907404632280757351847,50);
  (2372534889061706117271720073396844,49); (6973014013651001348136238203848035,49);
  (3992709266007058801469373188684917,48); (1082124721178923663731696929684421,47);
  (5393948022579951726340060621842033,47); (1348167150627392421553034596863090,46);
  (5951442152425526087156205446325425,46); (1371881866916654421991896531730653,45);
  (5449088025643782226917782061595168,45); (1158540710044105621137550871626953,44);
  (4201307618158302535398962549671561,44); (8239609252133139693253699775792503,44);
  (2764919369954026695777515836595338,43); (5002513316145979996219657613795627,43);
  (1572680141592433601851856677273169,42); (2625351099117743702787989892107463,42);
  (7820979576443380630978640884197891,42); (1204805544742856461861639837945470,41);
  (3436853373970768149691498104182915,41); (4886580028359210125416346989897284,41);
  (1347721754402511853821076500007254,40); (1768991006626339737729622210529510,40);
  (4758951991070197123443881108902393,40); (5768027717759252799956007091327593,40);
  (1525895866640206019455728681137750,39); (1708281680278989027958326805375872,39);
  (4477067483092069163717626902511362,39); (4631229381802532395140074898641357,39);
  (1210637524064415265393257030894815,38); (1157600950019674110430055652657607,38);
  (3037013137837358597524555488823826,38); (2685560430592281713548097391850169,38);
  (7111039427666266049137920863114621,38); (5818298476107721601253354210270207,38);
  (1562832492459369492479531110493819,37); (1183891851624530089536916783874951,37);
  (3240668100253226715495627070820867,37); (2274380335601433293431789110817093,37);
  (6370470982293495666414502057370860,37); (4145224497237916447845720962256780,37);
  (1192414255793014051305178245596383,36); (7199303439717665024687893862266107,37);
  (2133754738415105189190216582916654,36); (1196305025596855163627705409329271,36);
  (3663634916212810540076783758828100,36); (1908900865887629457871501802461730,36);
  (6055773395274596975122253075987454,36); (2934441176025822262347414073654183,36);
  (9665217258725934138808966003205324,36); (4358209388438931155624896619504465,36);
  (1493458672861838141875546930314322,35); (6269044548059530494295172026921753,36);
  (2239415693957046947480104872575634,35); (8751987323665010599689822135924220,36);
  (3265335981230092255258810020027806,35); (1187847667580017030558093257170367,35);
  (4638132050074820089931914634665230,35); (1569428753663819250531294845443292,35);
  (6427445435550691891995107905068165,35); (2020587541803367403652454943732235,35);
  (8701013559134594967891082817234864,35); (2536646130642782491418183455112867,35);
  (1151871703824659925381333876407796,34); (3106397392456323081189208424487071,35);
  (1492562967426984159024524232920597,34); (3711367717238772509885743641126806,35);
  (1894469751093561848760957858290625,34); (4325864595061895101621280964610820,35);
  (2356997743674627953538885248377573,34); (4918085948282390418220935734663965,35);
  (2876158196170915235115945219993774,34); (5452428880493762541512226527058897,35);
  (3444350231958315425963407010098698,34); (5892896778235009456375311826123010,35);
  (4050523503880881224349477160854443,34); (6207208410877704365736088974927501,35);
  (4680760078335310919541423973904424,34); (6370946155008999768046054036498386,35);
  (5319239921664689080458576026095576,34); (6370946155008999768046054036498386,35);
  (5949476496119118775650522839145558,34); (6207208410877704365736088974927501,35);
  (6555649768041684574036592989901303,34); (5892896778235009456375311826123010,35);
  (7123841803829084764884054780006227,34); (5452428880493762541512226527058897,35);
  (7643002256325372046461114751622426,34); (4918085948282390418220935734663965,35);
  (8105530248906438151239042141709375,34); (4325864595061895101621280964610820,35);
  (8507437032573015840975475767079403,34); (3711367717238772509885743641126806,35);
  (8848128296175340074618666123592204,34); (3106397392456323081189208424487071,35);
  (9129898644086540503210891718276513,34); (2536646130642782491418183455112866,35);
  (9357255456444930810800489209493184,34); (2020587541803367403652454943732235,35);
  (9536186794992517991006808536533476,34); (1569428753663819250531294845443292,35);
  (9673466401876990774474118997997219,34); (1187847667580017030558093257170367,35);
  (9776058430604295305251989512742437,34); (8751987323665010599689822135924220,36);
  (9850654132713816185812445306968568,34); (6269044548059530494295172026921753,36);
  (9903347827412740658611910339967948,34); (4358209388438931155624896619504465,36);
  (9939442266047254030248777469240124,34); (2934441176025822262347414073654183,36);
  (9963363650837871894599232162411719,34); (1908900865887629457871501802461729,36);
  (9978662452615848948108097834170834,34); (1196305025596855163627705409329271,36);
  (9988075857442069859486948217544037,34); (7199303439717665024687893862266106,37);
  (9993629529017706504333585497942630,34); (4145224497237916447845720962256780,37);
  (9996759331899746773284504372929178,34); (2274380335601433293431789110817093,37);
  (9998437167507540630507520468889506,34); (1183891851624530089536916783874951,37);
  (9999288896057233373395086207913688,34); (5818298476107721601253354210270207,38);
  (9999696298686216264140247544451118,34); (2685560430592281713548097391850169,38);
  (9999878936247593558473460674296911,34); (1157600950019674110430055652657607,38);
  (9999955229325169079308362823730975,34); (4631229381802532395140074898641366,39);
  (9999984741041333597939805442713190,34); (1708281680278989027958326805375872,39);
  (9999995241048008929802876556118892,34); (5768027717759252799956007091327593,40);
  (9999998652278245597488146178923501,34); (1768991006626339737729622210529510,40);
  (9999999656314662602923185030850189,34); (4886580028359210125416346989897284,41);
  (9999999921790204235566193690213592,34); (1204805544742856461861639837945470,41);
  (9999999984273198584075663981481434,34); (2625351099117743702787989892107463,42);
  (9999999997235080630045973304222485,34); (5002513316145979996219657613795626,43);
  (9999999999579869238184169746460103,34); (8239609252133139693253699775792530,44);
  (9999999999945509119743562177730822,34); (1158540710044105621137550871626953,44);
  (9999999999994048557847574473912844,34); (1371881866916654421991896531730653,45);
  (9999999999999460605197742004827366,34); (1348167150627392421553034596863090,46);
  (9999999999999960072907339929411985,34); (1082124721178923663731696929684421,47);
  (9999999999999997627465110938293884,34); (6973014013651001348136238203848035,49);
  (9999999999999999888924871663800158,34); (3540339146886907404632280757351847,50);
  (9999999999999999995985148282679546,34); (1387829818624347217450463537017050,51);
  (9999999999999999999890398797066150,34); (4109002975245003474817902653278611,53);
  (9999999999999999999997793565338313,34); (8971809487989623195659363785574641,55);
  (9999999999999999999999968080427723,34); (1407749131226401786141795891572934,56);
  (9999999999999999999999999677356735,34); (1543404378374569769537613969746458,58);
  (9999999999999999999999999997789629,34); (1146884006340711354849872636905185,60);
  (9999999999999999999999999999990070,34); (5588579893943199691023341131936134,63)].
Definition tanh_sinh_95 : list (Z * Z) := [
  (5381251563126874085406354789441896,64); (3029941300502245561864124908507328,63);
  (1202898999874042432032435582084308,61); (6248408106016590470866874218608510,61);
  (1768606938911360825841721184880081,59); (8475544426134149239735865291455751,59);
  (1766908274144494262604163034217123,57); (7811856842680762011554277873636732,57);
  (1235969653756709235020218115145057,55); (5041518822637018675636496243790313,55);
  (6223499116391092930361477480863139,54); (2342138014387425292408679586040658,53);
  (2314120720909763578690955254598497,52); (8035279603904027678245597727000195,52);
  (6505720385621058468436337023146504,51); (2084311482991350761793524870847539,50);
  (1413203915431450154679110645656456,49); (4177746245629729930412867838096801,49);
  (2420062118197560007576903305453457,48); (6601681802849095987657689731792469,48);
  (3328124265967032357262131288409482,47); (8378049915471255350276779398713040,47);
  (3738886523460763809332592090286952,46); (8686199190214037069882579506357992,46);
  (3485786612682401357571554525291749,45); (7474224674348064584713785981660919,45);
  (2736486806238907361089400017858957,44); (5415969292068200848904385788433725,44);
  (1833376580488371490207193242742352,43); (3349642941011943594443511811576508,43);
  (1061350680393697512699132473545800,42); (1790293875943330718500088947560061,42);
  (5370128534237624819795595251532191,42); (8364360236867721308954237455308204,42);
  (2400034907567968959212367008785000,41); (3452417668176076738750780021075319,41);
  (9567420604394561022232973281170186,41); (1271295161759397540021397624307434,40);
  (3432656229770334600744757057424061,40); (4214351075058505586386660757607282,40);
  (1117736460813228138988578837321504,39); (1268263043185789915529303562979736,39);
  (3328610224756803769691843263803394,39); (3491751039423740971398795827107851,39);
  (9130369576839580964197019688687900,39); (8858151344029686392270892096750079,39);
  (2322038434272370930634270105689605,38); (2084435702072522338250069040015685,38);
  (5508631654785537314543149805849274,38); (4577681135888815713562138927509723,38);
  (1225881700417530023013933592299639,37); (9435857243332031438903277105788096,38);
  (2572375170887286322693667331997134,37); (1835170064997219182626121948434536,37);
  (5114182280376418019366647209977882,37); (3384021982697147095435291780840237,37);
  (9675734247923365328652856269315632,37); (5942697363643529653316829494684825,37);
  (1749079331559221822931432898420000,36); (9979117845994782475951339834313506,37);
  (3032170727156448113024487124283335,36); (1608266592791040591310835768678276,36);
  (5057909591648614126586380864851630,36); (2495834413518076252893435808548254,36);
  (8142824165423277868137130566390546,36); (3740545515015178562045579116268233,36);
  (1268650561023497241643349503437923,35); (5427756939370424356318890440652703,36);
  (1917415030483792779977471321876829,35); (7642108942640762137434099634339163,36);
  (2817181515311992399179444209598553,35); (1045908191388630563021562159604619,35);
  (4031209058650917829194533884575080,35); (1393430968389548134620270121613016,35);
  (5626812281261735023964485894670123,35); (1809107648169778545292758612753758,35);
  (7671460567364436013320980404054071,35); (2290697762842798809799919028393320,35);
  (1022756836912997551669207553711844,34); (2830142323217741468251342872150131,35);
  (1334617522713492570966705353444676,34); (3412638079166837455825385152262195,35);
  (1705998162769683091712888299529702,34); (4016324982736191956429916734710104,35);
  (2137650008732496547919998556575351,34); (4612872422292561352052733187456194,35);
  (2627233075320669912534502797765973,34); (5169162712276215678269463365820168,35);
  (3168968547984634968292895895417800,34); (5650087195444589370883535070191233,35);
  (3753617484153411241039173173100695,34); (6022212004489221198639891295551523,35);
  (4368849133242307695887525238116800,34); (6257798886318035829951566199593465,35);
  (5000000000000000000000000000000000,34); (6338472711271608822631634579343484,35);
  (5631150866757692304112474761883200,34); (6257798886318035829951566199593465,35);
  (6246382515846588758960826826899305,34); (6022212004489221198639891295551523,35);
  (6831031452015365031707104104582200,34); (5650087195444589370883535070191233,35);
  (7372766924679330087465497202234028,34); (5169162712276215678269463365820168,35);
  (7862349991267503452080001443424649,34); (4612872422292561352052733187456193,35);
  (8294001837230316908287111700470298,34); (4016324982736191956429916734710105,35);
  (8665382477286507429033294646555324,34); (3412638079166837455825385152262195,35);
  (8977243163087002448330792446288156,34); (2830142323217741468251342872150131,35);
  (9232853943263556398667901959594593,34); (2290697762842798809799919028393320,35);
  (9437318771873826497603551410532987,34); (1809107648169778545292758612753758,35);
  (9596879094134908217080546611542491,34); (1393430968389548134620270121613016,35);
  (9718281848468800760082055579040144,34); (1045908191388630563021562159604619,35);
  (9808258496951620722002252867812318,34); (7642108942640762137434099634339163,36);
  (9873134943897650275835665049656208,34); (5427756939370424356318890440652703,36);
  (9918571758345767221318628694336095,34); (3740545515015178562045579116268236,36);
  (9949420904083513858734136191351483,34); (2495834413518076252893435808548251,36);
  (9969678292728435518869755128757167,34); (1608266592791040591310835768678277,36);
  (9982509206684407781770685671015799,34); (9979117845994782475951339834313506,37);
  (9990324265752076634671347143730685,34); (5942697363643529653316829494684825,37);
  (9994885817719623581980633352790022,34); (3384021982697147095435291780840237,37);
  (9997427624829112713677306332668003,34); (1835170064997219182626121948434536,37);
  (9998774118299582469976986066407701,34); (9435857243332031438903277105788108,38);
  (9999449136834521446268545685019415,34); (4577681135888815713562138927509729,38);
  (9999767796156572762906936572989431,34); (2084435702072522338250069040015685,38);
  (9999908696304231604190358029803113,34); (8858151344029686392270892096750080,39);
  (9999966713897752431962303081567361,34); (3491751039423740971398795827107851,39);
  (9999988822635391867718610114211628,34); (1268263043185789915529303562979736,39);
  (9999996567343770229665399255242943,34); (4214351075058505586386660757607282,40);
  (9999999043257939560543897776702672,34); (1271295161759397540021397624307434,40);
  (9999999759996509243203104078763300,34); (3452417668176076738750780021075319,41);
  (9999999946298714657623751802044047,34); (8364360236867721308954237455308204,42);
  (9999999989386493196063024873008676,34); (1790293875943330718500088947560061,42);
  (9999999998166623419511628509792807,34); (3349642941011943594443511811576508,43);
  (9999999999726351319376109263891060,34); (5415969292068200848904385788433725,44);
  (9999999999965142133873175986424284,34); (7474224674348064584713785981660919,45);
  (9999999999996261113476539236190667,34); (8686199190214037069882579506357992,46);
  (9999999999999667187573403296764273,34); (8378049915471255350276779398713040,47);
  (9999999999999975799378818024399924,34); (6601681802849095987657689731792469,48);
  (9999999999999998586796084568549845,34); (4177746245629729930412867838096801,49);
  (9999999999999999934942796143789416,34); (2084311482991350761793524870847539,50);
  (9999999999999999997685879279090236,34); (8035279603904027678245597727000195,52);
  (9999999999999999999937765008836089,34); (2342138014387425292408679586040658,53);
  (9999999999999999999998764030346242,34); (5041518822637018675636496243790313,55);
  (9999999999999999999999982330917259,34); (7811856842680762011554277873636732,57);
  (9999999999999999999999999823139305,34); (8475544426134149239735865291455751,59);
  (9999999999999999999999999998797101,34); (6248408106016590470866874218608510,61);
  (9999999999999999999999999999994619,34); (3029941300502245561864124908507328,63)].
Definition tanh_sinh_96 : list (Z * Z) := [
  (2919334843073327012971662070681562,64); (1644461518313915688098240241198518,63);
  (6552714776096675029554572163229362,62); (3407520757673628251927159801984849,61);
  (9703204291214908752785575395242104,60); (4658181224203124575659848460269626,59);
  (9787628667715885675069820313525139,58); (4337807730946790639176219205170960,57);
  (6927098502077627375868232225385995,56); (2834293106816432874847351764665683,55);
  (3535034289721599095120295289332731,54); (1335359316526762032296915151118026,53);
  (1333984397751363143051574684911736,52); (4652417986634461331271217002109694,52);
  (3810035221385501563551001058870240,51); (1226859767156552140977175397465166,50);
  (8415098495608559800971173276264251,50); (2501958469853437020212380923739698,49);
  (1466076491889168363791069860387778,48); (4024875237346556456721729975583387,48);
  (2051994151881273255048511625117277,47); (5201998220728032537433656888604997,47);
  (2346729938765656694090737224409307,46); (5493927331688283906326893003027239,46);
  (2227412928410277231125824914437639,45); (4815910541636337099239050423350193,45);
  (1780136307725164182714582387082464,44); (3554892880377298582723329650654730,44);
  (1213965255177295699183861371225344,43); (2239336216165866093001482966565808,43);
  (7151607905517051007484766477927095,43); (1218732326948156284264827389955438,42);
  (3681138654019968703176642708123662,42); (5796143036363998864138599098753662,42);
  (1673025561460484155828877239452711,41); (2434349166590979506895831242161509,41);
  (6779213019896124530391310313880420,41); (9117298771024986938889426269645025,41);
  (2471195877761734725760382012376194,40); (3072543794531687575265512438757786,40);
  (8171213236075097886767837065052991,40); (9394967994991583697356831304728187,40);
  (2469710670132984973998208824357818,39); (2626670187103831641788231044680613,39);
  (6871695896166678354064124975222276,39); (6762833919028229336744274079630776,39);
  (1771687095148635793947902502035478,38); (1614121775699631906820725278199256,38);
  (4258419812115828184669748501483184,38); (3593258462844086736769841204962904,38);
  (9595844622893388875271365678876623,38); (7503242942046340466173579310927207,38);
  (2037706398845139215438584036001282,37); (1477398811473440498547470563818907,37);
  (4097333088255563110200593639112384,37); (2756386859652524339197855169014287,37);
  (7835682481215351309482928876350178,37); (4894569922076211803129182085270622,37);
  (1430961823504062147794584171773768,36); (8306085149110928912080808431642002,37);
  (2504761480225437206474279792417125,36); (1352075434217255590412816091480689,36);
  (4216579853942150176237775239793466,36); (2118282786778902394749517218909851,36);
  (6847626996314100955228587957052164,36); (3203625533321209678533235162215261,36);
  (1075726365673791459153009900961785,35); (4689333855591282260061103860860919,36);
  (1638747229288919438097679448061394,35); (6658402444543594392363095047391785,36);
  (2426120274160070085876489303849497,35); (9188387808847931539083576535789076,36);
  (3497242346182068456505016327952419,35); (1234203474498692434594078511041557,35);
  (4916580018646048115806753619546643,35); (1615597769347854406500041131998331,35);
  (6750437918164707601005000582819785,35); (2062821041313026095373302373959157,35);
  (9062463686348797030310321230846472,35); (2570562175974613931141071237868327,35);
  (1190798950257557195754164688923648,34); (3127357583063737824337292140212711,35);
  (1532753874443879217512917003206429,34); (3715009452260864928871440129174015,35);
  (1934009715744315547584773217643209,34); (4308741420759854477669223587216395,35);
  (2393700933387806309116012939891845,34); (4878324121448898093505886319000794,35);
  (2907753571156123259661186184920497,34); (5390271908977731574342715043423445,35);
  (3468710557134212298005526321496203,34); (5810998394556952922347674635671761,35);
  (4065906189365654658838171647604691,34); (6110562135506740927752170948507897,35);
  (4686020650234810779445724752484777,34); (6266408800202895147819187114454981,35);
  (5313979349765189220554275247515223,34); (6266408800202895147819187114454981,35);
  (5934093810634345341161828352395309,34); (6110562135506740927752170948507897,35);
  (6531289442865787701994473678503797,34); (5810998394556952922347674635671761,35);
  (7092246428843876740338813815079503,34); (5390271908977731574342715043423445,35);
  (7606299066612193690883987060108153,34); (4878324121448898093505886319000794,35);
  (8065990284255684452415226782356791,34); (4308741420759854477669223587216395,35);
  (8467246125556120782487082996793571,34); (3715009452260864928871440129174015,35);
  (8809201049742442804245835311076351,34); (3127357583063737824337292140212711,35);
  (9093753631365120296968967876915352,34); (2570562175974613931141071237868327,35);
  (9324956208183529239899499941718020,34); (2062821041313026095373302373959158,35);
  (9508341998135395188419324638045336,34); (1615597769347854406500041131998331,35);
  (9650275765381793154349498367204757,34); (1234203474498692434594078511041557,35);
  (9757387972583992991412351069615049,34); (9188387808847931539083576535789073,36);
  (9836125277071108056190232055193861,34); (6658402444543594392363095047391786,36);
  (9892427363432620854084699009903822,34); (4689333855591282260061103860860919,36);
  (9931523730036858990447714120429478,34); (3203625533321209678533235162215258,36);
  (9957834201460578498237622247602066,34); (2118282786778902394749517218909851,36);
  (9974952385197745627935257202075829,34); (1352075434217255590412816091480689,36);
  (9985690381764959378522054158282262,34); (8306085149110928912080808431642002,37);
  (9992164317518784648690517071123650,34); (4894569922076211803129182085270622,37);
  (9995902666911744436889799406360888,34); (2756386859652524339197855169014287,37);
  (9997962293601154860784561415963999,34); (1477398811473440498547470563818907,37);
  (9999040415537710661112472863432111,34); (7503242942046340466173579310927207,38);
  (9999574158018788417181533025149852,34); (3593258462844086736769841204962904,38);
  (9999822831290485136420605209749796,34); (1614121775699631906820725278199258,38);
  (9999931283041038333216459358750249,34); (6762833919028229336744274079630776,39);
  (9999975302893298670150260017911756,34); (2626670187103831641788231044680613,39);
  (9999991828786763924902113232162935,34); (9394967994991583697356831304728187,40);
  (9999997528804122238265274239617987,34); (3072543794531687575265512438757785,40);
  (9999999322078698010387546960868969,34); (9117298771024986938889426269645025,41);
  (9999999832697443853951584417112275,34); (2434349166590979506895831242161510,41);
  (9999999963188613459800312968233572,34); (5796143036363998864138599098753661,42);
  (9999999992848392094482948992515233,34); (1218732326948156284264827389955438,42);
  (9999999998786034744822704300816139,34); (2239336216165866093001482966565815,43);
  (9999999999821986369227483581728542,34); (3554892880377298582723329650654729,44);
  (9999999999977725870715897227688742,34); (4815910541636337099239050423350193,45);
  (9999999999997653270061234343305908,34); (5493927331688283906326893003027239,46);
  (9999999999999794800584811872674496,34); (5201998220728032537433656888604997,47);
  (9999999999999985339235081108316362,34); (4024875237346556456721729975583387,48);
  (9999999999999999158490150439144020,34); (2501958469853437020212380923739698,49);
  (9999999999999999961899647786144985,34); (1226859767156552140977175397465166,50);
  (9999999999999999998666015602248636,34); (4652417986634461331271217002109694,52);
  (9999999999999999999964649657102785,34); (1335359316526762032296915151118026,53);
  (9999999999999999999999307290149792,34); (2834293106816432874847351764665682,55);
  (9999999999999999999999990212371333,34); (4337807730946790639176219205170960,57);
  (9999999999999999999999999902967957,34); (4658181224203124575659848460269626,59);
  (9999999999999999999999999999344729,34); (3407520757673628251927159801984849,61);
  (9999999999999999999999999999997080,34); (1644461518313915688098240241198518,63)].
Definition tanh_sinh_97 : list (Z * Z) := [
  (1585399506486964730993341451217610,64); (8934369512639402922035821374861399,64);
  (3573026476849890600971631670462772,62); (1860038070667879501486180851699024,61);
  (5328074009058692540166716445292720,60); (2562256180474046007609255774937619,59);
  (5425569183919452172644185775794523,58); (2410303238441132468342479865793954,57);
  (3884377577415014345658641956399402,56); (1594154972667301076138145547757926,55);
  (2008602471639498744658855773324336,54); (7615456494100668278113154262876454,54);
  (7690726524575969794249573326192150,53); (2693853865452130756025946934734310,52);
  (2231121100768803506168063733999381,51); (7220186679836341209172993072578093,51);
  (5009368833937081347194484337101874,50); (1497763351009806972069145486189513,49);
  (8877014227337600623317516594928415,49); (2452342329095721266168635147212534,48);
  (1264290255921632436767465406839328,47); (3227284919751785710110930820140014,47);
  (1471621668569018074345783334767751,46); (3471276509990625283107460691361197,46);
  (1421792039289923179687702668194043,45); (3099290527600054807457157806807921,45);
  (1156584498696422444713580553806141,44); (2330089756896003956305528805287325,44);
  (8027122958303339821436136958871999,44); (1494742208362758119995377923742434,43);
  (4811592056244377508608456840689585,43); (8282386129640247163187271767587329,43);
  (2519229574243220969454265425778936,42); (4009149752315240111967273661101008,42);
  (1164206586977843314240759706578332,41); (1713167350911948556673846771223371,41);
  (4794763176789935949995351279860219,41); (6525305667211660880533863480913150,41);
  (1775640650692059995845413390382872,40); (2235346186803264435154790669753300,40);
  (5961818840642590311813549979655398,40); (6944356347003245991719421930078726,40);
  (1828751528649647596861980761354698,39); (1971500046032183872032146781520442,39);
  (5161209873417071351273930351951969,39); (5151436047881923298086371711902019,39);
  (1348991075534762085284968725699740,38); (1247066461330783790909557634552919,38);
  (3285153466792570140886652543225410,38); (2814068591525364215959785007501375,38);
  (7495894966556284462861348619197247,38); (5952830571090384373378148596319386,38);
  (1610877019252231748550768048422666,37); (1186682840674066171818649212103502,37);
  (3276058162630557201142265257554212,37); (2240140825744007864859625757333354,37);
  (6333005419077944406311323117267052,37); (4022434350331031530157200396814512,37);
  (1168432437131026571089570802596637,36); (6898591201943547124218333596235275,37);
  (2065160339939815276762547643100655,36); (1134276037929644869682382166360073,36);
  (3508660123086802609767662977228802,36); (1794066947386521441741126317263521,36);
  (5747933442478467498993480727678069,36); (2738044206449334749723709302743008,36);
  (9104988631853957483812321982624827,36); (4042873819266506217374359407189703,36);
  (1398078629824004448503628927143215,35); (5788948818806317670776243580215802,36);
  (2085609409473499192415478362475196,35); (8054305179923304114636301378818741,36);
  (3028522856283883707636586872442473,35); (1090647689765150041060739029668880,35);
  (4288065545285296964405753624362768,35); (1439240120555125421477942673297577,35);
  (5928669562742127100315830679370645,35); (1852684014890195616300440723877577,35);
  (8014129218612314239141214054832163,35); (2328029348784642869431508038066849,35);
  (1060260734716585465922884171242060,34); (2856799669543026403570336915486129,35);
  (1374068511798547013428607649436250,34); (3424220167653282117012366520736441,35);
  (1745691081968533284079729090148540,34); (4009031374021985029764233490434756,35);
  (2175555965838491131039789036522705,34); (4584133745412477334233162311439027,35);
  (2661152585365783502973829697419834,34); (5118222728101523800287940368765236,35);
  (3196735078095390905479165134820488,34); (5578406796762827241735902528619349,35);
  (3773327295324429053601266679323038,34); (5933573611889250344744485941994968,35);
  (4379083180898684261178590657397839,34); (6158036707041983182286695987069443,35);
  (5000000000000000000000000000000000,34); (6234834472638537200296482499662619,35);
  (5620916819101315738821409342602161,34); (6158036707041983182286695987069443,35);
  (6226672704675570946398733320676962,34); (5933573611889250344744485941994968,35);
  (6803264921904609094520834865179511,34); (5578406796762827241735902528619349,35);
  (7338847414634216497026170302580166,34); (5118222728101523800287940368765236,35);
  (7824444034161508868960210963477296,34); (4584133745412477334233162311439027,35);
  (8254308918031466715920270909851461,34); (4009031374021985029764233490434757,35);
  (8625931488201452986571392350563749,34); (3424220167653282117012366520736441,35);
  (8939739265283414534077115828757941,34); (2856799669543026403570336915486128,35);
  (9198587078138768576085878594516784,34); (2328029348784642869431508038066850,35);
  (9407133043725787289968416932062935,34); (1852684014890195616300440723877577,35);
  (9571193445471470303559424637563722,34); (1439240120555125421477942673297577,35);
  (9697147714371611629236341312755753,34); (1090647689765150041060739029668880,35);
  (9791439059052650080758452163752480,34); (8054305179923304114636301378818741,36);
  (9860192137017599555149637107285678,34); (5788948818806317670776243580215802,36);
  (9908950113681460425161876780173752,34); (4042873819266506217374359407189703,36);
  (9942520665575215325010065192723220,34); (2738044206449334749723709302743009,36);
  (9964913398769131973902323370227712,34); (1794066947386521441741126317263521,36);
  (9979348396600601847232374523568993,34); (1134276037929644869682382166360073,36);
  (9988315675628689734289104291974033,34); (6898591201943547124218333596235275,37);
  (9993666994580922055593688676882734,34); (4022434350331031530157200396814512,37);
  (9996723941837369442798857734742446,34); (2240140825744007864859625757333354,37);
  (9998389122980747768251449231951578,34); (1186682840674066171818649212103502,37);
  (9999250410503344371553713865138080,34); (5952830571090384373378148596319388,38);
  (9999671484653320742985911334745677,34); (2814068591525364215959785007501379,38);
  (9999865100892446523791471503127431,34); (1247066461330783790909557634552919,38);
  (9999948387901265829286487260696481,34); (5151436047881923298086371711902020,39);
  (9999981712484713503524031380192387,34); (1971500046032183872032146781520442,39);
  (9999994038181159357409688186450019,34); (6944356347003245991719421930078726,40);
  (9999998224359349307940004154586608,34); (2235346186803264435154790669753300,40);
  (9999999520523682321006405000464872,34); (6525305667211660880533863480913150,41);
  (9999999883579341302215668575924029,34); (1713167350911948556673846771223371,41);
  (9999999974807704257567790305457345,34); (4009149752315240111967273661101008,42);
  (9999999995188407943755622491391543,34); (8282386129640247163187271767587303,43);
  (9999999999197287704169666017856387,34); (1494742208362758119995377923742429,43);
  (9999999999884341550130357755528643,34); (2330089756896003956305528805287325,44);
  (9999999999985782079607100768203123,34); (3099290527600054807457157806807920,45);
  (9999999999998528378331430981925655,34); (3471276509990625283107460691361197,46);
  (9999999999999873570974407836756323,34); (3227284919751785710110930820140014,47);
  (9999999999999991122985772662399376,34); (2452342329095721266168635147212534,48);
  (9999999999999999499063116606291865,34); (1497763351009806972069145486189513,49);
  (9999999999999999977688788992311965,34); (7220186679836341209172993072578137,51);
  (9999999999999999999230927347542403,34); (2693853865452130756025946934734310,52);
  (9999999999999999999979913975283605,34); (7615456494100668278113154262876409,54);
  (9999999999999999999999611562242258,34); (1594154972667301076138145547757926,55);
  (9999999999999999999999994574430816,34); (2410303238441132468342479865793954,57);
  (9999999999999999999999999946719260,34); (2562256180474046007609255774937619,59);
  (9999999999999999999999999999642698,34); (1860038070667879501486180851699024,61);
  (9999999999999999999999999999998415,34); (8934369512639402922035821374861399,64)].
Definition tanh_sinh_98 : list (Z * Z) := [
  (8618698879520819880927199178372913,65); (4859022256619537879284611104608337,64);
  (1950153981907741540688502838109731,62); (1016282457776255412336310777761596,61);
  (2928145857541282168009190858876864,60); (1410531066415493132985812043879598,59);
  (3009645059299303817608947699789799,58); (1340160367605816509750367113611891,57);
  (2179303328741015298070181982317356,56); (8970549364996320646368619911748523,56);
  (1141661307600633009503803099887181,54); (4344184427195403067013371273409350,54);
  (4434445687188420121031382673521248,53); (1559880503115247368633597152566020,52);
  (1306421034255313320073703786095012,51); (4248440266629478378094765399299457,51);
  (2981146216753287462692088453727946,50); (8962715396433186553903220102643852,50);
  (5372370526030708646750412123916521,49); (1493311916127217923046203506022908,48);
  (7784334892188197875232358204157471,48); (2000578974178532780330251916794894,47);
  (9220460272489393633707796078686156,47); (2191095993609868045511007163934764,46);
  (9066067038353543848946783504548787,46); (1992193805330892187526639617425393,45);
  (7505481152698738218605827648507236,45); (1525208612727139212855716553606973,44);
  (5300612349227548853595117754749162,44); (9962189300125474350180225152892580,44);
  (3232421057920829737802079845313653,43); (5619290097721833746794492492669162,43);
  (1721294673039320861217484942162529,42); (2768140734118018446909643965566666,42);
  (8087489683728833933769104943196387,42); (1203344390364017009686009760361448,41);
  (3385103812756390737934934008013911,41); (4660859573643525699925287144797605,41);
  (1273465157125329155140772603189952,40); (1622878417753853915653602440520098,40);
  (4341387142095403448297380423327774,40); (5121933028920144168549160178052078,40);
  (1351451400599966698687908349571169,39); (1476490392440461560320440007777800,39);
  (3868671068921941218072850298630421,39); (3915204356791181961614933771114278,39);
  (1025050350208953047394214381957396,38); (9613018508808959215482549009889053,39);
  (2529145317596238887894203603248884,38); (2198843198791901522545736239986059,38);
  (5843549238744019477287144523711466,38); (4712090397907947972932715519890938,38);
  (1270874742145498090682894685488533,37); (9510306204511648213699174767143730,38);
  (2614160329897777969917886622287414,37); (1816540062603400004841015555375205,37);
  (5108426303194156113495528128864836,37); (3298470018189663835745653753449950,37);
  (9522251845948282155375656193377245,37); (5717283558876497009450231633611071,37);
  (1699491895579169377504655460290508,36); (9495495450132027594824630416434210,37);
  (2914187423767281473028167152855090,36); (1516308326118404920909215774860992,36);
  (4816086805688945798398538438068795,36); (2335292943642120706552278030597340,36);
  (7692732657538166125886543789912086,36); (3478337548134011098255148628068676,36);
  (1190647050701601561015392672665068,35); (5022521057975945842604462182339750,36);
  (1789730771505880394580842298617360,35); (7045082732844124969471139721411494,36);
  (2617973064487831585460236164328579,35); (9616409098322387048897551148470296,36);
  (3733154062635725843120835442915761,35); (1279110578345611030200859704950636,35);
  (5197290988962346284430076399759621,35); (1659744443091105587906117137455996,35);
  (7073434609642673594554942061378509,35); (2102589337295794325441521254450793,35);
  (9421322663169097734109629300801748,35); (2601798486849831523925047206899737,35);
  (1229201122067067190424972494469441,34); (3145735899226277359894345664379248,35);
  (1572181419229448124640032303506429,34); (3716529151437845347171996738814629,35);
  (1972612169971206007437129905613096,34); (4290312866867301212875140020487896,35);
  (2429389216781206834294865695692303,34); (4838357196977172530547802087141302,35);
  (2938375233412741543847225152848642,34); (5329152926026620336598885076807443,35);
  (3492262016245861690872652304368350,34); (5731333865356076559249357100936458,35);
  (4080753534414802073748890010688026,34); (6017094683420472475742843663842610,35);
  (4691093933415754334379169944613227,34); (6165572135341068105712490992064385,35);
  (5308906066584245665620830055386772,34); (6165572135341068105712490992064385,35);
  (5919246465585197926251109989311974,34); (6017094683420472475742843663842610,35);
  (6507737983754138309127347695631651,34); (5731333865356076559249357100936458,35);
  (7061624766587258456152774847151357,34); (5329152926026620336598885076807446,35);
  (7570610783218793165705134304307697,34); (4838357196977172530547802087141302,35);
  (8027387830028793992562870094386904,34); (4290312866867301212875140020487896,35);
  (8427818580770551875359967696493571,34); (3716529151437845347171996738814629,35);
  (8770798877932932809575027505530558,34); (3145735899226277359894345664379249,35);
  (9057867733683090226589037069919825,34); (2601798486849831523925047206899736,35);
  (9292656539035732640544505793862150,34); (2102589337295794325441521254450793,35);
  (9480270901103765371556992360024038,34); (1659744443091105587906117137455996,35);
  (9626684593736427415687916455708425,34); (1279110578345611030200859704950636,35);
  (9738202693551216841453976383567142,34); (9616409098322387048897551148470296,36);
  (9821026922849411960541915770138263,34); (7045082732844124969471139721411494,36);
  (9880935294929839843898460732733494,34); (5022521057975945842604462182339742,36);
  (9923072673424618338741134562100880,34); (3478337548134011098255148628068676,36);
  (9951839131943110542016014615619311,34); (2335292943642120706552278030597340,36);
  (9970858125762327185269718328471449,34); (1516308326118404920909215774860992,36);
  (9983005081044208306224953445397094,34); (9495495450132027594824630416434210,37);
  (9990477748154051717844624343806624,34); (5717283558876497009450231633611071,37);
  (9994891573696805843886504471871136,34); (3298470018189663835745653753449950,37);
  (9997385839670102222030082113377713,34); (1816540062603400004841015555375205,37);
  (9998729125257854501909317105314512,34); (9510306204511648213699174767143730,38);
  (9999415645076125598052271285547629,34); (4712090397907947972932715519890932,38);
  (9999747085468240376111210579639676,34); (2198843198791901522545736239986056,38);
  (9999897494964979104695260578561804,34); (9613018508808959215482549009889067,39);
  (9999961313289310780587819271497014,34); (3915204356791181961614933771114278,39);
  (9999986485485994000333013120916504,34); (1476490392440461560320440007777800,39);
  (9999995658612857904596551702619576,34); (5121933028920144168549160178052078,40);
  (9999998726534842874670844859227397,34); (1622878417753853915653602440520098,40);
  (9999999661489618724360926206506598,34); (4660859573643525699925287144797605,41);
  (9999999919125103162711660662308950,34); (1203344390364017009686009760361448,41);
  (9999999982787053269606791387825151,34); (2768140734118018446909643965566666,42);
  (9999999996767578942079170262197921,34); (5619290097721833746794492492669162,43);
  (9999999999469938765077245114640489,34); (9962189300125474350180225152892553,44);
  (9999999999924945188473012617813941,34); (1525208612727139212855716553606973,44);
  (9999999999990933932961646456151054,34); (1992193805330892187526639617425393,45);
  (9999999999999077953972751060636630,34); (2191095993609868045511007163934764,46);
  (9999999999999922156651078118021247,34); (2000578974178532780330251916794894,47);
  (9999999999999994627629473969291353,34); (1493311916127217923046203506022908,48);
  (9999999999999999701885378324671253,34); (8962715396433186553903220102643852,50);
  (9999999999999999986935789657446866,34); (4248440266629478378094765399299430,51);
  (9999999999999999999556555431281159,34); (1559880503115247368633597152566020,52);
  (9999999999999999999988583386923993,34); (4344184427195403067013371273409350,54);
  (9999999999999999999999782069667126,34); (8970549364996320646368619911748523,56);
  (9999999999999999999999996990354940,34); (1340160367605816509750367113611891,57);
  (9999999999999999999999999970718541,34); (1410531066415493132985812043879598,59);
  (9999999999999999999999999999804984,34); (1016282457776255412336310777761596,61);
  (9999999999999999999999999999999137,34); (4859022256619537879284611104608336,64)].
Definition tanh_sinh_99 : list (Z * Z) := [
  (4690152967732463340325486108848854,65); (2645287467106103946302563400699900,64);
  (1065403735020606006743759503534955,62); (5557909513145940543531500096460836,62);
  (1610566911463760511629566430775132,60); (7771293197903696852884759748407529,60);
  (1670649054996245398226985237666329,58); (7456308768524975181837206011839838,58);
  (1223318925278587169103992612912184,56); (5050222454971171083513331338620343,56);
  (6491199518383418013956110393855118,55); (2478776175402827222687923536177730,54);
  (2557231105780270457405537745482724,53); (9033058845463604078905270207695215,53);
  (7649167229871207416636506592641881,52); (2499449328355715706551369861204143,51);
  (1773645357408718062679755359787713,50); (5361388296678862788969274294431688,50);
  (3249840603096795886707683050334107,49); (9088042072515917047020292267150559,49);
  (4789717917201168064786876664659165,48); (1239185845720031164466939641900556,47);
  (5772224463114654516807624353496860,47); (1381693910933926979752137366902021,46);
  (5775120548989122079593433051780959,46); (1279085915486605317571777295980400,45);
  (4864848271663576240556502488300782,45); (9970354180188188627827603549186329,45);
  (3495567691965787727256899536844615,44); (6629788770971955576602360398956158,44);
  (2168375529417524451382798709251706,43); (3806287667911566760246781595144881,43);
  (1174243525136432896058795422146176,42); (1907929431100610273387675899837502,42);
  (5608763835770814194939468869507095,42); (8436627392038483519060259568171507,42);
  (2385651797309538441419908589943587,41); (3322591948440696954750673071089932,41);
  (9116245438619900826557959505338119,41); (1175808514901183215959112493262099,40);
  (3155353817921598597667878930122570,40); (3769774134087368162186943931929306,40);
  (9967697211229422113784315366202580,40); (1103368502530653754304754542621951,39);
  (2894046353051768654937334646884634,39); (2969064614731164389973277883858205,39);
  (7773293758240787348393725410070065,39); (7393639293800718726498516391441551,39);
  (1943172847810421439534951212209200,38); (1714262701566916664795216286904788,38);
  (4546218407032701368797016537776932,38); (3721586761566863120846550318742391,38);
  (1000619541162660236701360393042602,37); (7604748321628186684289721950089510,38);
  (2081844587920171751841687185949889,37); (1469791087278056403515640007183041,37);
  (4112566002733057703453665045650866,37); (2698925508025842362355901911800503,37);
  (7745326750133007598371421981410063,37); (4728132315988451771799488043359142,37);
  (1395935942166922223269708399798625,36); (7932372825856145664091562069771263,37);
  (2415973028947464198805587951171073,36); (1278902063583557203582459494938440,36);
  (4028020187050830337782163048179737,36); (1987711633349277401246021081185699,36);
  (6487995402186864408003031316373185,36); (2986537760674698866020537851573290,36);
  (1012215981326604339205629083102903,35); (4348636225133552646116959102651493,36);
  (1533154565594093557645189014214308,35); (6149448963548585910114742605385678,36);
  (2259130432838630873152163032382850,35); (8460621019090020859847998300662825,36);
  (3244314890805394387949567606232892,35); (1134217752060809680791010058801144,35);
  (4547910702464253214895457206924122,35); (1483301753393743429488612647037320,35);
  (6231511428659093613559627882823338,35); (1894021888395335608731738729251425,35);
  (8355369565243956182232774947272013,35); (2362811344101441185095517149376544,35);
  (1097362111517552026611402738896231,34); (2880863701168424809118272939269078,35);
  (1412869091833082720913725379877807,34); (3433496278328676213064465320877012,35);
  (1784532055178972130522306079385879,34); (4000070210007301517542062863849666,35);
  (2212488456996998757155147717695080,34); (4554677304390802923212825405708765,35);
  (2694083523723991958442047593905440,34); (5067720630288804390223417688080557,35);
  (3223617216562188381039572353423696,34); (5508363783688594724744266026263258,35);
  (3792371056533218247119841664907464,34); (5847623727145874070742918974810995,35);
  (4388959425951612075848573076705859,34); (6061682529630793990388194272797107,35);
  (5000000000000000000000000000000000,34); (6134860099514384520437793962021419,35);
  (5611040574048387924151426923294140,34); (6061682529630793990388194272797107,35);
  (6207628943466781752880158335092535,34); (5847623727145874070742918974810995,35);
  (6776382783437811618960427646576304,34); (5508363783688594724744266026263258,35);
  (7305916476276008041557952406094559,34); (5067720630288804390223417688080557,35);
  (7787511543003001242844852282304921,34); (4554677304390802923212825405708765,35);
  (8215467944821027869477693920614121,34); (4000070210007301517542062863849666,35);
  (8587130908166917279086274620122194,34); (3433496278328676213064465320877012,35);
  (8902637888482447973388597261103769,34); (2880863701168424809118272939269078,35);
  (9164463043475604381776722505272800,34); (2362811344101441185095517149376544,35);
  (9376848857134090638644037211717667,34); (1894021888395335608731738729251425,35);
  (9545208929753574678510454279307588,34); (1483301753393743429488612647037320,35);
  (9675568510919460561205043239376711,34); (1134217752060809680791010058801144,35);
  (9774086956716136912684783696761714,34); (8460621019090020859847998300662825,36);
  (9846684543440590644235481098578570,34); (6149448963548585910114742605385678,36);
  (9898778401867339566079437091689710,34); (4348636225133552646116959102651491,36);
  (9935120045978131355919969686836268,34); (2986537760674698866020537851573288,36);
  (9959719798129491696622178369518202,34); (1987711633349277401246021081185698,36);
  (9975840269710525358011944120488289,34); (1278902063583557203582459494938440,36);
  (9986040640578330777767302916002014,34); (7932372825856145664091562069771263,37);
  (9992254673249866992401628578018590,34); (4728132315988451771799488043359142,37);
  (9995887433997266942296546334954349,34); (2698925508025842362355901911800503,37);
  (9997918155412079828248158312814051,34); (1469791087278056403515640007183041,37);
  (9998999380458837339763298639606957,34); (7604748321628186684289721950089510,38);
  (9999545378159296729863120298346221,34); (3721586761566863120846550318742387,38);
  (9999805682715218957856046504878779,34); (1714262701566916664795216286904788,38);
  (9999922267062417592126516062745899,34); (7393639293800718726498516391441551,39);
  (9999971059536469482313450626653532,34); (2969064614731164389973277883858205,39);
  (9999990032302788770577886215684635,34); (1103368502530653754304754542621951,39);
  (9999996844646182078401402332121070,34); (3769774134087368162186943931929306,40);
  (9999999088375456138009917344204050,34); (1175808514901183215959112493262099,40);
  (9999999761434820269046155858009142,34); (3322591948440696954750673071089932,41);
  (9999999943912361642291858050605311,34); (8436627392038483519060259568171510,42);
  (9999999988257564748635671039412046,34); (1907929431100610273387675899837507,42);
  (9999999997831624470582475548617200,34); (3806287667911566760246781595144881,43);
  (9999999999650443230803421227274310,34); (6629788770971955576602360398956158,44);
  (9999999999951351517283364237594434,34); (9970354180188188627827603549186329,45);
  (9999999999994224879451010877920407,34); (1279085915486605317571777295980400,45);
  (9999999999999422777553688534548319,34); (1381693910933926979752137366902021,46);
  (9999999999999952102820827988319353,34); (1239185845720031164466939641900556,47);
  (9999999999999996750159396903204113,34); (9088042072515917047020292267150559,49);
  (9999999999999999822635464259128194,34); (5361388296678862788969274294431720,50);
  (9999999999999999992350832770128793,34); (2499449328355715706551369861204143,51);
  (9999999999999999999744276889421974,34); (9033058845463604078905270207695214,53);
  (9999999999999999999993508800481616,34); (2478776175402827222687923536177716,54);
  (9999999999999999999999877668107472,34); (5050222454971171083513331338620343,56);
  (9999999999999999999999998329350945,34); (7456308768524975181837206011839838,58);
  (9999999999999999999999999983894330,34); (7771293197903696852884759748407529,60);
  (9999999999999999999999999999893459,34); (5557909513145940543531500096460836,62);
  (9999999999999999999999999999999530,34); (2645287467106103946302563400699900,64)].
Definition tanh_sinh_100 : list (Z * Z) := [
  (2554870454795725389848934200809316,65); (1441551711614813343455376354389503,64);
  (5825956205167061508331976801382802,63); (3042343407811421461634234882882312,62);
  (8865938939484447014745707988267017,61); (4285002797113453295525924786358649,60);
  (9280107019624830779050138411693911,59); (4151177884330927911991503504229265,58);
  (6870479215136836824679604644017268,57); (2844494608230166641966068186683475,56);
  (3691971816346304227282122240730119,55); (1414767981254460215468541577934846,54);
  (1474899555292143705227775562307914,53); (5231287604233807161432762909913404,53);
  (4478380830309092568081466552128522,52); (1470275743585095638117308076411576,51);
  (1054969917838582690593088984428975,50); (3206002321224632557429484384110715,50);
  (1965003178312643156250560093133993,49); (5527767513544351420143298169195535,49);
  (2945245005143278522645524612025199,48); (7669909963880101314024096708644041,48);
  (3610592779880979893340429413811733,47); (8704673960883498101935196501592321,47);
  (3675140263923660892648240301404004,46); (8203132475733833150427754349184976,46);
  (3149646843271385446810898269185667,45); (6509244109007459789014037530200078,45);
  (2302224649568655564656479676337775,44); (4405706359490665001877873194313850,44);
  (1452518375782461998376729452610148,43); (2574132646034999985222205307007720,43);
  (7998156320241970915883289208346947,43); (1312773867964669209100971336392705,42);
  (3883323502101995951589192459973836,42); (5904074608851398063503362445804205,42);
  (1678361208747487518535921852260116,41); (2364007885069775898605349420827587,41);
  (6514102998136925001769826767085988,41); (8501809534311507407531996387371677,41);
  (2289020117845253964349801525887504,40); (2768792965892684986729390566598893,40);
  (7337522083639042232490421005367779,40); (8227731433755602580021176379684886,40);
  (2160693853083673768520996646320116,39); (2246655529333834200558134505221091,39);
  (5882994787197707585570834595194118,39); (5674093777873803339180248593477926,39);
  (1489969260484858976075806555797196,38); (1333503931425388154929583462797841,38);
  (3529814159828047312051086739521409,38); (2932757371775880693329812935649179,38);
  (7862624417494569044430418039837595,38); (6067551121854799084896340188986734,38);
  (1654646468419387311156928580477404,37); (1186625825683787557359801163633499,37);
  (3304391373473530240056739610572737,37); (2203584484950753481979475524130902,37);
  (6287926248352303810206414694797364,37); (3901802007561940790771423908817537,37);
  (1144447981261778620114893781051050,36); (6612724400394931809497028278486714,37);
  (1999254665162860432928833159101289,36); (1076450231012502426615937039363027,36);
  (3362847129541181748343722134702794,36); (1688434536566368897162957540807871,36);
  (5462273392909960915389203061493630,36); (2559113712537952796398535786670000,36);
  (8590292550487781894235429455905947,36); (3757579649643805796921160451865208,36);
  (1311099958918412215535868953436233,35); (5356711000323583400792881796392427,36);
  (1946122715728366923720989833229484,35); (7428118259055205309017961393380955,36);
  (2814602604083327003763804254566067,35); (1003534969996831559094132303400314,35);
  (3972649702600951492826586872127193,35); (1322541646935424725935056565683342,35);
  (5479842846800986890779042056536837,35); (1701896177791620404159515751946033,35);
  (7396070326245683603009490117515638,35); (2139978788572945133350826151796176,35);
  (9777339040739045044760645678019607,35); (2630494178360216289290797833929160,35);
  (1267068929586523460902517039198685,34); (3161706424035835912635266150266049,35);
  (1610854332975774443647366724124861,34); (3716107794673793353336649214945397,35);
  (2010302877716991311743485745409985,34); (4270732779987525799695823706091308,35);
  (2464100987150777170895976880040344,34); (4798278961655478416050949918190594,35);
  (2968066915006290881315474250782438,34); (5269082238130281120863788473043735,35);
  (3515044840995139577439516451543125,34); (5653823459469803867114477870006399,35);
  (4095093791888063726749510915026758,34); (5926650232686532403901406188739061,35);
  (4695990087949182178021992431652301,34); (6068236770612295781494756164319224,35);
  (5304009912050817821978007568347699,34); (6068236770612295781494756164319224,35);
  (5904906208111936273250489084973242,34); (5926650232686532403901406188739061,35);
  (6484955159004860422560483548456876,34); (5653823459469803867114477870006399,35);
  (7031933084993709118684525749217562,34); (5269082238130281120863788473043735,35);
  (7535899012849222829104023119959656,34); (4798278961655478416050949918190594,35);
  (7989697122283008688256514254590016,34); (4270732779987525799695823706091309,35);
  (8389145667024225556352633275875139,34); (3716107794673793353336649214945397,35);
  (8732931070413476539097482960801314,34); (3161706424035835912635266150266051,35);
  (9022266095926095495523935432198039,34); (2630494178360216289290797833929160,35);
  (9260392967375431639699050988248437,34); (2139978788572945133350826151796176,35);
  (9452015715319901310922095794346316,34); (1701896177791620404159515751946033,35);
  (9602735029739904850717341312787281,34); (1322541646935424725935056565683342,35);
  (9718539739591667299623619574543392,34); (1003534969996831559094132303400314,35);
  (9805387728427163307627901016677052,34); (7428118259055205309017961393380955,36);
  (9868890004108158778446413104656376,34); (5356711000323583400792881796392427,36);
  (9914097074495122181057645705440939,34); (3757579649643805796921160451865208,36);
  (9945377266070900390846107969385064,34); (2559113712537952796398535786670000,36);
  (9966371528704588182516562778652972,34); (1688434536566368897162957540807871,36);
  (9980007453348371395670711668408988,34); (1076450231012502426615937039363027,36);
  (9988555520187382213798851062189489,34); (6612724400394931809497028278486714,37);
  (9993712073751647696189793585305203,34); (3901802007561940790771423908817537,37);
  (9996695608626526469759943260389427,34); (2203584484950753481979475524130901,37);
  (9998345353531580612688843071419524,34); (1186625825683787557359801163633499,37);
  (9999213737558250543095556958196015,34); (6067551121854799084896340188986741,38);
  (9999647018584017195268794891326049,34); (2932757371775880693329812935649179,38);
  (9999851003073951514102392419344419,34); (1333503931425388154929583462797839,38);
  (9999941170052128022924144291654048,34); (5674093777873803339180248593477936,39);
  (9999978393061469163262314790033537,34); (2246655529333834200558134505221091,39);
  (9999992662477916360957767509578994,34); (8227731433755602580021176379684886,40);
  (9999997710979882154746035650198474,34); (2768792965892684986729390566598893,40);
  (9999999348589700186307499823017322,34); (8501809534311507407531996387371675,41);
  (9999999832163879125251248146407815,34); (2364007885069775898605349420827587,41);
  (9999999961166764978980040484108075,34); (5904074608851398063503362445804205,42);
  (9999999992001843679758029084116710,34); (1312773867964669209100971336392705,42);
  (9999999998547481624217538001623272,34); (2574132646034999985222205307007720,43);
  (9999999999769777535043134443534352,34); (4405706359490665001877873194313851,44);
  (9999999999968503531567286145531891,34); (6509244109007459789014037530200078,45);
  (9999999999996324859736076339107351,34); (8203132475733833150427754349184976,46);
  (9999999999999638940722011902010665,34); (8704673960883498101935196501592321,47);
  (9999999999999970547549948567214774,34); (7669909963880101314024096708644041,48);
  (9999999999999998034996821687356843,34); (5527767513544351420143298169195535,49);
  (9999999999999999894503008216141730,34); (3206002321224632557429484384110715,50);
  (9999999999999999995521619169690908,34); (1470275743585095638117308076411576,51);
  (9999999999999999999852510044470786,34); (5231287604233807161432762909913374,53);
  (9999999999999999999996308028183654,34); (1414767981254460215468541577934846,54);
  (9999999999999999999999931295207849,34); (2844494608230166641966068186683475,56);
  (9999999999999999999999999071989299,34); (4151177884330927911991503504229265,58);
  (9999999999999999999999999991134060,34); (4285002797113453295525924786358648,60);
  (9999999999999999999999999999941741,34); (3042343407811421461634234882882312,62);
  (9999999999999999999999999999999744,34); (1441551711614813343455376354389503,64)].
Definition tanh_sinh_literals : list (Z * Z) := concat [
  tanh_sinh_1; tanh_sinh_2; tanh_sinh_3; tanh_sinh_4; tanh_sinh_5; tanh_sinh_6; tanh_sinh_7; tanh_sinh_8; tanh_sinh_9; tanh_sinh_10; tanh_sinh_11; tanh_sinh_12; tanh_sinh_13; tanh_sinh_14; tanh_sinh_15; tanh_sinh_16; tanh_sinh_17; tanh_sinh_18; tanh_sinh_19; tanh_sinh_20; tanh_sinh_21; tanh_sinh_22; tanh_sinh_23; tanh_sinh_24; tanh_sinh_25; tanh_sinh_26; tanh_sinh_27; tanh_sinh_28; tanh_sinh_29; tanh_sinh_30; tanh_sinh_31; tanh_sinh_32; tanh_sinh_33; tanh_sinh_34; tanh_sinh_35; tanh_sinh_36; tanh_sinh_37; tanh_sinh_38; tanh_sinh_39; tanh_sinh_40; tanh_sinh_41; tanh_sinh_42; tanh_sinh_43; tanh_sinh_44; tanh_sinh_45; tanh_sinh_46; tanh_sinh_47; tanh_sinh_48; tanh_sinh_49; tanh_sinh_50; tanh_sinh_51; tanh_sinh_52; tanh_sinh_53; tanh_sinh_54; tanh_sinh_55; tanh_sinh_56; tanh_sinh_57; tanh_sinh_58; tanh_sinh_59; tanh_sinh_60; tanh_sinh_61; tanh_sinh_62; tanh_sinh_63; tanh_sinh_64; tanh_sinh_65; tanh_sinh_66; tanh_sinh_67; tanh_sinh_68; tanh_sinh_69; tanh_sinh_70; tanh_sinh_71; tanh_sinh_72; tanh_sinh_73; tanh_sinh_74; tanh_sinh_75; tanh_sinh_76; tanh_sinh_77; tanh_sinh_78; tanh_sinh_79; tanh_sinh_80; tanh_sinh_81; tanh_sinh_82; tanh_sinh_83; tanh_sinh_84; tanh_sinh_85; tanh_sinh_86; tanh_sinh_87; tanh_sinh_88; tanh_sinh_89; tanh_sinh_90; tanh_sinh_91; tanh_sinh_92; tanh_sinh_93; tanh_sinh_94; tanh_sinh_95; tanh_sinh_96; tanh_sinh_97; tanh_sinh_98; tanh_sinh_99; tanh_sinh_100].
