(** The gauss table of cpp/qugar/quadrature_lib.cpp, lines 34-5087, generated by tools/gentables.py: the literal d.ddd e-x with f digits after the
    point is written (dddd, f + x), i.e. dddd / 10^(f+x).  One definition for each number of points. *)
From Coq Require Import ZArith List.
Import ListNotations.
Local Open Scope Z_scope.
Definition gauss_1 : list (Z * Z) := [
  (5000000000000000000000000000000000,34); (1000000000000000000000000000000000,33)].
Definition gauss_2 : list (Z * Z) := [
  (2113248654051871177454256097490213,34); (5000000000000000000000000000000000,34);
  (7886751345948128822545743902509787,34); (5000000000000000000000000000000000,34)].
Definition gauss_3 : list (Z * Z) := [
  (1127016653792583114820734600217600,34); (2777777777777777777777777777777777,34);
  (5000000000000000000000000000000000,34); (4444444444444444444444444444444444,34);
  (8872983346207416885179265399782399,34); (2777777777777777777777777777777777,34)].
Definition gauss_4 : list (Z * Z) := [
  (6943184420297371238802675555359522,35); (1739274225687269286865319746109997,34);
  (3300094782075718675986671204483777,34); (3260725774312730713134680253890002,34);
  (6699905217924281324013328795516224,34); (3260725774312730713134680253890002,34);
  (9305681557970262876119732444464048,34); (1739274225687269286865319746109997,34)].
Definition gauss_5 : list (Z * Z) := [
  (4691007703066800360118656085030349,35); (1184634425280945437571320203599587,34);
  (2307653449471584544818427896498956,34); (2393143352496832340206457574178191,34);
  (5000000000000000000000000000000000,34); (2844444444444444444444444444444444,34);
  (7692346550528415455181572103501044,34); (2393143352496832340206457574178191,34);
  (9530899229693319963988134391496965,34); (1184634425280945437571320203599587,34)].
Definition gauss_6 : list (Z * Z) := [
  (3376524289842398609384922275300270,35); (8566224618958517252014807108636648,35);
  (1693953067668677431693002024900473,34); (1803807865240693037849167569188580,34);
  (3806904069584015456847491391596440,34); (2339569672863455236949351719947755,34);
  (6193095930415984543152508608403560,34); (2339569672863455236949351719947755,34);
  (8306046932331322568306997975099527,34); (1803807865240693037849167569188580,34);
  (9662347571015760139061507772469973,34); (8566224618958517252014807108636648,35)].
Definition gauss_7 : list (Z * Z) := [
  (2544604382862073773690515797607439,35); (6474248308443484663530571633954101,35);
  (1292344072003027800680676133596058,34); (1398526957446383339507338857118898,34);
  (2970774243113014165466967939615193,34); (1909150252525594724751848877444876,34);
  (5000000000000000000000000000000000,34); (2089795918367346938775510204081633,34);
  (7029225756886985834533032060384807,34); (1909150252525594724751848877444876,34);
  (8707655927996972199319323866403942,34); (1398526957446383339507338857118898,34);
  (9745539561713792622630948420239256,34); (6474248308443484663530571633954101,35)].
Definition gauss_8 : list (Z * Z) := [
  (1985507175123188415821956571526347,35); (5061426814518812957626567715498105,35);
  (1016667612931866302042230317620848,34); (1111905172266872352721779972131206,34);
  (2372337950418355070911304754053768,34); (1568533229389436436689811009933005,34);
  (4082826787521750975302619288199080,34); (1813418916891809914825752246385979,34);
  (5917173212478249024697380711800920,34); (1813418916891809914825752246385979,34);
  (7627662049581644929088695245946232,34); (1568533229389436436689811009933005,34);
  (8983332387068133697957769682379152,34); (1111905172266872352721779972131206,34);
  (9801449282487681158417804342847365,34); (5061426814518812957626567715498105,35)].
Definition gauss_9 : list (Z * Z) := [
  (1591988024618695508221189854816360,35); (4063719418078720598594607905526207,35);
  (8198444633668210285028510596513257,35); (9032408034742870202923601562145631,35);
  (1933142836497048013456489803292629,34); (1303053482014677311593714347093164,34);
  (3378732882980955354807309926783317,34); (1561735385200014200343152032922217,34);
  (5000000000000000000000000000000000,34); (1651196775006298815822625346434870,34);
  (6621267117019044645192690073216683,34); (1561735385200014200343152032922217,34);
  (8066857163502951986543510196707371,34); (1303053482014677311593714347093164,34);
  (9180155536633178971497148940348674,34); (9032408034742870202923601562145631,35);
  (9840801197538130449177881014518364,34); (4063719418078720598594607905526207,35)].
Definition gauss_10 : list (Z * Z) := [
  (1304673574141413996101799395777400,35); (3333567215434406879678440494666589,35);
  (6746831665550774463395165578825347,35); (7472567457529029657288816982884867,35);
  (1602952158504877968828363174425632,34); (1095431812579910219977674671140816,34);
  (2833023029353764046003670284171079,34); (1346333596549981775456134607847347,34);
  (4255628305091843945575869994351400,34); (1477621123573764350869464973256692,34);
  (5744371694908156054424130005648600,34); (1477621123573764350869464973256692,34);
  (7166976970646235953996329715828921,34); (1346333596549981775456134607847347,34);
  (8397047841495122031171636825574368,34); (1095431812579910219977674671140816,34);
  (9325316833444922553660483442117465,34); (7472567457529029657288816982884867,35);
  (9869532642585858600389820060422260,34); (3333567215434406879678440494666589,35)].
Definition gauss_11 : list (Z * Z) := [
  (1088567092697150359803099943857131,35); (2783428355808683324137686022127432,35);
  (5646870011595235046242111534803635,35); (6279018473245231231734714961197001,35);
  (1349239972129753379532918739844233,34); (9314510546386712571304882071582798,35);
  (2404519353965940920371371652706952,34); (1165968822959952399592618524215877,34);
  (3652284220238275138342340072995692,34); (1314022722551233310903444349452546,34);
  (5000000000000000000000000000000000,34); (1364625433889503153572417641681711,34);
  (6347715779761724861657659927004308,34); (1314022722551233310903444349452546,34);
  (7595480646034059079628628347293048,34); (1165968822959952399592618524215877,34);
  (8650760027870246620467081260155768,34); (9314510546386712571304882071582798,35);
  (9435312998840476495375788846519637,34); (6279018473245231231734714961197001,35);
  (9891143290730284964019690005614287,34); (2783428355808683324137686022127432,35)].
Definition gauss_12 : list (Z * Z) := [
  (9219682876640374654725454925359599,36); (2358766819325591359730798074250865,35);
  (4794137181476257166076706694045191,35); (5346966299765921548012735909699813,35);
  (1150486629028476564815530833935910,34); (8003916427167311316732626477167961,35);
  (2063410228566912763516487905297329,34); (1015837133615329608745322279048992,34);
  (3160842505009099031236542316781412,34); (1167462682691774043804249494624390,34);
  (4373832957442655422637793152680734,34); (1245735229067013925002812180214755,34);
  (5626167042557344577362206847319266,34); (1245735229067013925002812180214755,34);
  (6839157494990900968763457683218588,34); (1167462682691774043804249494624390,34);
  (7936589771433087236483512094702671,34); (1015837133615329608745322279048992,34);
  (8849513370971523435184469166064091,34); (8003916427167311316732626477167961,35);
  (9520586281852374283392329330595481,34); (5346966299765921548012735909699813,35);
  (9907803171233596253452745450746404,34); (2358766819325591359730798074250865,35)].
Definition gauss_13 : list (Z * Z) := [
  (7908472640705925263585275596445175,36); (2024200238265793976001079610049299,35);
  (4120080038851101739672608174964026,35); (4606074991886422395721088797689850,35);
  (9921095463334504360289675520857005,35); (6943675510989361923180088843443580,35);
  (1788253302798298896780076965022422,34); (8907299038097286914002334599804907,35);
  (2757536244817765735610435739361800,34); (1039080237684442511562616096530265,34);
  (3847708420224326029672359394510056,34); (1131415901314486192060450930198883,34);
  (5000000000000000000000000000000000,34); (1162757766154369550972947576344180,34);
  (6152291579775673970327640605489944,34); (1131415901314486192060450930198883,34);
  (7242463755182234264389564260638200,34); (1039080237684442511562616096530265,34);
  (8211746697201701103219923034977579,34); (8907299038097286914002334599804907,35);
  (9007890453666549563971032447914300,34); (6943675510989361923180088843443580,35);
  (9587991996114889826032739182503597,34); (4606074991886422395721088797689850,35);
  (9920915273592940747364147244035548,34); (2024200238265793976001079610049299,35)].
Definition gauss_14 : list (Z * Z) := [
  (6858095651593830579201366647973595,36); (1755973016587593151591643806909583,35);
  (3578255816821324133180443031106289,35); (4007904357988010490281663853142714,35);
  (8639934246511750340510262867480250,35); (6075928534395159234470740453623819,35);
  (1563535475941572649259900984903329,34); (7860158357909676728480096931192111,35);
  (2423756818209229540173546407244057,34); (9276919873896890687085829506257855,35);
  (3404438155360551197821640879157622,34); (1025992318606478019829620328306090,34);
  (4459725256463281689668776748900826,34); (1076319267315788950979382216581300,34);
  (5540274743536718310331223251099174,34); (1076319267315788950979382216581300,34);
  (6595561844639448802178359120842378,34); (1025992318606478019829620328306090,34);
  (7576243181790770459826453592755943,34); (9276919873896890687085829506257855,35);
  (8436464524058427350740099015096671,34); (7860158357909676728480096931192111,35);
  (9136006575348824965948973713251975,34); (6075928534395159234470740453623819,35);
  (9642174418317867586681955696889371,34); (4007904357988010490281663853142714,35);
  (9931419043484061694207986333520265,34); (1755973016587593151591643806909583,35)].
Definition gauss_15 : list (Z * Z) := [
  (6003740989757285755217140706693693,36); (1537662099805863417731419678860221,35);
  (3136330379964704784612052614489529,35); (3518302374405406235463370822533367,35);
  (7589670829478639189967583961289158,35); (5357961023358596750593477334293465,35);
  (1377911343199149762919069726930310,34); (6978533896307715722390239725551416,35);
  (2145139136957305762313866313730447,34); (8313460290849696677660043024060441,35);
  (3029243264612183150513963145094773,34); (9308050000778110551340028093321141,35);
  (3994029530012827388496858483027019,34); (9921574266355578822805916322191966,35);
  (5000000000000000000000000000000000,34); (1012891209627806364403100999837597,34);
  (6005970469987172611503141516972981,34); (9921574266355578822805916322191966,35);
  (6970756735387816849486036854905227,34); (9308050000778110551340028093321141,35);
  (7854860863042694237686133686269554,34); (8313460290849696677660043024060441,35);
  (8622088656800850237080930273069690,34); (6978533896307715722390239725551416,35);
  (9241032917052136081003241603871084,34); (5357961023358596750593477334293465,35);
  (9686366962003529521538794738551048,34); (3518302374405406235463370822533367,35);
  (9939962590102427142447828592933063,34); (1537662099805863417731419678860221,35)].
Definition gauss_16 : list (Z * Z) := [
  (5299532504175033701922913274833712,36); (1357622970587704742589028622800914,35);
  (2771248846338371196100579223269580,35); (3112676196932394643142191849718886,35);
  (6718439880608412805976605114380340,35); (4757925584124639240496255380112309,35);
  (1222977958224984830524494025762789,34); (6231448562776693602623814109600818,35);
  (1910618777986781257766641179756045,34); (7479799440828836604075086527373932,35);
  (2709916111713863068287902785082112,34); (8457825969750126909465603951517992,35);
  (3591982246103705433847697492697520,34); (9130170752246179443338183398461001,35);
  (4524937450811812799073403322875210,34); (9472530522753424814269836160414154,35);
  (5475062549188187200926596677124790,34); (9472530522753424814269836160414154,35);
  (6408017753896294566152302507302480,34); (9130170752246179443338183398461001,35);
  (7290083888286136931712097214917888,34); (8457825969750126909465603951517992,35);
  (8089381222013218742233358820243955,34); (7479799440828836604075086527373932,35);
  (8777022041775015169475505974237211,34); (6231448562776693602623814109600818,35);
  (9328156011939158719402339488561966,34); (4757925584124639240496255380112309,35);
  (9722875115366162880389942077673042,34); (3112676196932394643142191849718886,35);
  (9947004674958249662980770867251663,34); (1357622970587704742589028622800914,35)].
Definition gauss_17 : list (Z * Z) := [
  (4712262342791332162282990029667365,36); (1207415143427396598005501314378272,35);
  (2466223911561611938864152105209851,35); (2772976468699360056472008267912229,35);
  (5988042313650704893852215275592216,35); (4251807415858959044176768509553096,35);
  (1092429980515992965373849722397620,34); (5594192359670198554739419281317791,35);
  (1711644203916546170748488916784988,34); (6756818423426273664315999085117522,35);
  (2436547314567615160568767156852241,34); (7702288053840514404071579740097934,35);
  (3243841182730618423514072414523270,34); (8400205107822502225498533189416154,35);
  (4107579092520760720746612531729672,34); (8828135268349632316263549505659864,35);
  (5000000000000000000000000000000000,34); (8972323517810326272913282213094281,35);
  (5892420907479239279253387468270328,34); (8828135268349632316263549505659864,35);
  (6756158817269381576485927585476730,34); (8400205107822502225498533189416154,35);
  (7563452685432384839431232843147759,34); (7702288053840514404071579740097934,35);
  (8288355796083453829251511083215011,34); (6756818423426273664315999085117522,35);
  (8907570019484007034626150277602380,34); (5594192359670198554739419281317791,35);
  (9401195768634929510614778472440778,34); (4251807415858959044176768509553096,35);
  (9753377608843838806113584789479015,34); (2772976468699360056472008267912229,35);
  (9952877376572086678377170099703326,34); (1207415143427396598005501314378272,35)].
Definition gauss_18 : list (Z * Z) := [
  (4217415789534526634991997646924595,36); (1080800676324165515667135513322621,35);
  (2208802521430112240940205353511183,35); (2485727444748489822666747310131923,35);
  (5369876675122213039696970443642723,35); (3821286512744452826456483880831825,35);
  (9814752051373844215879127249270460,35); (5047102205314358278140699246241735,35);
  (1541564784698233960625544593555758,34); (6127760335573923009225956340010079,35);
  (2201145844630262326960642257373354,34); (7032145733532532560236565187597362,35);
  (2941244192685786769820341030834742,34); (7734233756313262246270900191818734,35);
  (3740568871542472452055135725610444,34); (8213824187291636149302688823296379,35);
  (4576124934791323493788690735321081,34); (8457119148157179592032823506749335,35);
  (5423875065208676506211309264678919,34); (8457119148157179592032823506749335,35);
  (6259431128457527547944864274389556,34); (8213824187291636149302688823296379,35);
  (7058755807314213230179658969165258,34); (7734233756313262246270900191818734,35);
  (7798854155369737673039357742626645,34); (7032145733532532560236565187597362,35);
  (8458435215301766039374455406444242,34); (6127760335573923009225956340010079,35);
  (9018524794862615578412087275072954,34); (5047102205314358278140699246241735,35);
  (9463012332487778696030302955635728,34); (3821286512744452826456483880831825,35);
  (9779119747856988775905979464648881,34); (2485727444748489822666747310131923,35);
  (9957825842104654733650080023530754,34); (1080800676324165515667135513322621,35)].
Definition gauss_19 : list (Z * Z) := [
  (3796578078207798405491164873369756,36); (9730894114863238518156020732219274,36);
  (1989592393258498457361057965617423,35); (2240711338284980016641907870099715,35);
  (4842204819259104917866953573384376,35); (3452227136882061329035412900300650,35);
  (8864267173142858751053875664364302,35); (4574501081122499973223104706191986,35);
  (1395169113323853106914520695881092,34); (5578332277366699735801195084088294,35);
  (1997273476691594882651809175268803,34); (6437698126966811383775789242843857,35);
  (2677146293120195271413664259479488,34); (7130335108680330588787305472095150,35);
  (3417179500181850840049413355750775,34); (7638302103292983338942770044883151,35);
  (4198206771798873120659519421296282,34); (7948442169697717382497821973252353,35);
  (5000000000000000000000000000000000,34); (8052722492439184798958181266045837,35);
  (5801793228201126879340480578703718,34); (7948442169697717382497821973252353,35);
  (6582820499818149159950586644249225,34); (7638302103292983338942770044883151,35);
  (7322853706879804728586335740520512,34); (7130335108680330588787305472095150,35);
  (8002726523308405117348190824731197,34); (6437698126966811383775789242843857,35);
  (8604830886676146893085479304118908,34); (5578332277366699735801195084088294,35);
  (9113573282685714124894612433563570,34); (4574501081122499973223104706191986,35);
  (9515779518074089508213304642661562,34); (3452227136882061329035412900300650,35);
  (9801040760674150154263894203438258,34); (2240711338284980016641907870099715,35);
  (9962034219217922015945088351266302,34); (9730894114863238518156020732219274,36)].
Definition gauss_20 : list (Z * Z) := [
  (3435700407452537606938805764339844,36); (8807003569576059155930981175926409,36);
  (1801403636104310436616693440136138,35); (2030071490019347066551997613746606,35);
  (4388278587433704706612377939835092,35); (3133602416705453178475326759352080,35);
  (8044151408889058830273546914923968,35); (4163837078835237436237907161102311,35);
  (1268340467699246036928474648221792,34); (5096505990862021751837506774017494,35);
  (1819731596367424872735816518868570,34); (5909726598075920865618868885569114,35);
  (2445664990245864509978179745223745,34); (6584431922458831344924724987408157,35);
  (3131469556422902196637259114875364,34); (7104805465919102566464916253358246,35);
  (3861070744291774609597519023157127,34); (7458649323630187339391436850098472,35);
  (4617367394332513331226797953005809,34); (7637669356536292534904216597754880,35);
  (5382632605667486668773202046994191,34); (7637669356536292534904216597754880,35);
  (6138929255708225390402480976842873,34); (7458649323630187339391436850098472,35);
  (6868530443577097803362740885124636,34); (7104805465919102566464916253358246,35);
  (7554335009754135490021820254776254,34); (6584431922458831344924724987408157,35);
  (8180268403632575127264183481131429,34); (5909726598075920865618868885569114,35);
  (8731659532300753963071525351778208,34); (5096505990862021751837506774017494,35);
  (9195584859111094116972645308507603,34); (4163837078835237436237907161102311,35);
  (9561172141256629529338762206016491,34); (3133602416705453178475326759352080,35);
  (9819859636389568956338330655986386,34); (2030071490019347066551997613746606,35);
  (9965642995925474623930611942356602,34); (8807003569576059155930981175926409,36)].
Definition gauss_21 : list (Z * Z) := [
  (3123914689805249869878982031029541,36); (8008614128887166662112308429235523,36);
  (1638658071684685284168889254615243,35); (1847689488542624689997533414966488,35);
  (3995033292479958560490643314251554,35); (2856721271342860414181791323622389,35);
  (7331831770834135817637468070621619,35); (3805005681418965100852582665009167,35);
  (1157800182621610456920610743468860,34); (4672221172801693077664487055696605,35);
  (1664305979012938403470166650048304,34); (5439864958357418883173728903505285,35);
  (2241905820563900964704906016378433,34); (6091570802686426709768358856286677,35);
  (2878289398962806082131655557281060,34); (6613446931666873089052628724838781,35);
  (3559893415987994516996037419676998,34); (6994369739553657736106671193379151,35);
  (4272190729195524545314845088306568,34); (7226220199498502953191358327687629,35);
  (5000000000000000000000000000000000,34); (7304056682484521359599257384168560,35);
  (5727809270804475454685154911693432,34); (7226220199498502953191358327687629,35);
  (6440106584012005483003962580323002,34); (6994369739553657736106671193379151,35);
  (7121710601037193917868344442718940,34); (6613446931666873089052628724838781,35);
  (7758094179436099035295093983621567,34); (6091570802686426709768358856286677,35);
  (8335694020987061596529833349951696,34); (5439864958357418883173728903505285,35);
  (8842199817378389543079389256531141,34); (4672221172801693077664487055696605,35);
  (9266816822916586418236253192937839,34); (3805005681418965100852582665009167,35);
  (9600496670752004143950935668574845,34); (2856721271342860414181791323622389,35);
  (9836134192831531471583111074538476,34); (1847689488542624689997533414966488,35);
  (9968760853101947501301210179689705,34); (8008614128887166662112308429235523,36)].
Definition gauss_22 : list (Z * Z) := [
  (2852707258800353963484289419350489,36); (7313997649136100342495549023592702,36);
  (1496975108228563643802450661736565,35); (1688745079240707739665112343295642,35);
  (3652161390641299973965353037047338,35); (2614666757634164297015602563660560,35);
  (6709371113984993173178718149031065,35); (3489823421226024404748070946510887,35);
  (1060915970103959189978610222958243,34); (4297080310853386370722184068635147,35);
  (1527563684066586099746550821188716,34); (5020707222144048246603941891526817,35);
  (2061797982465442035205615361806764,34); (5646614804026960919670030371089216,35);
  (2653220810066214867968346445167968,34); (6162618840525621214278049307740724,35);
  (3290320895539578874209262897863102,34); (6558675239353118536648249626515371,35);
  (3960697866558893572605767330402271,34); (6827074917300758567628691561575870,35);
  (4651303633401388893930791019406860,34); (6962593642781599668770512417090498,35);
  (5348696366598611106069208980593140,34); (6962593642781599668770512417090498,35);
  (6039302133441106427394232669597728,34); (6827074917300758567628691561575870,35);
  (6709679104460421125790737102136898,34); (6558675239353118536648249626515371,35);
  (7346779189933785132031653554832032,34); (6162618840525621214278049307740724,35);
  (7938202017534557964794384638193236,34); (5646614804026960919670030371089216,35);
  (8472436315933413900253449178811284,34); (5020707222144048246603941891526817,35);
  (8939084029896040810021389777041758,34); (4297080310853386370722184068635147,35);
  (9329062888601500682682128185096894,34); (3489823421226024404748070946510887,35);
  (9634783860935870002603464696295266,34); (2614666757634164297015602563660560,35);
  (9850302489177143635619754933826343,34); (1688745079240707739665112343295642,35);
  (9971472927411996460365157105806495,34); (7313997649136100342495549023592702,36)].
Definition gauss_23 : list (Z * Z) := [
  (2615332501223938238037142277212809,36); (6705929743570886040654746729307662,36);
  (1372876439094238402198796158961128,35); (1549400292848972215534710982094217,35);
  (3351445658699194882540150548078849,35); (2401883586554233428582053581601702,35);
  (6162382086477916631092155703292715,35); (3211621070426292606358480757945550,35);
  (9755579919058005392444079650161071,35); (3964070588835947746144626237102158,35);
  (1406693184340249027691877581256906,34); (4645788303001757373850930868488234,35);
  (1901950621181769218074513441752022,34); (5244604573227070503704309250737199,35);
  (2452492610769962251551034760665768,34); (5749832011120568247082175646698064,35);
  (3048494809848545842892555635596973,34); (6152454215336476523378920033600480,35);
  (3679321595148275347330652308583452,34); (6445286109404107498929766969989684,35);
  (4333715878507669445341286588791169,34); (6623101970234830868582123235165844,35);
  (5000000000000000000000000000000000,34); (6682728609305308767572855527292217,35);
  (5666284121492330554658713411208831,34); (6623101970234830868582123235165844,35);
  (6320678404851724652669347691416548,34); (6445286109404107498929766969989684,35);
  (6951505190151454157107444364403027,34); (6152454215336476523378920033600480,35);
  (7547507389230037748448965239334233,34); (5749832011120568247082175646698064,35);
  (8098049378818230781925486558247978,34); (5244604573227070503704309250737199,35);
  (8593306815659750972308122418743094,34); (4645788303001757373850930868488234,35);
  (9024442008094199460755592034983893,34); (3964070588835947746144626237102158,35);
  (9383761791352208336890784429670729,34); (3211621070426292606358480757945550,35);
  (9664855434130080511745984945192116,34); (2401883586554233428582053581601702,35);
  (9862712356090576159780120384103887,34); (1549400292848972215534710982094217,35);
  (9973846674987760617619628577227872,34); (6705929743570886040654746729307662,36)].
Definition gauss_24 : list (Z * Z) := [
  (2406390001489319910001295149631602,36); (6170614899993599773402833535018667,36);
  (1263572201434525090080400349591547,35); (1426569431446683159065390797593907,35);
  (3086272399863362073817549914563926,35); (2213871940870990308430137410566913,35);
  (5679223649779948289342282900890162,35); (2964929245771839037318387925005438,35);
  (8999900701304853902302506366512739,35); (3667324070554015286701680762655821,35);
  (1299379042107228178780859484500108,34); (4309508076597663795859260149187130,35);
  (1759531740315122153737521065446262,34); (4880932605205694413494033223212357,35);
  (2272892643055802321708121913908138,34); (5372213505798281739128867122330315,35);
  (2831032461869774307564578840433251,34); (5775283402686280067667224195339179,35);
  (3424786601519183128066033543400949,34); (6083523646390169560223157673813119,35);
  (4044405662631918454206800896214652,34); (6291872817341414806068769125559189,35);
  (4679715535686971869574784586876275,34); (6396909767337607848702808261234771,35);
  (5320284464313028130425215413123725,34); (6396909767337607848702808261234771,35);
  (5955594337368081545793199103785348,34); (6291872817341414806068769125559189,35);
  (6575213398480816871933966456599051,34); (6083523646390169560223157673813119,35);
  (7168967538130225692435421159566748,34); (5775283402686280067667224195339179,35);
  (7727107356944197678291878086091862,34); (5372213505798281739128867122330315,35);
  (8240468259684877846262478934553738,34); (4880932605205694413494033223212357,35);
  (8700620957892771821219140515499892,34); (4309508076597663795859260149187130,35);
  (9100009929869514609769749363348726,34); (3667324070554015286701680762655821,35);
  (9432077635022005171065771709910984,34); (2964929245771839037318387925005438,35);
  (9691372760013663792618245008543607,34); (2213871940870990308430137410566913,35);
  (9873642779856547490991959965040845,34); (1426569431446683159065390797593907,35);
  (9975936099985106800899987048503684,34); (6170614899993599773402833535018667,36)].
Definition gauss_25 : list (Z * Z) := [
  (2221515104750951045607526553049209,36); (5696899250513143973951482056617387,36);
  (1166803927024124425084230676020296,35); (1317749330751606863095090764764957,35);
  (2851271438551283029299441517076472,35); (2046957835065315632781174385582298,35);
  (5250400106086231557447899660859750,35); (2745234798791759596296844577023666,35);
  (8327868561958299928948944565321519,35); (3401916690617845860359359282835398,35);
  (1203703684813211847113585673978195,34); (4007035016750050900661747983455565,35);
  (1632168157632658177574396833761889,34); (4551413099148182490574861035144582,35);
  (2111685348793885161381550791936730,34); (5026797453352532210110344519634292,35);
  (2634986342771425197389089424954040,34); (5425981223713182655804697852505831,35);
  (3194138470953060811320891349361797,34); (5742912957285582416966277293477791,35);
  (3780665581395057839774048186012742,34); (5972788176789238611408906325645052,35);
  (4385676536946448018063200905959816,34); (6112122149515502084447975947292576,35);
  (5000000000000000000000000000000000,34); (6158802686335772560195143653952507,35);
  (5614323463053551981936799094040184,34); (6112122149515502084447975947292576,35);
  (6219334418604942160225951813987258,34); (5972788176789238611408906325645052,35);
  (6805861529046939188679108650638203,34); (5742912957285582416966277293477791,35);
  (7365013657228574802610910575045961,34); (5425981223713182655804697852505831,35);
  (7888314651206114838618449208063270,34); (5026797453352532210110344519634292,35);
  (8367831842367341822425603166238111,34); (4551413099148182490574861035144582,35);
  (8796296315186788152886414326021805,34); (4007035016750050900661747983455565,35);
  (9167213143804170007105105543467848,34); (3401916690617845860359359282835398,35);
  (9474959989391376844255210033914025,34); (2745234798791759596296844577023666,35);
  (9714872856144871697070055848292353,34); (2046957835065315632781174385582298,35);
  (9883319607297587557491576932397970,34); (1317749330751606863095090764764957,35);
  (9977784848952490489543924734469507,34); (5696899250513143973951482056617387,36)].
Definition gauss_26 : list (Z * Z) := [
  (2057149427191535498391520338546990,36); (5275686308671503577825593842625965,36);
  (1080727702176450444970982284403687,35); (1220892554631595439480791375989422,35);
  (2642046666914287493204235824098160,35); (1898119164718138197515157062442525,35);
  (4868106900784646289116720038439485,35); (2548791264857390599915995036203669,35);
  (7727702860575099060124646926608093,35); (3163702316478741776972684495352258,35);
  (1118070255896605719035163763788581,34); (3734207488282987294353789805142420,35);
  (1517863697900213675680930431352876,34); (4252294715674261960522388253999080,35);
  (1966538534911909683840106265415565,34); (4710690017795707423183244153365157,35);
  (2457796425877471411521484676372154,34); (5102958054721271161920703512671537,35);
  (2984741224382568467594613114505585,34); (5423592026428829532828971336399882,35);
  (3539975802570215524285823089610849,34); (5668090827315983327472035922129908,35);
  (4115705898215549080154711257908277,34); (5833022174264829102233125377018118,35);
  (4703849532853433964531407124007983,34); (5916070763963113825818554285023432,35);
  (5296150467146566035468592875992017,34); (5916070763963113825818554285023432,35);
  (5884294101784450919845288742091723,34); (5833022174264829102233125377018118,35);
  (6460024197429784475714176910389151,34); (5668090827315983327472035922129908,35);
  (7015258775617431532405386885494415,34); (5423592026428829532828971336399882,35);
  (7542203574122528588478515323627846,34); (5102958054721271161920703512671537,35);
  (8033461465088090316159893734584435,34); (4710690017795707423183244153365157,35);
  (8482136302099786324319069568647124,34); (4252294715674261960522388253999080,35);
  (8881929744103394280964836236211419,34); (3734207488282987294353789805142420,35);
  (9227229713942490093987535307339190,34); (3163702316478741776972684495352258,35);
  (9513189309921535371088327996156051,34); (2548791264857390599915995036203669,35);
  (9735795333308571250679576417590184,34); (1898119164718138197515157062442525,35);
  (9891927229782354955502901771559631,34); (1220892554631595439480791375989422,35);
  (9979428505728084645016084796614530,34); (5275686308671503577825593842625965,36)].
Definition gauss_27 : list (Z * Z) := [
  (1910368555505716530556395809385000,36); (4899498025647180130575027545629562,36);
  (1003826201924938857206332216947639,35); (1134311579809031159801710322338079,35);
  (2454972109264749657404598467805853,35); (1764852687870985551128914465235584,35);
  (4525883966125444784967749089515538,35); (2372470626030753135204835505709233,35);
  (7189604599085275484863138864657859,35); (2949176842991679955515041685976589,35);
  (1041141804647458864278013279463646,34); (3487441188312279649216144417833358,35);
  (1414932631302881503525918941788302,34); (3980243388652888563153747950492127,35);
  (1835460140267524295361326811827557,34); (4421157927187847509716140142687462,35);
  (2297242177102715525498495292200086,34); (4804436368501425378282632327905291,35);
  (2794258741249865597070129221553593,34); (5125081890887289933562385576633191,35);
  (3320030481807455501348404828963577,34); (5378914289426659360608149221332869,35);
  (3867703172802315705713804463198849,34); (5562624417842259633608154802142434,35);
  (4430137071952350165335525080650117,34); (5673817305448257431018497404604965,35);
  (5000000000000000000000000000000000,34); (5711043368947849452252286845091762,35);
  (5569862928047649834664474919349883,34); (5673817305448257431018497404604965,35);
  (6132296827197684294286195536801151,34); (5562624417842259633608154802142434,35);
  (6679969518192544498651595171036423,34); (5378914289426659360608149221332869,35);
  (7205741258750134402929870778446407,34); (5125081890887289933562385576633191,35);
  (7702757822897284474501504707799914,34); (4804436368501425378282632327905291,35);
  (8164539859732475704638673188172443,34); (4421157927187847509716140142687462,35);
  (8585067368697118496474081058211697,34); (3980243388652888563153747950492127,35);
  (8958858195352541135721986720536354,34); (3487441188312279649216144417833358,35);
  (9281039540091472451513686113534214,34); (2949176842991679955515041685976589,35);
  (9547411603387455521503225091048446,34); (2372470626030753135204835505709233,35);
  (9754502789073525034259540153219415,34); (1764852687870985551128914465235584,35);
  (9899617379807506114279366778305237,34); (1134311579809031159801710322338079,35);
  (9980896314444942834694436041906150,34); (4899498025647180130575027545629562,36)].
Definition gauss_28 : list (Z * Z) := [
  (1778751213022775024781804758344516,36); (4562141296547258869408076961475894,36);
  (9348417314563623152720027096084859,36); (1056605629638562987575019049663272,35);
  (2287035968553090137294908014739222,35); (1645071389115218998881540958526609,35);
  (4218348680393396306515528833503645,35); (2213646737950211391979393882660376,35);
  (6705373871280247552887271631015662,35); (2755367283785837271574145911347280,35);
  (9717931454141041427605702228736120,35); (3263646198349979789669878338775238,35);
  (1321945609931841139859277448537328,34); (3732310711728438951196594358651100,35);
  (1716744529805675193900509117466286,34); (4155670861445060919519824912216626,35);
  (2151397640942991403459983583217845,34); (4528587219651642047109301566839210,35);
  (2620628875224408694827940761662830,34); (4846532899896495792524450304772034,35);
  (3118742419554606448893213952219565,34); (5105648378903038490710831925285608,35);
  (3639691861824109611615868219371151,34); (5302788296142320895520821849840546,35);
  (4177153589333096143592641110544173,34); (5435559612914706762678575965183666,35);
  (4724603550579828647867417363290600,34); (5502350650823759814118813280090885,35);
  (5275396449420171352132582636709400,34); (5502350650823759814118813280090885,35);
  (5822846410666903856407358889455827,34); (5435559612914706762678575965183666,35);
  (6360308138175890388384131780628849,34); (5302788296142320895520821849840546,35);
  (6881257580445393551106786047780435,34); (5105648378903038490710831925285608,35);
  (7379371124775591305172059238337170,34); (4846532899896495792524450304772034,35);
  (7848602359057008596540016416782155,34); (4528587219651642047109301566839210,35);
  (8283255470194324806099490882533714,34); (4155670861445060919519824912216626,35);
  (8678054390068158860140722551462672,34); (3732310711728438951196594358651100,35);
  (9028206854585895857239429777126388,34); (3263646198349979789669878338775238,35);
  (9329462612871975244711272836898433,34); (2755367283785837271574145911347280,35);
  (9578165131960660369348447116649635,34); (2213646737950211391979393882660376,35);
  (9771296403144690986270509198526078,34); (1645071389115218998881540958526609,35);
  (9906515826854363768472799729039151,34); (1056605629638562987575019049663272,35);
  (9982212487869772249752181952416554,34); (4562141296547258869408076961475894,36)].
Definition gauss_29 : list (Z * Z) := [
  (1660278869701706918404233725323044,36); (4258451939373204827131906651124967,36);
  (8727247369293412564536992106811546,36); (9866042528061352991929900820197834,36);
  (2135720211095613710089598150958823,35); (1537024610104681132220426268730834,35);
  (3940988352347060745312328195844677,35); (2070103125934141805241500505703841,35);
  (6268109753994860479110328937171070,35); (2579741345124896195629719058977129,35);
  (9090725619237377750521389271060753,35); (3060154532853956927105492401195350,35);
  (1237685741327614330436949613939309,34); (3505896662752563928479074347443964,35);
  (1608927311986567424219074973040070,34); (3911916356788189191407244432984014,35);
  (2018591014308860898102068944055051,34); (4273612868308626377267242464860402,35);
  (2462035224378861789486860401862399,34); (4586887856962938167398320553855541,35);
  (2934235559129956680546467069841916,34); (4848191704720430315095003744134442,35);
  (3429841810661800325259020384044763,34); (5054563687995748306091027345374875,35);
  (3943238569169994627468121355485313,34); (5203665503886468695666423564256003,35);
  (4468608849336603849145088037848115,34); (5293807754866047070329566392609397,35);
  (5000000000000000000000000000000000,34); (5323969085915712212325556345483878,35);
  (5531391150663396150854911962151885,34); (5293807754866047070329566392609397,35);
  (6056761430830005372531878644514687,34); (5203665503886468695666423564256003,35);
  (6570158189338199674740979615955237,34); (5054563687995748306091027345374875,35);
  (7065764440870043319453532930158084,34); (4848191704720430315095003744134442,35);
  (7537964775621138210513139598137600,34); (4586887856962938167398320553855541,35);
  (7981408985691139101897931055944949,34); (4273612868308626377267242464860402,35);
  (8391072688013432575780925026959930,34); (3911916356788189191407244432984014,35);
  (8762314258672385669563050386060691,34); (3505896662752563928479074347443964,35);
  (9090927438076262224947861072893925,34); (3060154532853956927105492401195350,35);
  (9373189024600513952088967106282893,34); (2579741345124896195629719058977129,35);
  (9605901164765293925468767180415532,34); (2070103125934141805241500505703841,35);
  (9786427978890438628991040184904118,34); (1537024610104681132220426268730834,35);
  (9912727526307065874354630078931885,34); (9866042528061352991929900820197834,36);
  (9983397211302982930815957662746770,34); (4258451939373204827131906651124967,36)].
Definition gauss_30 : list (Z * Z) := [
  (1553257962675229864184974540652380,36); (3984096248083302807732941737336811,36);
  (8165938360126395014983709197168579,36); (9233234155545479571151065956023634,36);
  (1998906751584624389156448720910118,35); (1439235394166168467485958980564602,35);
  (3689997628536283706033786145976299,35); (1939959628481352479840096822317385,35);
  (5871973210397365922844176873488721,35); (2420133641529702645146907021140376,35);
  (8521711880861580127855094013374904,35); (2874657810880953324086084470102806,35);
  (1161112839475869025410113295127484,34); (3298711494109024756406425755798118,35);
  (1510747526033421015338538059866800,34); (3687798736885260313412192501109537,35);
  (1897369085053785694297612217844053,34); (4037794761471010767734746923026486,35);
  (2316879259289900503679151033444636,34); (4344989360054148990119376535756285,35);
  (2764831152309554116096950498385730,34); (4606126111889306435881635354380938,35);
  (3236476372345609432644813964553131,34); (4818436858732212981973431317590493,35);
  (3726815369160550767800974350910974,34); (4979671029339763353139014105178474,35);
  (4230650431957082265181026636283720,34); (5088119487420275229821447608427702,35);
  (4742640787223411520834873934166387,34); (5142632644677942017064281835270752,35);
  (5257359212776588479165126065833613,34); (5142632644677942017064281835270752,35);
  (5769349568042917734818973363716280,34); (5088119487420275229821447608427702,35);
  (6273184630839449232199025649089026,34); (4979671029339763353139014105178474,35);
  (6763523627654390567355186035446869,34); (4818436858732212981973431317590493,35);
  (7235168847690445883903049501614270,34); (4606126111889306435881635354380938,35);
  (7683120740710099496320848966555364,34); (4344989360054148990119376535756285,35);
  (8102630914946214305702387782155947,34); (4037794761471010767734746923026486,35);
  (8489252473966578984661461940133201,34); (3687798736885260313412192501109537,35);
  (8838887160524130974589886704872515,34); (3298711494109024756406425755798118,35);
  (9147828811913841987214490598662510,34); (2874657810880953324086084470102806,35);
  (9412802678960263407715582312651127,34); (2420133641529702645146907021140376,35);
  (9631000237146371629396621385402371,34); (1939959628481352479840096822317385,35);
  (9800109324841537561084355127908989,34); (1439235394166168467485958980564602,35);
  (9918340616398736049850162908028314,34); (9233234155545479571151065956023634,36);
  (9984467420373247701358150254593477,34); (3984096248083302807732941737336811,36)].
Definition gauss_31 : list (Z * Z) := [
  (1456259090261462972186722888448762,36); (3735415789624387929348437516106281,36);
  (7657045167423757998767416632657633,36); (8659310395155291231578998043410544,36);
  (1874803745352516910547379794707085,35); (1350450959248971090030435404596610,35);
  (3462150105167591752152712013536823,35); (1821613695619273201219600523390168,35);
  (5511998502586447831290399550892037,35); (2274685376360055145115792894731488,35);
  (8003983992686632995654773202991080,35); (2705154121245842685583312954330999,35);
  (1091334257916875297968199899026578,34); (3108739328051421345517177184334836,35);
  (1421116077065733580470145673167570,34); (3481429161770518308387806312756289,35);
  (1786466385378698269077908983837493,34); (3819519329938830821317883745066535,35);
  (2183754192964253686395275382024193,34); (4119649588079463195191168371598088,35);
  (2609031089775487597797029803217571,34); (4378837030423893806309903484766651,35);
  (3058070491958835284693242693562399,34); (4594505694682073910768143580357500,35);
  (3526409650091491916910480511641478,34); (4764512145615975640360209874379837,35);
  (4009394003322146856137935019835830,34); (4887166769316436254673700548949834,35);
  (4502223439238292398374126049405296,34); (4961250561333615393743775721430753,35);
  (5000000000000000000000000000000000,34); (4986027239671322571376691686717472,35);
  (5497776560761707601625873950594703,34); (4961250561333615393743775721430753,35);
  (5990605996677853143862064980164170,34); (4887166769316436254673700548949834,35);
  (6473590349908508083089519488358522,34); (4764512145615975640360209874379837,35);
  (6941929508041164715306757306437601,34); (4594505694682073910768143580357500,35);
  (7390968910224512402202970196782429,34); (4378837030423893806309903484766651,35);
  (7816245807035746313604724617975807,34); (4119649588079463195191168371598088,35);
  (8213533614621301730922091016162508,34); (3819519329938830821317883745066535,35);
  (8578883922934266419529854326832430,34); (3481429161770518308387806312756289,35);
  (8908665742083124702031800100973423,34); (3108739328051421345517177184334836,35);
  (9199601600731336700434522679700892,34); (2705154121245842685583312954330999,35);
  (9448800149741355216870960044910796,34); (2274685376360055145115792894731488,35);
  (9653784989483240824784728798646317,34); (1821613695619273201219600523390168,35);
  (9812519625464748308945262020529292,34); (1350450959248971090030435404596610,35);
  (9923429548325762420012325833673423,34); (8659310395155291231578998043410544,36);
  (9985437409097385370278132771115512,34); (3735415789624387929348437516106281,36)].
Definition gauss_32 : list (Z * Z) := [
  (1368069075259218227509435667479650,36); (3509305004735048300203531869426621,36);
  (7194244227365832299912477684548990,36); (8137197365452835302585281103193275,36);
  (1761887220624678461309403594086254,35); (1269603265463102972787629489461198,35);
  (3254696203113015541454043258229533,35); (1713693145651071655134386612618640,35);
  (5183942211697393801734637814039385,35); (2141794901111334032843932330306274,35);
  (7531619313371501493315349751612874,35); (2549902963118808809808162234476081,35);
  (1027581020160287965184513505147855,34); (2934204673926777357264181865008545,35);
  (1339089406298551598062866674543664,34); (3291111138818092341882503185346939,35);
  (1684778665348923995124424156683808,34); (3617289705442425311269967823924389,35);
  (2061421213796188354796272617990866,34); (3909694789353515323587045941415328,35);
  (2465500455338853049881262628110894,34); (4165596211347337761109953730217430,35);
  (2893243619346823273179402819137868,34); (4382604650220190557138573137590115,35);
  (3340656988589361751100415971349060,34); (4558693934788194235643428855581855,35);
  (3803563188739314627276983954172492,34); (4692219954040228281959011883405868,35);
  (4277640192086017532574068132005947,34); (4781936003963742970954100110206549,35);
  (4758461671561308418825937147797489,34); (4827004425736390028338241503178790,35);
  (5241538328438691581174062852202511,34); (4827004425736390028338241503178790,35);
  (5722359807913982467425931867994054,34); (4781936003963742970954100110206549,35);
  (6196436811260685372723016045827508,34); (4692219954040228281959011883405868,35);
  (6659343011410638248899584028650940,34); (4558693934788194235643428855581855,35);
  (7106756380653176726820597180862133,34); (4382604650220190557138573137590115,35);
  (7534499544661146950118737371889106,34); (4165596211347337761109953730217430,35);
  (7938578786203811645203727382009135,34); (3909694789353515323587045941415328,35);
  (8315221334651076004875575843316192,34); (3617289705442425311269967823924389,35);
  (8660910593701448401937133325456335,34); (3291111138818092341882503185346939,35);
  (8972418979839712034815486494852145,34); (2934204673926777357264181865008545,35);
  (9246838068662849850668465024838712,34); (2549902963118808809808162234476081,35);
  (9481605778830260619826536218596061,34); (2141794901111334032843932330306274,35);
  (9674530379688698445854595674177047,34); (1713693145651071655134386612618640,35);
  (9823811277937532153869059640591375,34); (1269603265463102972787629489461198,35);
  (9928057557726341677000875223154511,34); (8137197365452835302585281103193275,36);
  (9986319309247407817724905643325204,34); (3509305004735048300203531869426621,36)].
Definition gauss_33 : list (Z * Z) := [
  (1287652876772391366915991209797936,36); (3303113923793689029324617604236976,36);
  (6772136884678755944812150867687036,36); (7660850756467338063972884266830969,36);
  (1658854515500361553581114666070388,35); (1195777405087474017526662876459310,35);
  (3065281369441582482208243781822317,35); (1615017931616447664078072362471565,35);
  (4884161612828320847973433424061921,35); (2020077066583479578170489526369930,35);
  (7099517366174796767846925992696575,35); (2407387140935584783507344006905984,35);
  (9691882186291670510189956460861143,35); (2773542331583178064247224771962952,35);
  (1263847517752189210704724375510259,34); (3115324126515874001581386288544881,35);
  (1591340200151286068658920265403359,34); (3429728640932835640297753650747931,35);
  (1948788270818104863463562432309513,34); (3713992742197707467123608795923605,35);
  (2333050476068261782255528675022540,34); (3965618239744336918195419247099880,35);
  (2740749913637746521370033613796165,34); (4182393803351935380696400725883031,35);
  (3168303711259633294648896883730645,34); (4362414380942216880364083547272325,35);
  (3611954514237514852983759663508395,34); (4504097933031928861987185275011175,35);
  (4067803505860042138321006203905880,34); (4606199332165842310662048885868156,35);
  (4531844670726333071646285379387311,34); (4667821303279805808049956313713775,35);
  (5000000000000000000000000000000000,34); (4688422308010499828365227077317439,35);
  (5468155329273666928353714620612689,34); (4667821303279805808049956313713775,35);
  (5932196494139957861678993796094120,34); (4606199332165842310662048885868156,35);
  (6388045485762485147016240336491605,34); (4504097933031928861987185275011175,35);
  (6831696288740366705351103116269355,34); (4362414380942216880364083547272325,35);
  (7259250086362253478629966386203835,34); (4182393803351935380696400725883031,35);
  (7666949523931738217744471324977461,34); (3965618239744336918195419247099880,35);
  (8051211729181895136536437567690487,34); (3713992742197707467123608795923605,35);
  (8408659799848713931341079734596641,34); (3429728640932835640297753650747931,35);
  (8736152482247810789295275624489741,34); (3115324126515874001581386288544881,35);
  (9030811781370832948981004353913886,34); (2773542331583178064247224771962952,35);
  (9290048263382520323215307400730342,34); (2407387140935584783507344006905984,35);
  (9511583838717167915202656657593808,34); (2020077066583479578170489526369930,35);
  (9693471863055841751779175621817768,34); (1615017931616447664078072362471565,35);
  (9834114548449963844641888533392961,34); (1195777405087474017526662876459310,35);
  (9932278631153212440551878491323130,34); (7660850756467338063972884266830969,36);
  (9987123471232276086330840087902021,34); (3303113923793689029324617604236976,36)].
Definition gauss_34 : list (Z * Z) := [
  (1214123104579040378313781272685368,36); (3114570277954342359303230535718936,36);
  (6386091796845257475124784450157543,36); (7225081374297517707601105164373491,36);
  (1564586873332785911767671347200328,35); (1128186099274748504204704435747714,35);
  (2891880129744645418416198726971352,35); (1524569031922306590472119384065879,35);
  (4609516114083776559955005549035625,35); (1908329689819375816088296014498833,35);
  (6703268083271776536821395466435006,35); (2276280576167663622691128169763534,35);
  (9155788604953316770421054670651338,35); (2625370728633905308412298742123380,35);
  (1194675616850634929062955155106316,34); (2952706791376224659698048617526312,35);
  (1505304433918685460334999467121114,34); (3255576077703820568927221503244690,35);
  (1844891364597357273411121222404959,34); (3531468790712786249951939828384267,35);
  (2210622496651266786317700568918627,34); (3778098733001596563541698711421789,35);
  (2599467274048364829029486597463015,34); (3993422216988592236940941640321898,35);
  (3008203611206770296842526235338242,34); (4175654984992282759351011402307471,35);
  (3433444593302683762708416171745110,34); (4323286987351787489212342814037373,35);
  (3871666541917752580656794095328264,34); (4435094891784693464353822868244037,35);
  (4319238213704085120527855878344411,34); (4510152218532036478697112100874693,35);
  (4772450890234487286254621645740349,34); (4547837016512993680766880197428897,35);
  (5227549109765512713745378354259651,34); (4547837016512993680766880197428897,35);
  (5680761786295914879472144121655589,34); (4510152218532036478697112100874693,35);
  (6128333458082247419343205904671736,34); (4435094891784693464353822868244037,35);
  (6566555406697316237291583828254890,34); (4323286987351787489212342814037373,35);
  (6991796388793229703157473764661757,34); (4175654984992282759351011402307471,35);
  (7400532725951635170970513402536985,34); (3993422216988592236940941640321898,35);
  (7789377503348733213682299431081373,34); (3778098733001596563541698711421789,35);
  (8155108635402642726588878777595041,34); (3531468790712786249951939828384267,35);
  (8494695566081314539665000532878886,34); (3255576077703820568927221503244690,35);
  (8805324383149365070937044844893684,34); (2952706791376224659698048617526312,35);
  (9084421139504668322957894532934866,34); (2625370728633905308412298742123380,35);
  (9329673191672822346317860453356499,34); (2276280576167663622691128169763534,35);
  (9539048388591622344004499445096438,34); (1908329689819375816088296014498833,35);
  (9710811987025535458158380127302865,34); (1524569031922306590472119384065879,35);
  (9843541312666721408823232865279967,34); (1128186099274748504204704435747714,35);
  (9936139082031547425248752155498425,34); (7225081374297517707601105164373491,36);
  (9987858768954209596216862187273146,34); (3114570277954342359303230535718936,36)].
Definition gauss_35 : list (Z * Z) := [
  (1146715450199851369918430343952656,36); (2941716710221542487876948120056277,36);
  (6032117778074250982441455407257022,36); (6825414174180746133202001460258186,36);
  (1478119198038508339246475870761492,35); (1066148995574179044171899198310248,35);
  (2732742589608633523063700723501268,35); (1441463005444712702435801985724245,35);
  (4357286932034119276753146822211787,35); (1805505793173169026635848482377500,35);
  (6339043748738883423835882542930736,35); (2155421116308510939115322968745413,35);
  (8662505045388729658297469362572120,35); (2488468520067676490259983804249749,35);
  (1130948738565437223662884953950563,34); (2802040810618506428916387358255052,35);
  (1425927492216856083677956843877766,34); (3093683598304009444350706939434441,35);
  (1748878176670548056621035955077204,34); (3361114263454345198215275437407424,35);
  (2097273276251177450327489959051550,34); (3602239738628003233273095489263882,35);
  (2468386133792556924878512220813363,34); (3815172857772102676932926894211311,35);
  (2859312292410928729061896934992601,34); (3998247112116213146633104049252282,35);
  (3266992227845930270615100825348809,34); (4150029686442829418996326410808852,35);
  (3688235293953519710145523997722097,34); (4269332669604956261297199369555878,35);
  (4119744694170052150128481717774700,34); (4355222349859176712166101580277049,35);
  (4558143283621703681995352832512256,34); (4407026521513773148536940379654836,35);
  (5000000000000000000000000000000000,34); (4424339745355214531910369388880783,35);
  (5441856716378296318004647167487744,34); (4407026521513773148536940379654836,35);
  (5880255305829947849871518282225300,34); (4355222349859176712166101580277049,35);
  (6311764706046480289854476002277902,34); (4269332669604956261297199369555878,35);
  (6733007772154069729384899174651191,34); (4150029686442829418996326410808852,35);
  (7140687707589071270938103065007399,34); (3998247112116213146633104049252282,35);
  (7531613866207443075121487779186637,34); (3815172857772102676932926894211311,35);
  (7902726723748822549672510040948451,34); (3602239738628003233273095489263882,35);
  (8251121823329451943378964044922797,34); (3361114263454345198215275437407424,35);
  (8574072507783143916322043156122234,34); (3093683598304009444350706939434441,35);
  (8869051261434562776337115046049437,34); (2802040810618506428916387358255052,35);
  (9133749495461127034170253063742788,34); (2488468520067676490259983804249749,35);
  (9366095625126111657616411745706926,34); (2155421116308510939115322968745413,35);
  (9564271306796588072324685317778821,34); (1805505793173169026635848482377500,35);
  (9726725741039136647693629927649873,34); (1441463005444712702435801985724245,35);
  (9852188080196149166075352412923851,34); (1066148995574179044171899198310248,35);
  (9939678822219257490175585445927430,34); (6825414174180746133202001460258186,36);
  (9988532845498001486300815696560474,34); (2941716710221542487876948120056277,36)].
Definition gauss_36 : list (Z * Z) := [
  (1084768757957081900585827209624861,36); (2782859832122522680627992195273827,36);
  (5706760548893880963302446061446249,36); (6457973642032787202251705748895820,36);
  (1398615447515102533219747578444581,35); (1009075764886773576604946447911051,35);
  (2586350780024622739876294252738608,35); (1364931074928438954720859043399165,35);
  (4125111274217046696206638848692179,35); (1710690538515361496062253078135730,35);
  (6003509955480143400878633126708221,35); (2043787546182244773705727257163158,35);
  (8207641650376234679058956375069969,35); (2361754174513298920830841480833743,35);
  (1072118849338967435861155174598537,34); (2662235698887995954601281414310984,35);
  (1352554142032217089548697604969455,34); (2943007212266240865483769990946000,35);
  (1659993817072394689514043278295412,34); (3201989867750774477819239931292819,35);
  (1992161709320097324600275124632026,34); (3437266191786822130684481968180660,35);
  (2346598570368774191796454599392151,34); (3647094250282653067693668847063710,35);
  (2720680277832898663963911653362796,34); (3829920532293533726437886686075086,35);
  (3111637264401553918386318051650462,34); (3984391445603580095436233275093193,35);
  (3516575023279858647483804761274148,34); (4109363335216985475861173677247117,35);
  (3932495538415672105283868855486430,34); (4203910948983096746672881214579790,35);
  (4356319480953076056740033059974238,34); (4267334286966931374592527153824496,35);
  (4784909007631456963865155108858183,34); (4299163783519737374504258739526326,35);
  (5215090992368543036134844891141817,34); (4299163783519737374504258739526326,35);
  (5643680519046923943259966940025762,34); (4267334286966931374592527153824496,35);
  (6067504461584327894716131144513570,34); (4203910948983096746672881214579790,35);
  (6483424976720141352516195238725852,34); (4109363335216985475861173677247117,35);
  (6888362735598446081613681948349538,34); (3984391445603580095436233275093193,35);
  (7279319722167101336036088346637204,34); (3829920532293533726437886686075086,35);
  (7653401429631225808203545400607849,34); (3647094250282653067693668847063710,35);
  (8007838290679902675399724875367974,34); (3437266191786822130684481968180660,35);
  (8340006182927605310485956721704588,34); (3201989867750774477819239931292819,35);
  (8647445857967782910451302395030545,34); (2943007212266240865483769990946000,35);
  (8927881150661032564138844825401463,34); (2662235698887995954601281414310984,35);
  (9179235834962376532094104362493003,34); (2361754174513298920830841480833743,35);
  (9399649004451985659912136687329178,34); (2043787546182244773705727257163158,35);
  (9587488872578295330379336115130782,34); (1710690538515361496062253078135730,35);
  (9741364921997537726012370574726140,34); (1364931074928438954720859043399165,35);
  (9860138455248489746678025242155542,34); (1009075764886773576604946447911051,35);
  (9942932394511061190366975539385538,34); (6457973642032787202251705748895820,36);
  (9989152312420429180994141727903751,34); (2782859832122522680627992195273827,36)].
Definition gauss_37 : list (Z * Z) := [
  (1027708761043175529598462841318341,36); (2636528639748969675861027116765136,36);
  (5407018392840406657950469707863834,36); (6119390050153778263152426218173278,36);
  (1325348497175712783555476216712032,35); (9564522244541983021750973970053060,36);
  (2451382836895258933571195159183703,35); (1294301849527946676137974068124357,35);
  (3910928129376812866592815664964325,35); (1623081992376074053361712675072940,35);
  (5693751892225696052692524549155677,35); (1940480125096727224448118516423801,35);
  (7787350632972201600627186191256987,35); (2244268233121858332870515205509818,35);
  (1017703997450488533034768322498377,34); (2532314882741230080193793154335820,35);
  (1284605830090173687264762912630936,34); (2802599399913745890426961983212637,35);
  (1577568454345203212772383937844232,34); (3053225826161299306549405225024834,35);
  (1894536957955377584259237042024714,34); (3282436143637562474201188314898558,35);
  (2233288040692091093824508208853678,34); (3488622577785017244254067839650960,35);
  (2591445610983972229264035655586804,34); (3670338862424408636231331575989771,35);
  (2966497453408369449495342041930167,34); (3826310378526461894294399560331126,35);
  (3355812850581465002507640993300298,34); (3955443091876469038360609369832262,35);
  (3756661036043171205972161242561419,34); (4056831225423251525493880089989612,35);
  (4166230348800740115156641347940878,34); (4129763611821862544561515057641919,35);
  (4581647955226150490284758341318004,34); (4173728681293139362612650474225930,35);
  (5000000000000000000000000000000000,34); (4188418049656945239850868318472970,35);
  (5418352044773849509715241658681996,34); (4173728681293139362612650474225930,35);
  (5833769651199259884843358652059122,34); (4129763611821862544561515057641919,35);
  (6243338963956828794027838757438581,34); (4056831225423251525493880089989612,35);
  (6644187149418534997492359006699702,34); (3955443091876469038360609369832262,35);
  (7033502546591630550504657958069834,34); (3826310378526461894294399560331126,35);
  (7408554389016027770735964344413196,34); (3670338862424408636231331575989771,35);
  (7766711959307908906175491791146322,34); (3488622577785017244254067839650960,35);
  (8105463042044622415740762957975286,34); (3282436143637562474201188314898558,35);
  (8422431545654796787227616062155768,34); (3053225826161299306549405225024834,35);
  (8715394169909826312735237087369064,34); (2802599399913745890426961983212637,35);
  (8982296002549511466965231677501623,34); (2532314882741230080193793154335820,35);
  (9221264936702779839937281380874302,34); (2244268233121858332870515205509818,35);
  (9430624810777430394730747545084432,34); (1940480125096727224448118516423801,35);
  (9608907187062318713340718433503567,34); (1623081992376074053361712675072940,35);
  (9754861716310474106642880484081630,34); (1294301849527946676137974068124357,35);
  (9867465150282428721644452378328797,34); (9564522244541983021750973970053060,36);
  (9945929816071595933420495302921362,34); (6119390050153778263152426218173278,36);
  (9989722912389568244704015371586817,34); (2636528639748969675861027116765136,36)].
Definition gauss_38 : list (Z * Z) := [
  (9750347321561900935764617242094894,37); (2501440374819672837949771045949652,36);
  (5130272866807214027787054447160307,36); (5806722358234337088834150600218696,36);
  (1257683570492324617955722952680570,35); (9078288854806618449438062877391109,36);
  (2326683453323520216472892344127937,35); (1228986986911618794760060272335309,35);
  (3712933397570780158744521889347453,35); (1541975027258752732936554315665431,35);
  (5407213049768389160253148401304122,35); (1844704079701236908247008116840752,35);
  (7398248903381890557017514437636186,35); (2135157925233721711793921717940386,35);
  (9672791619734159222421731201015083,35); (2411403093037934168717608995571007,35);
  (1221570481230146596311309516103063,34); (2671600995516615998687849531562436,35);
  (1501006598104078220435870796862921,34); (2914019957349860301115293412907003,35);
  (1803727920851591464098275652498698,34); (3137046669606652702648483576256852,35);
  (2127719894760964594335362495377638,34); (3339196898957020596752307576450965,35);
  (2470826410360344483797331417661740,34); (3519125353344947736964148379682942,35);
  (2830764152838117578133719187410789,34); (3675634629237172857260322242416817,35);
  (3205137797602824933716411892717328,34); (3807683177422319803299677055223630,35);
  (3591455951049173693199429642906499,34); (3914392232910547403768770166786817,35);
  (3987147730539416483980111092426964,34); (3995051662176391079301384196259287,35);
  (4389579873310662900651938093352965,34); (4049124688529855031163473497452909,35);
  (4796074260477108800433417838351075,34); (4076251464019289334960938494291502,35);
  (5203925739522891199566582161648924,34); (4076251464019289334960938494291502,35);
  (5610420126689337099348061906647035,34); (4049124688529855031163473497452909,35);
  (6012852269460583516019888907573036,34); (3995051662176391079301384196259287,35);
  (6408544048950826306800570357093501,34); (3914392232910547403768770166786817,35);
  (6794862202397175066283588107282672,34); (3807683177422319803299677055223630,35);
  (7169235847161882421866280812589211,34); (3675634629237172857260322242416817,35);
  (7529173589639655516202668582338260,34); (3519125353344947736964148379682942,35);
  (7872280105239035405664637504622363,34); (3339196898957020596752307576450965,35);
  (8196272079148408535901724347501302,34); (3137046669606652702648483576256852,35);
  (8498993401895921779564129203137079,34); (2914019957349860301115293412907003,35);
  (8778429518769853403688690483896937,34); (2671600995516615998687849531562436,35);
  (9032720838026584077757826879898492,34); (2411403093037934168717608995571007,35);
  (9260175109661810944298248556236381,34); (2135157925233721711793921717940386,35);
  (9459278695023161083974685159869588,34); (1844704079701236908247008116840752,35);
  (9628706660242921984125547811065255,34); (1541975027258752732936554315665431,35);
  (9767331654667647978352710765587206,34); (1228986986911618794760060272335309,35);
  (9874231642950767538204427704731942,34); (9078288854806618449438062877391109,36);
  (9948697271331927859722129455528396,34); (5806722358234337088834150600218696,36);
  (9990249652678438099064235382757905,34); (2501440374819672837949771045949652,36)].
Definition gauss_39 : list (Z * Z) := [
  (9263084667835469972638485740897880,37); (2376472345817550685388106577453486,36);
  (4874231572657008180112441376460900,36); (5517394469582297121338402726088632,36);
  (1195064533326447307757484005524073,35); (8628114546862459520402735591677568,36);
  (2211239383767386144455405140445890,35); (1168469241608908229735617222146232,35);
  (3529542575663088515109151782113272,35); (1466747799195168929607799317812570,35);
  (5141644035350355607585445456959317,35); (1755755574906566538053259264861640,35);
  (7037353100004692304310128043697884,35); (2033663842396692196952827804113073,35);
  (9204685128492844782338366079518509,35); (2298715055445831594208831969961637,35);
  (1162993785344682500838637978858285,34); (2549233264606470260701051683829063,35);
  (1429777820527326604330664819240846,34); (2783634517045814995369556989484072,35);
  (1719133932839945446327870325118719,34); (3000436804429807478747088677440972,35);
  (2029232725213610056535549626904469,34); (3198269406934119449335320220503183,35);
  (2358113656697812630518281820958887,34); (3375881548311563268151066402322433,35);
  (2703697438454319756683766834452138,34); (3532150298530438038505746576406556,35);
  (3063799180142192720730590171815187,34); (3666087670713430869057696643252412,35);
  (3436142203759070387320015441071856,34); (3776846866141802885239222349540469,35);
  (3818372437690821163319968363336748,34); (3863727627234100836425581836655867,35);
  (4208073300010811000386494693193003,34); (3926180664368558836253165049276169,35);
  (4602780976956222612090414584036797,34); (3963811128418423550507788587725391,35);
  (5000000000000000000000000000000000,34); (3976381106972142620870909830292550,35);
  (5397219023043777387909585415963203,34); (3963811128418423550507788587725391,35);
  (5791926699989188999613505306806997,34); (3926180664368558836253165049276169,35);
  (6181627562309178836680031636663252,34); (3863727627234100836425581836655867,35);
  (6563857796240929612679984558928144,34); (3776846866141802885239222349540469,35);
  (6936200819857807279269409828184813,34); (3666087670713430869057696643252412,35);
  (7296302561545680243316233165547862,34); (3532150298530438038505746576406556,35);
  (7641886343302187369481718179041113,34); (3375881548311563268151066402322433,35);
  (7970767274786389943464450373095531,34); (3198269406934119449335320220503183,35);
  (8280866067160054553672129674881281,34); (3000436804429807478747088677440972,35);
  (8570222179472673395669335180759155,34); (2783634517045814995369556989484072,35);
  (8837006214655317499161362021141715,34); (2549233264606470260701051683829063,35);
  (9079531487150715521766163392048149,34); (2298715055445831594208831969961637,35);
  (9296264689999530769568987195630212,34); (2033663842396692196952827804113073,35);
  (9485835596464964439241455454304069,34); (1755755574906566538053259264861640,35);
  (9647045742433691148489084821788673,34); (1466747799195168929607799317812570,35);
  (9778876061623261385554459485955411,34); (1168469241608908229735617222146232,35);
  (9880493546667355269224251599447593,34); (8628114546862459520402735591677568,36);
  (9951257684273429918198875586235391,34); (5517394469582297121338402726088632,36);
  (9990736915332164530027361514259102,34); (2376472345817550685388106577453486,36)].
Definition gauss_40 : list (Z * Z) := [
  (8811451447203998251886487897067687,37); (2260638549266595629235866439092650,36);
  (4636880650271496773472823889313901,36); (5249142265576406807371085533639807,36);
  (1137002500811286866831485814354811,35); (8210529190953944356431742441181921,36);
  (2104159039310417209772950027362032,35); (1112292459708347863075216209210430,35);
  (3359359586066173331957391657739713,35); (1396850349001170054924457875386050,35);
  (4895059651556285163587333456575343,35); (1673009764127392369633909154320537,35);
  (6702024839387024808960909582269003,35); (1939108398723600881998601564522312,35);
  (8769388458334416840183988466695062,35); (2193545409283663599583734302085774,35);
  (1108471742867403061525142272467526,34); (2434790381753611603071708022407320,35);
  (1363408724050364483595017741225347,34); (2661392349196841217749823988613030,35);
  (1640216576929102258103227425192529,34); (2871988454969577568330886545521299,35);
  (1937230551660098810236937748846526,34); (3065312124646446958326899820419926,35);
  (2252664374524358989620343472352410,34); (3240200672830051903727726478337636,35);
  (2584620991569106435457167128775885,34); (3395602290761695191284505411596200,35);
  (2931103978141974992375601270981431,34); (3530582369564338984774181542764340,35);
  (3290029545871207634962537594104028,34); (3644329119790202953025534172125889,35);
  (3659239074963731594294078275957019,34); (3736158452898413210009466813066232,35);
  (4036512096493144501422415739674251,34); (3805518095031312118577903796124744,35);
  (4419579646623723957582743577959879,34); (3851990908212398279415376714190516,35);
  (4806137912469745890334032779876884,34); (3875297398921240563186198147916313,35);
  (5193862087530254109665967220123117,34); (3875297398921240563186198147916313,35);
  (5580420353376276042417256422040121,34); (3851990908212398279415376714190516,35);
  (5963487903506855498577584260325749,34); (3805518095031312118577903796124744,35);
  (6340760925036268405705921724042981,34); (3736158452898413210009466813066232,35);
  (6709970454128792365037462405895972,34); (3644329119790202953025534172125889,35);
  (7068896021858025007624398729018569,34); (3530582369564338984774181542764340,35);
  (7415379008430893564542832871224115,34); (3395602290761695191284505411596200,35);
  (7747335625475641010379656527647590,34); (3240200672830051903727726478337636,35);
  (8062769448339901189763062251153474,34); (3065312124646446958326899820419926,35);
  (8359783423070897741896772574807471,34); (2871988454969577568330886545521299,35);
  (8636591275949635516404982258774653,34); (2661392349196841217749823988613030,35);
  (8891528257132596938474857727532475,34); (2434790381753611603071708022407320,35);
  (9123061154166558315981601153330494,34); (2193545409283663599583734302085774,35);
  (9329797516061297519103909041773099,34); (1939108398723600881998601564522312,35);
  (9510494034844371483641266654342466,34); (1673009764127392369633909154320537,35);
  (9664064041393382666804260834226029,34); (1396850349001170054924457875386050,35);
  (9789584096068958279022704997263797,34); (1112292459708347863075216209210430,35);
  (9886299749918871313316851418564519,34); (8210529190953944356431742441181921,36);
  (9953631193497285032265271761106861,34); (5249142265576406807371085533639807,36);
  (9991188548552796001748113512102932,34); (2260638549266595629235866439092650,36)].
Definition gauss_41 : list (Z * Z) := [
  (8392057126142792404057459558112082,37); (2153070179082443842002238952327201,36);
  (4416445150491845874920552713415146,36); (4999969386952972669248148314849385,36);
  (1083066321945830776541464666301641,35); (7822469203909294265413422239766811,36);
  (2004655413482688695027915196565673,35); (1060053168438977653784851674668832,35);
  (3201150625107308715884086235761685,35); (1331794960355522273377428762935668,35);
  (4665702762094941352082979338463850,35); (1595910586584964089353347342857280,35);
  (6389924415377929558316471288283529,35); (1850885835175399421763062579008039,35);
  (8363939979931933437786361047572810,35); (2095259759795484471467013715552445,35);
  (1057644274762953136318891092666148,34); (2327632418450717103037829343230571,35);
  (1301475984650369094699156277657205,34); (2546672714730874739058517855784431,35);
  (1566492489825243552076980717354326,34); (2751125962128937094007340508571123,35);
  (1851175804639018397556754541524482,34); (2939821047493597249559292669036713,35);
  (2153895291948920651726263923585099,34); (3111677129048315823578670854167326,35);
  (2472917004002969836458319648986526,34); (3265709822676370521808185632689817,35);
  (2806413614742964557414400716359804,34); (3401036838043838336776661986312450,35);
  (3152474886797592792858165433500324,34); (3516883031040874874082949498494068,35);
  (3509118613290875670385085597605379,34); (3612584843051153669817319917439365,35);
  (3874301971832886121971068716722639,34); (3687594101361173496964040916242435,35);
  (4245933225680039182128110160577088,34); (3741481158811077594565253631675268,35);
  (4621883705054185015381169031743999,34); (3773937354635791201362353133730833,35);
  (5000000000000000000000000000000000,34); (3784776782364918615938998053818013,35);
  (5378116294945814984618830968256002,34); (3773937354635791201362353133730833,35);
  (5754066774319960817871889839422912,34); (3741481158811077594565253631675268,35);
  (6125698028167113878028931283277361,34); (3687594101361173496964040916242435,35);
  (6490881386709124329614914402394621,34); (3612584843051153669817319917439365,35);
  (6847525113202407207141834566499676,34); (3516883031040874874082949498494068,35);
  (7193586385257035442585599283640196,34); (3401036838043838336776661986312450,35);
  (7527082995997030163541680351013473,34); (3265709822676370521808185632689817,35);
  (7846104708051079348273736076414902,34); (3111677129048315823578670854167326,35);
  (8148824195360981602443245458475517,34); (2939821047493597249559292669036713,35);
  (8433507510174756447923019282645674,34); (2751125962128937094007340508571123,35);
  (8698524015349630905300843722342795,34); (2546672714730874739058517855784431,35);
  (8942355725237046863681108907333852,34); (2327632418450717103037829343230571,35);
  (9163606002006806656221363895242719,34); (2095259759795484471467013715552445,35);
  (9361007558462207044168352871171648,34); (1850885835175399421763062579008039,35);
  (9533429723790505864791702066153615,34); (1595910586584964089353347342857280,35);
  (9679884937489269128411591376423831,34); (1331794960355522273377428762935668,35);
  (9799534458651731130497208480343433,34); (1060053168438977653784851674668832,35);
  (9891693367805416922345853533369835,34); (7822469203909294265413422239766811,36);
  (9955835548495081541250794472865849,34); (4999969386952972669248148314849385,36);
  (9991607942873857207595942540441888,34); (2153070179082443842002238952327201,36)].
Definition gauss_42 : list (Z * Z) := [
  (8001905049687924885659365764748410,37); (2052999302324542305301389748417928,36);
  (4211355829569540103819373359565600,36); (4768110150874251205910050146349010,36);
  (1032874596812590314550871672857195,35); (7461221848678747072338839052932883,36);
  (1912031733089775562653642107333864,35); (1011393478452632237852785953967709,35);
  (3053822132250591073341328318720401,35); (1271147976305652394337122145471541,35);
  (4452013754793627370807606039574673,35); (1523962034980173418145236676169621,35);
  (6098971509391362864400744826068821,35); (1768453554879605541633109056325380,35);
  (7985700836909154953728000245695009,35); (2003286759034613088029806241501851,35);
  (1010189733722562933836470237268117,34); (2227178888598293893715818299261707,35);
  (1243600321552597552157639120426707,34); (2438907039640162251372468156420138,35);
  (1497527047219143931292150354722672,34); (2637314784958703517197126952204872,35);
  (1770583055653760830212518481407942,34); (2821318467900919082321342756984785,35);
  (2061277012574453385796443272630021,34); (2989913111379332715641577287676740,35);
  (2368021250344038562035662206040493,34); (3142177902250128820465912566188997,35);
  (2689140439647890351204624850346820,34); (3277281218245448946350255392589724,35);
  (3022880739785124711614530227028140,34); (3394485168826097242768170110688317,35);
  (3367419377672942439014217053122671,34); (3493149624629707988307739319074109,35);
  (3720874603285604580167926044906458,34); (3572735713258549146090522205873110,35);
  (4081315967175727245736221803096285,34); (3632808762190205244395288074626653,35);
  (4446774863957400658254387274986795,34); (3673040672673376413201412852715199,35);
  (4815255284173241120934520099812203,34); (3693211711608643999819278057489568,35);
  (5184744715826758879065479900187798,34); (3693211711608643999819278057489568,35);
  (5553225136042599341745612725013205,34); (3673040672673376413201412852715199,35);
  (5918684032824272754263778196903715,34); (3632808762190205244395288074626653,35);
  (6279125396714395419832073955093542,34); (3572735713258549146090522205873110,35);
  (6632580622327057560985782946877329,34); (3493149624629707988307739319074109,35);
  (6977119260214875288385469772971860,34); (3394485168826097242768170110688317,35);
  (7310859560352109648795375149653180,34); (3277281218245448946350255392589724,35);
  (7631978749655961437964337793959507,34); (3142177902250128820465912566188997,35);
  (7938722987425546614203556727369979,34); (2989913111379332715641577287676740,35);
  (8229416944346239169787481518592058,34); (2821318467900919082321342756984785,35);
  (8502472952780856068707849645277327,34); (2637314784958703517197126952204872,35);
  (8756399678447402447842360879573294,34); (2438907039640162251372468156420138,35);
  (8989810266277437066163529762731884,34); (2227178888598293893715818299261707,35);
  (9201429916309084504627199975430499,34); (2003286759034613088029806241501851,35);
  (9390102849060863713559925517393118,34); (1768453554879605541633109056325380,35);
  (9554798624520637262919239396042533,34); (1523962034980173418145236676169621,35);
  (9694617786774940892665867168127960,34); (1271147976305652394337122145471541,35);
  (9808796826691022443734635789266614,34); (1011393478452632237852785953967709,35);
  (9896712540318740968544912832714280,34); (7461221848678747072338839052932883,36);
  (9957886441704304598961806266404344,34); (4768110150874251205910050146349010,36);
  (9991998094950312075114340634235252,34); (2052999302324542305301389748417928,36)].
Definition gauss_43 : list (Z * Z) := [
  (7638338787461432411819063408038143,37); (1959745126922063641483582596288242,36);
  (4020221203377926789640829335190999,36); (4551998318700701659434304147948410,36);
  (9860889509872334247235308909431821,36); (7124378215788243054270800861002126,36);
  (1825669349296000329490251821287804,35); (9659950711841950198062305446035671,36);
  (2916402157618106909076130480103085,35); (1214522830691940795100916212712465,35);
  (4252604639693063527194856460035719,35); (1456720663074924745797021241289063,35);
  (5827311739069156833116099417891630,35); (1691324604343014617248423787690100,35);
  (7632314189534247550045695708910376,35); (1917111109706632878606421233142459,35);
  (9658201793153068236046262956124394,35); (2132902859899104188190360266925696,35);
  (1189441264025224392698357684854769,34); (2337574737717329000532338316855149,35);
  (1432928823655214725740395610045480,34); (2530059639219507826192519947650738,35);
  (1695013431242509334174326181293273,34); (2709354015944089343168658916313270,35);
  (1974328701801995321374584644380224,34); (2874523097845525971380445842220824,35);
  (2269418416699576404297974764101696,34); (3024705762499564725983937099568139,35);
  (2578744116071326379651832826257431,34); (3159119022469805616281490888670415,35);
  (2900693119853653737563603027197160,34); (3277062106316139874561688212460392,35);
  (3233586935678480966772618179282661,34); (3377920111468258459620395237813279,35);
  (3575690009835431864471385525808310,34); (3461167209682834214114973956131756,35);
  (3925218775697408954925608092631625,34); (3526369388254251406314317773897040,35);
  (4280350952446433446148500311946277,34); (3573186712625707064879055885145511,35);
  (4639235045627068822888363745222194,34); (3601375098571098717265377583542853,35);
  (5000000000000000000000000000000000,34); (3610787584689949398873116585686844,35);
  (5360764954372931177111636254777805,34); (3601375098571098717265377583542853,35);
  (5719649047553566553851499688053723,34); (3573186712625707064879055885145511,35);
  (6074781224302591045074391907368374,34); (3526369388254251406314317773897040,35);
  (6424309990164568135528614474191690,34); (3461167209682834214114973956131756,35);
  (6766413064321519033227381820717339,34); (3377920111468258459620395237813279,35);
  (7099306880146346262436396972802840,34); (3277062106316139874561688212460392,35);
  (7421255883928673620348167173742569,34); (3159119022469805616281490888670415,35);
  (7730581583300423595702025235898304,34); (3024705762499564725983937099568139,35);
  (8025671298198004678625415355619775,34); (2874523097845525971380445842220824,35);
  (8304986568757490665825673818706727,34); (2709354015944089343168658916313270,35);
  (8567071176344785274259604389954520,34); (2530059639219507826192519947650738,35);
  (8810558735974775607301642315145230,34); (2337574737717329000532338316855149,35);
  (9034179820684693176395373704387561,34); (2132902859899104188190360266925696,35);
  (9236768581046575244995430429108962,34); (1917111109706632878606421233142459,35);
  (9417268826093084316688390058210837,34); (1691324604343014617248423787690100,35);
  (9574739536030693647280514353996429,34); (1456720663074924745797021241289063,35);
  (9708359784238189309092386951989692,34); (1214522830691940795100916212712465,35);
  (9817433065070399967050974817871220,34); (9659950711841950198062305446035671,36);
  (9901391104901276657527646910905682,34); (7124378215788243054270800861002126,36);
  (9959797787966220732103591706648090,34); (4551998318700701659434304147948410,36);
  (9992361661212538567588180936591962,34); (1959745126922063641483582596288242,36)].
Definition gauss_44 : list (Z * Z) := [
  (7298996816128875319716396966748276,37); (1872702401556388757586889415880797,36);
  (3841803930742095758330998193230702,36); (4350240683762422061282811712156604,36);
  (9424083461043016668625497324756085,36); (6809793377789992760102533195030679,36);
  (1745017478875343030280097470988250,35); (9235740868407374586021111871699910,36);
  (2788024544090295039837267348650539,35); (1161574095100960531447913146936578,35);
  (4066237000791211283849945665287398,35); (1393789141064050504055714588969353,35);
  (5573288085697839883081604490483885,35); (1619061140603491044042346977005581,35);
  (7301670249764481063584887935365807,35); (1836267390690443682145464617435090,35);
  (9242773017743249475628118212402972,35); (2044325615517310945422358464153419,35);
  (1138692603756220504911207253840060,34); (2242199204098501572312159320152556,35);
  (1372344731696414986965175316400232,34); (2428902322417601876381971834564636,35);
  (1624069646669388173331504807180500,34); (2603504804585223094061590149659937,35);
  (1892613270482120760987876504391166,34); (2765136778186402627437331632157646,35);
  (2176637734072646157876815903089624,34); (2912992993879774766710534492213863,35);
  (2474728043058988410086008238544114,34); (3046336835078098401927891843718706,35);
  (2785399127372942580825867031763432,34); (3164503986660192747506943550985751,35);
  (3107103239926464337441176636139011,34); (3266905743959071749212044742281114,35);
  (3438237667486070938817274182135108,34); (3353031945314682619785245967585964,35);
  (3777152715358993742463487826297407,34); (3422453513468333049272933035217496,35);
  (4122159926122416071267461253095117,34); (3474824593078628901854204546250565,35);
  (4471540491456733764413470755424391,34); (3509884273677910629357102097219968,35);
  (4823553815179323204709016476842918,34); (3527457889467703440566914374014997,35);
  (5176446184820676795290983523157082,34); (3527457889467703440566914374014997,35);
  (5528459508543266235586529244575609,34); (3509884273677910629357102097219968,35);
  (5877840073877583928732538746904883,34); (3474824593078628901854204546250565,35);
  (6222847284641006257536512173702593,34); (3422453513468333049272933035217496,35);
  (6561762332513929061182725817864892,34); (3353031945314682619785245967585964,35);
  (6892896760073535662558823363860989,34); (3266905743959071749212044742281114,35);
  (7214600872627057419174132968236568,34); (3164503986660192747506943550985751,35);
  (7525271956941011589913991761455887,34); (3046336835078098401927891843718706,35);
  (7823362265927353842123184096910376,34); (2912992993879774766710534492213863,35);
  (8107386729517879239012123495608834,34); (2765136778186402627437331632157646,35);
  (8375930353330611826668495192819499,34); (2603504804585223094061590149659937,35);
  (8627655268303585013034824683599768,34); (2428902322417601876381971834564636,35);
  (8861307396243779495088792746159941,34); (2242199204098501572312159320152556,35);
  (9075722698225675052437188178759703,34); (2044325615517310945422358464153419,35);
  (9269832975023551893641511206463419,34); (1836267390690443682145464617435090,35);
  (9442671191430216011691839550951611,34); (1619061140603491044042346977005581,35);
  (9593376299920878871615005433471260,34); (1393789141064050504055714588969353,35);
  (9721197545590970496016273265134946,34); (1161574095100960531447913146936578,35);
  (9825498252112465696971990252901175,34); (9235740868407374586021111871699910,36);
  (9905759165389569833313745026752439,34); (6809793377789992760102533195030679,36);
  (9961581960692579042416690018067693,34); (4350240683762422061282811712156604,36);
  (9992701003183871124680283603033252,34); (1872702401556388757586889415880797,36)].
Definition gauss_45 : list (Z * Z) := [
  (6981774090316809217261615495897248,37); (1791331577641779465571514329675713,36);
  (3675000776398129125691439701132314,36); (4161594648109120822867926561116882,36);
  (9015642482729715880340763182829280,36); (6515552495791392160315541234843484,36);
  (1669584480155269763178741955376096,35); (8838767628968795308546273334788508,36);
  (2667915450218546910763970152308144,35); (1111992377528936619697537927608449,35);
  (3891803164049980595126631951973633,35); (1334810698378883240283738939655382,35);
  (5335416412337913076767547425347134,35); (1551268746725773358125396944688404,35);
  (6991876201966788733046056471643281,35); (1760334610080450812384989913078755,35);
  (8853288974895683148211236998674899,35); (1961011836465122378209359267196464,35);
  (1091078437030468543438184059506986,34); (2152344035458248557584555654058345,35);
  (1315455755272548236881305757025540,34); (2333419385918668263388423787082698,35);
  (1557391596143997373839900870597809,34); (2503374961897601489956605123743718,35);
  (1815733027733883203643880770483084,34); (2661400836563447597295202200965517,35);
  (2089248937153234066595163327779114,34); (2806743937989323832196197018743488,35);
  (2376635897685419664544329497699188,34); (2938711635942086928718075881591577,35);
  (2676524380401824507101992488451257,34); (3056675041553326125094318526816280,35);
  (2987485280707290429610127457258268,34); (3160072003690996887498186514533344,35);
  (3308036728746989191782979499840635,34); (3248409787536171542691328517953788,35);
  (3636651151238112196956173041921774,34); (3321267422492126404145735781955186,35);
  (3971762551083681271401063872642280,34); (3378297708180376813545511193682435,35);
  (4311773970083734856217049792884672,34); (3419228868933483726584604966715807,35);
  (4655065099184279137547926929480941,34); (3443865848883066144100142414902791,35);
  (5000000000000000000000000000000000,34); (3452091241461601005539927757970237,35);
  (5344934900815720862452073070519059,34); (3443865848883066144100142414902791,35);
  (5688226029916265143782950207115328,34); (3419228868933483726584604966715807,35);
  (6028237448916318728598936127357720,34); (3378297708180376813545511193682435,35);
  (6363348848761887803043826958078226,34); (3321267422492126404145735781955186,35);
  (6691963271253010808217020500159365,34); (3248409787536171542691328517953788,35);
  (7012514719292709570389872542741732,34); (3160072003690996887498186514533344,35);
  (7323475619598175492898007511548743,34); (3056675041553326125094318526816280,35);
  (7623364102314580335455670502300812,34); (2938711635942086928718075881591577,35);
  (7910751062846765933404836672220886,34); (2806743937989323832196197018743488,35);
  (8184266972266116796356119229516916,34); (2661400836563447597295202200965517,35);
  (8442608403856002626160099129402191,34); (2503374961897601489956605123743718,35);
  (8684544244727451763118694242974460,34); (2333419385918668263388423787082698,35);
  (8908921562969531456561815940493014,34); (2152344035458248557584555654058345,35);
  (9114671102510431685178876300132511,34); (1961011836465122378209359267196464,35);
  (9300812379803321126695394352835672,34); (1760334610080450812384989913078755,35);
  (9466458358766208692323245257465287,34); (1551268746725773358125396944688404,35);
  (9610819683595001940487336804802636,34); (1334810698378883240283738939655382,35);
  (9733208454978145308923602984769186,34); (1111992377528936619697537927608449,35);
  (9833041551984473023682125804462390,34); (8838767628968795308546273334788508,36);
  (9909843575172702841196592368171707,34); (6515552495791392160315541234843484,36);
  (9963249992236018708743085602988677,34); (4161594648109120822867926561116882,36);
  (9993018225909683190782738384504103,34); (1791331577641779465571514329675713,36)].
Definition gauss_46 : list (Z * Z) := [
  (6684789330910094358657913045556041,37); (1715150434053524143009391574021699,36);
  (3518825546912817963452277666903311,36); (3984949114862311225806519463162482,36);
  (8633165097916568261010210170405628,36); (6239941885494342103367285875491699,36);
  (1598930407300402863112596681409226,35); (8466757003918119023115356835880209,36);
  (2555381827695510218889323028154293,35); (1065499937706825052723968053543923,35);
  (3728310059662302451125432115043790,35); (1279464319856500531734975610017201,35);
  (5112364423302901714934002434010937,35); (1487591477610137789952586461786153,35);
  (6701230256657096854205561159170076,35); (1688931399955344826030194694057266,35);
  (8487658146696697348380734760459694,35); (1882565267869303566383039961422954,35);
  (1046349714623628724054279262898488,34); (2067609505483936485211008793511569,35);
  (1261973201921669729998317473659985,34); (2243219763865906338354730678138743,35);
  (1494652439897971512439389552867498,34); (2408594755085610026523443161161044,35);
  (1743325768990011424467614220915703,34); (2562979900357151066768264968572403,35);
  (2006858551436424234114137331999163,34); (2705670769292837724581882162961153,35);
  (2284048348690986823645186544855616,34); (2836016292199561790843720180164337,35);
  (2573630408059176686138399031457726,34); (2953421729777315740377536131845385,35);
  (2874283433585858013389265682857163,34); (3057351386232524050767830395209552,35);
  (3184635614895021449381465107426741,34); (3147331053219725408947597612355548,35);
  (3503270886490649922582803717110481,34); (3222950173356953479413971955412752,35);
  (3828735388968651156869719422131037,34); (3283863713389060368937878284277787,35);
  (4159544102664482356966016312861489,34); (3329793738422744368788098321136689,35);
  (4494187623472078802420701714956753,34); (3360530680033908793118707741354878,35);
  (4831139049919739792402210840542801,34); (3375934292451822941010709458215052,35);
  (5168860950080260207597789159457199,34); (3375934292451822941010709458215052,35);
  (5505812376527921197579298285043247,34); (3360530680033908793118707741354878,35);
  (5840455897335517643033983687138511,34); (3329793738422744368788098321136689,35);
  (6171264611031348843130280577868963,34); (3283863713389060368937878284277787,35);
  (6496729113509350077417196282889519,34); (3222950173356953479413971955412752,35);
  (6815364385104978550618534892573259,34); (3147331053219725408947597612355548,35);
  (7125716566414141986610734317142837,34); (3057351386232524050767830395209552,35);
  (7426369591940823313861600968542274,34); (2953421729777315740377536131845385,35);
  (7715951651309013176354813455144384,34); (2836016292199561790843720180164337,35);
  (7993141448563575765885862668000837,34); (2705670769292837724581882162961153,35);
  (8256674231009988575532385779084297,34); (2562979900357151066768264968572403,35);
  (8505347560102028487560610447132502,34); (2408594755085610026523443161161044,35);
  (8738026798078330270001682526340014,34); (2243219763865906338354730678138743,35);
  (8953650285376371275945720737101512,34); (2067609505483936485211008793511569,35);
  (9151234185330330265161926523954031,34); (1882565267869303566383039961422954,35);
  (9329876974334290314579443884082992,34); (1688931399955344826030194694057266,35);
  (9488763557669709828506599756598907,34); (1487591477610137789952586461786153,35);
  (9627168994033769754887456788495621,34); (1279464319856500531734975610017201,35);
  (9744461817230448978111067697184571,34); (1065499937706825052723968053543923,35);
  (9840106959269959713688740331859078,34); (8466757003918119023115356835880209,36);
  (9913668349020834317389897898295943,34); (6239941885494342103367285875491699,36);
  (9964811744530871820365477223330966,34); (3984949114862311225806519463162482,36);
  (9993315210669089905641342086954444,34); (1715150434053524143009391574021699,36)].
Definition gauss_47 : list (Z * Z) := [
  (6406357078939454080261426064457754,37); (1643726921264007441624982104168096,36);
  (3372394506115682653905157683768217,36); (3819308147924416807052178385565869,36);
  (8274498464188145617549482981915059,36); (5981424232156160481971727424974230,36);
  (1532660633671775142712786121986462,35); (8117666573216529835362843703949266,36);
  (2449801537114577870509853807427880,35); (1021846907383421382101738034312770,35);
  (3574865349381967590140753769433953,35); (1227460582982940926891707857625284,35);
  (4902933528073732156641434901128218,35); (1427707535032169325236996231290553,35);
  (6428199210155184152950726772219690,35); (1621711775759237838380873158708502,35);
  (8143993005004893936120052571682380,35); (1808624829208747580672996488315560,35);
  (1004281229161290285422189653982035,34); (1987629306126550189045069007098052,35);
  (1211635407772806832130017382151589,34); (2157942432423976913415089672325157,35);
  (1435555132954678491690603361144906,34); (2318819454325295560220092412137255,35);
  (1675061263048336354316486757139555,34); (2469556887368058480228524293100247,35);
  (1929106500218131957022687286978732,34); (2609495589002857243610597085483802,35);
  (2196579970326679027584708412908656,34); (2738023639076511297856258844425245,35);
  (2476312080682110401128554873243494,34); (2854579014661577011100830265419138,35);
  (2767079634475721486374089288252960,34); (2958652047116943798807727819287066,35);
  (3067611179576664302083488061969884,34); (3049787650436982266535528906671874,35);
  (3376592568311320488946193504100015,34); (3127587311046083132028219072497679,35);
  (3692672703925127148465085168974145,34); (3191710830285851531564688992790675,35);
  (4014469448604440960192543208147477,34); (3241877811947286335130196955540295,35);
  (4340575667227425514730882346379364,34); (3277868888327487012557150116303796,35);
  (4669565380418221624197631112629331,34); (3299526679440523726678532766524912,35);
  (5000000000000000000000000000000000,34); (3306756481182773982672017716552748,35);
  (5330434619581778375802368887370669,34); (3299526679440523726678532766524912,35);
  (5659424332772574485269117653620636,34); (3277868888327487012557150116303796,35);
  (5985530551395559039807456791852523,34); (3241877811947286335130196955540295,35);
  (6307327296074872851534914831025855,34); (3191710830285851531564688992790675,35);
  (6623407431688679511053806495899985,34); (3127587311046083132028219072497679,35);
  (6932388820423335697916511938030117,34); (3049787650436982266535528906671874,35);
  (7232920365524278513625910711747040,34); (2958652047116943798807727819287066,35);
  (7523687919317889598871445126756506,34); (2854579014661577011100830265419138,35);
  (7803420029673320972415291587091344,34); (2738023639076511297856258844425245,35);
  (8070893499781868042977312713021268,34); (2609495589002857243610597085483802,35);
  (8324938736951663645683513242860446,34); (2469556887368058480228524293100247,35);
  (8564444867045321508309396638855094,34); (2318819454325295560220092412137255,35);
  (8788364592227193167869982617848411,34); (2157942432423976913415089672325157,35);
  (8995718770838709714577810346017965,34); (1987629306126550189045069007098052,35);
  (9185600699499510606387994742831762,34); (1808624829208747580672996488315560,35);
  (9357180078984481584704927322778031,34); (1621711775759237838380873158708502,35);
  (9509706647192626784335856509887178,34); (1427707535032169325236996231290553,35);
  (9642513465061803240985924623056604,34); (1227460582982940926891707857625284,35);
  (9755019846288542212949014619257213,34); (1021846907383421382101738034312770,35);
  (9846733936632822485728721387801353,34); (8117666573216529835362843703949266,36);
  (9917255015358118543824505170180849,34); (5981424232156160481971727424974230,36);
  (9966276054938843173460948423162318,34); (3819308147924416807052178385565869,36);
  (9993593642921060545919738573935542,34); (1643726921264007441624982104168096,36)].
Definition gauss_48 : list (Z * Z) := [
  (6144963737869406997292542184431495,37); (1576673026152919316338655771945656,36);
  (3234913866824621226035624575462932,36); (3663776950638131051191989810893210,36);
  (7937708138586571127708199986700593,36); (5738617289617269744796333804545862,36);
  (1470420372687637476929400809966995,35); (7789657861471924364088477917230152,36);
  (2350614841978456963851966698714084,35); (9808080228677763907230359826106408,36);
  (3430665464672283344291280994919938,35); (1178538041966218957025965068922472,35);
  (4706043164221516358896258216449409,35); (1371325485417847410003691813125292,35);
  (6171398986287605704715322259745162,35); (1558361391639904445103287842317716,35);
  (7820586918780323464445507774017200,35); (1738861128238521944627429298190121,35);
  (9646689798527868645872347848773078,35); (1912067553291535315860862826185783,35);
  (1164204837421298303730722812385155,34); (2077254147173237460702941118053236,35);
  (1379829345380926726627588832531674,34); (2233728042834714020972429356292520,35);
  (1610638101836680473940743596620455,34); (2380832924624523741295331173946492,35);
  (1855663016117431880024175334650027,34); (2517951777692723747890380954393278,35);
  (2113876369580136480910953807297606,34); (2644509474259683354775252813234945,35);
  (2384195126388834831608870654312457,34); (2759975184999208143410174759581774,35);
  (2665485476245207977275355691746008,34); (2863864605020160785257511734235031,35);
  (2956567590046416350418872520926834,34); (2955741984919781787323740871675997,35);
  (3256220568539196309200910313647961,34); (3035221958294694002648461601391026,35);
  (3563187563222722116320567693416011,34); (3101971157994633195209889206879930,35);
  (3876181048026554693875672799126538,34); (3155709614312701282856301137511667,35);
  (4193888219655541409717813046082511,34); (3196211929232409331195310091275773,35);
  (4514976503952686505349730220731878,34); (3223308221797504110325209682885255,35);
  (4838099145185653189833388784239328,34); (3236884840634196125151246936829577,35);
  (5161900854814346810166611215760672,34); (3236884840634196125151246936829577,35);
  (5485023496047313494650269779268123,34); (3223308221797504110325209682885255,35);
  (5806111780344458590282186953917489,34); (3196211929232409331195310091275773,35);
  (6123818951973445306124327200873462,34); (3155709614312701282856301137511667,35);
  (6436812436777277883679432306583989,34); (3101971157994633195209889206879930,35);
  (6743779431460803690799089686352039,34); (3035221958294694002648461601391026,35);
  (7043432409953583649581127479073166,34); (2955741984919781787323740871675997,35);
  (7334514523754792022724644308253992,34); (2863864605020160785257511734235031,35);
  (7615804873611165168391129345687542,34); (2759975184999208143410174759581774,35);
  (7886123630419863519089046192702394,34); (2644509474259683354775252813234945,35);
  (8144336983882568119975824665349974,34); (2517951777692723747890380954393278,35);
  (8389361898163319526059256403379546,34); (2380832924624523741295331173946492,35);
  (8620170654619073273372411167468326,34); (2233728042834714020972429356292520,35);
  (8835795162578701696269277187614845,34); (2077254147173237460702941118053236,35);
  (9035331020147213135412765215122692,34); (1912067553291535315860862826185783,35);
  (9217941308121967653555449222598280,34); (1738861128238521944627429298190121,35);
  (9382860101371239429528467774025484,34); (1558361391639904445103287842317716,35);
  (9529395683577848364110374178355059,34); (1371325485417847410003691813125292,35);
  (9656933453532771665570871900508007,34); (1178538041966218957025965068922472,35);
  (9764938515802154303614803330128592,34); (9808080228677763907230359826106408,36);
  (9852957962731236252307059919003300,34); (7789657861471924364088477917230152,36);
  (9920622918614134288722918000132995,34); (5738617289617269744796333804545862,36);
  (9967650861331753787739643754245371,34); (3663776950638131051191989810893210,36);
  (9993855036262130593002707457815569,34); (1576673026152919316338655771945656,36)].
Definition gauss_49 : list (Z * Z) := [
  (5899246966823103190843636479446535,37); (1513639494461452538740349087913558,36);
  (3105669027916104619943070371023212,36); (3517549795043225736725339155674184,36);
  (7621052042893497820350502315712638,36); (5510275515796790248754144083416673,36);
  (1411889954922230993001378924761295,35); (7481072467812325514792159560100723,36);
  (2257317066293138322237816016590781,35); (9421797926544729222225326695553708,36);
  (3294985262209492547050876968172753,35); (1132460079372333824938548210802148,35);
  (4520717208596335739349017982209996,35); (1318180946353300848047287261987099,35);
  (5929577721349554498148423209149755,35); (1498594231029191267534527903707367,35);
  (7515894007791714948255906387851034,35); (1672973339581108717124357544584464,35);
  (9273278632007228423024960611761148,35); (1840616048150034490973361834944114,35);
  (1119465528272766824909285938757720,34); (2000847288318651068430251837155165,35);
  (1327228728812986518931628935707376,34); (2153021849062979899417274200051923,35);
  (1549780877874339432476240963625291,34); (2296526967779792677124980998606381,35);
  (1786225837903811679715715257080499,34); (2430784794391412013882559864393419,35);
  (2035611529455496437720678316036857,34); (2555254716507229533731140302465930,35);
  (2296933765041369667208872663852821,34); (2669435535412948426397146686508814,35);
  (2569140292737539789115119519707125,34); (2772867483740179434521579074134904,35);
  (2851135033292117376707079290962885,34); (2865134076509373774258229617540828,35);
  (3141782493688575555681327295265197,34); (2945863788001363301226382537124625,35);
  (3439912339401256188960696617467919,34); (3014731547657600865155305843777076,35);
  (3744324106937113632464220285876944,34); (3071460048959646814841332307015053,35);
  (4053792037690932067573449130700067,34); (3115820866002863370053841260797489,35);
  (4367070013651639744660073557122319,34); (3147635373259784973719977789144549,35);
  (4682896575086566069855825895607575,34); (3166775464824587429541846370004527,35);
  (5000000000000000000000000000000000,34); (3173164070239529885912673393976482,35);
  (5317103424913433930144174104392425,34); (3166775464824587429541846370004527,35);
  (5632929986348360255339926442877682,34); (3147635373259784973719977789144549,35);
  (5946207962309067932426550869299932,34); (3115820866002863370053841260797489,35);
  (6255675893062886367535779714123057,34); (3071460048959646814841332307015053,35);
  (6560087660598743811039303382532081,34); (3014731547657600865155305843777076,35);
  (6858217506311424444318672704734802,34); (2945863788001363301226382537124625,35);
  (7148864966707882623292920709037115,34); (2865134076509373774258229617540828,35);
  (7430859707262460210884880480292875,34); (2772867483740179434521579074134904,35);
  (7703066234958630332791127336147180,34); (2669435535412948426397146686508814,35);
  (7964388470544503562279321683963143,34); (2555254716507229533731140302465930,35);
  (8213774162096188320284284742919501,34); (2430784794391412013882559864393419,35);
  (8450219122125660567523759036374709,34); (2296526967779792677124980998606381,35);
  (8672771271187013481068371064292624,34); (2153021849062979899417274200051923,35);
  (8880534471727233175090714061242281,34); (2000847288318651068430251837155165,35);
  (9072672136799277157697503938823885,34); (1840616048150034490973361834944114,35);
  (9248410599220828505174409361214897,34); (1672973339581108717124357544584464,35);
  (9407042227865044550185157679085025,34); (1498594231029191267534527903707367,35);
  (9547928279140366426065098201779000,34); (1318180946353300848047287261987099,35);
  (9670501473779050745294912303182725,34); (1132460079372333824938548210802148,35);
  (9774268293370686167776218398340922,34); (9421797926544729222225326695553708,36);
  (9858811004507776900699862107523870,34); (7481072467812325514792159560100723,36);
  (9923789479571065021796494976842874,34); (5510275515796790248754144083416673,36);
  (9968943309720838953800569296289767,34); (3517549795043225736725339155674184,36);
  (9994100753033176896809156363520553,34); (1513639494461452538740349087913558,36)].
Definition gauss_50 : list (Z * Z) := [
  (5667977899644749072702775128907413,37); (1454311276577570479200362171427757,36);
  (2984015283954643707445899789652634,36); (3379899597872700751389439088992500,36);
  (7322957975997058845495187183755283,36); (5295274191825484631784840749620517,36);
  (1356780744665396314332794769687396,35); (7190411380742787209689454463662204,36);
  (2169452237859602850112717792168897,35); (9057780356744695175629971711177336,36);
  (3167169052756103310956252636375172,35); (1089012158506239649079603453134517,35);
  (4346072167210405345513217861417145,35); (1268033678500619522009743919272134,35);
  (5701601023819347568122950876662319,35); (1442149679026759901495318655661620,35);
  (7228511528502695769431867803262125,35); (1610686411178900832408291366150196,35);
  (8920896457033202582187294456303021,35); (1772991780757307708036730550048795,35);
  (1077220835498003680473474018295044,34); (1928437830629383762238507511819299,35);
  (1277528488869657308697318736589029,34); (2076423154507384871120598948203347,35);
  (1492237656465888744552268710581721,34); (2216375216940163774601114341519710,35);
  (1720517671572803196091875679981601,34); (2347752565197421648281650681749382,35);
  (1961485364075248804098091018040835,34); (2470046922473315746062179037571636,35);
  (2214208477426749728422385451870992,34); (2582785153479056924495264792004764,35);
  (2477709275462678991742704340754294,34); (2685531094449812326172939862783227,35);
  (2750968325129806054264342661108121,34); (2777887240310625881178371280613475,35);
  (3032928440512174363028853730880914,34); (2859496282386419186151465753299661,35);
  (3322498772902813215815058713544642,34); (2930042490661122291756121831542420,35);
  (3618559031102340048361773607394349,34); (2989252935213272875478820265629262,35);
  (3919963815619791215763577336914493,34); (3036898542088510801587500769240547,35);
  (4225547050009270489641856895294453,34); (3072794979515833187820339304195769,35);
  (4534126492199569295727748111801998,34); (3096803371034162169204375489041537,35);
  (4844508308364055619438355051670254,34); (3108830832767363116051655368030670,35);
  (5155491691635944380561644948329746,34); (3108830832767363116051655368030670,35);
  (5465873507800430704272251888198002,34); (3096803371034162169204375489041537,35);
  (5774452949990729510358143104705548,34); (3072794979515833187820339304195769,35);
  (6080036184380208784236422663085507,34); (3036898542088510801587500769240547,35);
  (6381440968897659951638226392605651,34); (2989252935213272875478820265629262,35);
  (6677501227097186784184941286455358,34); (2930042490661122291756121831542420,35);
  (6967071559487825636971146269119086,34); (2859496282386419186151465753299661,35);
  (7249031674870193945735657338891879,34); (2777887240310625881178371280613475,35);
  (7522290724537321008257295659245706,34); (2685531094449812326172939862783227,35);
  (7785791522573250271577614548129008,34); (2582785153479056924495264792004764,35);
  (8038514635924751195901908981959165,34); (2470046922473315746062179037571636,35);
  (8279482328427196803908124320018399,34); (2347752565197421648281650681749382,35);
  (8507762343534111255447731289418279,34); (2216375216940163774601114341519710,35);
  (8722471511130342691302681263410971,34); (2076423154507384871120598948203347,35);
  (8922779164501996319526525981704956,34); (1928437830629383762238507511819299,35);
  (9107910354296679741781270554369697,34); (1772991780757307708036730550048795,35);
  (9277148847149730423056813219673787,34); (1610686411178900832408291366150196,35);
  (9429839897618065243187704912333768,34); (1442149679026759901495318655661620,35);
  (9565392783278959465448678213858286,34); (1268033678500619522009743919272134,35);
  (9683283094724389668904374736362483,34); (1089012158506239649079603453134517,35);
  (9783054776214039714988728220783111,34); (9057780356744695175629971711177336,36);
  (9864321925533460368566720523031260,34); (7190411380742787209689454463662204,36);
  (9926770420240029411545048128162447,34); (5295274191825484631784840749620517,36);
  (9970159847160453562925541002103474,34); (3379899597872700751389439088992500,36);
  (9994332022100355250927297224871092,34); (1454311276577570479200362171427757,36)].
Definition gauss_51 : list (Z * Z) := [
  (5450045755482524155020613633071685,37); (1398403585544947787772108440904453,36);
  (2869369781623712689457551025368438,36); (3250168891626300146054687599268734,36);
  (7042004132048501708057146220845203,36); (5092595648910864969618795893303375,36);
  (1304831599033806638412225680290666,35); (6916317003238911148344226510928276,36);
  (2086607569304590272114648084183816,35); (8714357361700526129751823216646258,36);
  (3046622799851880828231609680454742,35); (1047999420085160528989630920075707,35);
  (4181306884510988458821435287426205,35); (1220665028689071713657078270844910,35);
  (5486439098523634836110231463163656,35); (1388789929708123859799783281610444,35);
  (6957164440885381426325212814194435,35); (1551748564508000422721275147827369,35);
  (8588011808846758357259078799171883,35); (1708934660209416811810466929738382,35);
  (1037291439503093973827945608120622,34); (1859763446163014642145413790593553,35);
  (1230523227573122371180199872737630,34); (2003673814274822659340455796069796,35);
  (1437777712114816777097375722999272,34); (2140130399894004332680475712214285,35);
  (1658283894123149565677697902980056,34); (2268625570382503437408340749421893,35);
  (1891221476996383631224786272983420,34); (2388681312031155099999767685367680,35);
  (2135723918243480817388026487049045,34); (2499851007502870488977442768100288,35);
  (2390881653169070787429561075865910,34); (2601721096834854378206822373433119,35);
  (2655745478569794681947713705941888,34); (2693912615652278071704965084848596,35);
  (2929330083868480610315640951276710,34); (2776082604786934650836852954681207,35);
  (3210617716557952451123994557401668,34); (2847925386012933105003886336713855,35);
  (3498561968323340302348771751777898,34); (2909173699129607029921893883088795,35);
  (3792091667761006480766334425653688,34); (2959599696148077189176950387457734,35);
  (4090114865214612273380006494153928,34); (2999015788875162604503199399825861,35);
  (4391522894905556165180897895184095,34); (3027275346736889756906262573387710,35);
  (4695194499247106376329026465783973,34); (3044273242242817194059930711134814,35);
  (5000000000000000000000000000000000,34); (3049946242060294007989882154917803,35);
  (5304805500752893623670973534216027,34); (3044273242242817194059930711134814,35);
  (5608477105094443834819102104815905,34); (3027275346736889756906262573387710,35);
  (5909885134785387726619993505846072,34); (2999015788875162604503199399825861,35);
  (6207908332238993519233665574346312,34); (2959599696148077189176950387457734,35);
  (6501438031676659697651228248222102,34); (2909173699129607029921893883088795,35);
  (6789382283442047548876005442598332,34); (2847925386012933105003886336713855,35);
  (7070669916131519389684359048723290,34); (2776082604786934650836852954681207,35);
  (7344254521430205318052286294058113,34); (2693912615652278071704965084848596,35);
  (7609118346830929212570438924134090,34); (2601721096834854378206822373433119,35);
  (7864276081756519182611973512950955,34); (2499851007502870488977442768100288,35);
  (8108778523003616368775213727016580,34); (2388681312031155099999767685367680,35);
  (8341716105876850434322302097019945,34); (2268625570382503437408340749421893,35);
  (8562222287885183222902624277000728,34); (2140130399894004332680475712214285,35);
  (8769476772426877628819800127262370,34); (2003673814274822659340455796069796,35);
  (8962708560496906026172054391879378,34); (1859763446163014642145413790593553,35);
  (9141198819115324164274092120082811,34); (1708934660209416811810466929738382,35);
  (9304283555911461857367478718580556,34); (1551748564508000422721275147827369,35);
  (9451356090147636516388976853683634,34); (1388789929708123859799783281610444,35);
  (9581869311548901154117856471257380,34); (1220665028689071713657078270844910,35);
  (9695337720014811917176839031954526,34); (1047999420085160528989630920075707,35);
  (9791339243069540972788535191581618,34); (8714357361700526129751823216646258,36);
  (9869516840096619336158777431970934,34); (6916317003238911148344226510928276,36);
  (9929579958679514982919428537791547,34); (5092595648910864969618795893303375,36);
  (9971306302183762873105424489746315,34); (3250168891626300146054687599268734,36);
  (9994549954244517475844979386366928,34); (1398403585544947787772108440904453,36)].
Definition gauss_52 : list (Z * Z) := [
  (5244444480248609545192796417037197,37); (1345658475023555559476089934422610,36);
  (2761204535391985377478364100214161,36); (3127761981486638449858051084907312,36);
  (6776902174225079677338570440801329,36); (4901317289731376030975584058344780,36);
  (1255805788912774842964676480017725,35); (6657557491170480328300172238899614,36);
  (2008408653345672373398742328746728,35); (8390011698150367838960768435260113,36);
  (2932807317932047157821040807471648,35); (1009244575399039610149451710473913,35);
  (4025693554178773005320181172905919,35); (1175875677699223079516125995502731,35);
  (5283155473275233873957795586823621,35); (1338297687325200672474654014300923,35);
  (6700691857696620737782074118789653,35); (1495929057357197332064103436998549,35);
  (8273228383663273251913680518938067,35); (1648205454485939895750502238934761,35);
  (9995135828476583783262062288709619,35); (1794581741754861647097119664264038,35);
  (1186025024031275198603944184554746,34); (1934533915521198949255060337017631,35);
  (1386189501250084031615916619640320,34); (2067560975028013583952014321197754,35);
  (1599290478864161489538806101316795,34); (2193186712950020399756483278938219,35);
  (1824565111523770378509377103555952,34); (2310961418639239675382285266764235,35);
  (2061206975102104650489871092213979,34); (2420463487203744842698012464302312,35);
  (2308368953570862808120244160123216,34); (2521300928317118860910562704142936,35);
  (2565166271509519611087708793267672,34); (2613112769195349651719707221319600,35);
  (2830679661406191648454567158951098,34); (2695570346637863237541841244689998,35);
  (3103958654419531653766591165302756,34); (2768378483465132627452054672560928,35);
  (3384024982825960872494504666992764,34); (2831276545118429859540412023918506,35);
  (3669876081974990862635141347005801,34); (2884039372626341382696599883170176,35);
  (3960488679218169701567669359388273,34); (2926478088590693427514529948581186,35);
  (4254822456965254097556829799909432,34); (2958440773302148518466600119743552,35);
  (4551823776755497172555726544388004,34); (2979813008562407912915543937420746,35);
  (4850429451013306169781596119646000,34); (2990518287264593012389268940573870,35);
  (5149570548986693830218403880354000,34); (2990518287264593012389268940573870,35);
  (5448176223244502827444273455611996,34); (2979813008562407912915543937420746,35);
  (5745177543034745902443170200090568,34); (2958440773302148518466600119743552,35);
  (6039511320781830298432330640611727,34); (2926478088590693427514529948581186,35);
  (6330123918025009137364858652994199,34); (2884039372626341382696599883170176,35);
  (6615975017174039127505495333007236,34); (2831276545118429859540412023918506,35);
  (6896041345580468346233408834697244,34); (2768378483465132627452054672560928,35);
  (7169320338593808351545432841048902,34); (2695570346637863237541841244689998,35);
  (7434833728490480388912291206732327,34); (2613112769195349651719707221319600,35);
  (7691631046429137191879755839876784,34); (2521300928317118860910562704142936,35);
  (7938793024897895349510128907786021,34); (2420463487203744842698012464302312,35);
  (8175434888476229621490622896444048,34); (2310961418639239675382285266764235,35);
  (8400709521135838510461193898683205,34); (2193186712950020399756483278938219,35);
  (8613810498749915968384083380359680,34); (2067560975028013583952014321197754,35);
  (8813974975968724801396055815445255,34); (1934533915521198949255060337017631,35);
  (9000486417152341621673793771129038,34); (1794581741754861647097119664264038,35);
  (9172677161633672674808631948106193,34); (1648205454485939895750502238934761,35);
  (9329930814230337926221792588121034,34); (1495929057357197332064103436998549,35);
  (9471684452672476612604220441317638,34); (1338297687325200672474654014300923,35);
  (9597430644582122699467981882709409,34); (1175875677699223079516125995502731,35);
  (9706719268206795284217895919252835,34); (1009244575399039610149451710473913,35);
  (9799159134665432762660125767125327,34); (8390011698150367838960768435260113,36);
  (9874419421108722515703532351998227,34); (6657557491170480328300172238899614,36);
  (9932230978257749203226614295591987,34); (4901317289731376030975584058344780,36);
  (9972387954646080146225216358997858,34); (3127761981486638449858051084907312,36);
  (9994755555519751390454807203582963,34); (1345658475023555559476089934422610,36)].
Definition gauss_53 : list (Z * Z) := [
  (5050261118358864394728664839002211,37); (1295841860283515905799619719255413,36);
  (2659040345996460681982053258003025,36); (3012138113474336640620853408149865,36);
  (6526482488314239139813459344710894,36); (4720601142470172193331089410162585,36);
  (1209488314250770918350807094681897,35); (6413013072120189589575091484601887,36);
  (1934515268843183381507090315868012,35); (8083362628343731964030414202019906,36);
  (2825232326777906048946466615190361,35); (9725860553818447694023461113748484,36);
  (3878569847859393586609044995874173,35); (1133483652853510419939463761991389,35);
  (5090897106228668703723998501345942,35); (1290474125537875885698094408331469,35);
  (6458035122087932419914995655570294,35); (1443016180891186813139977652179160,35);
  (7975271172709931228493624508502661,35); (1590583922950966153161793101554048,35);
  (9637375079155226088975718098704642,35); (1732668629176711897919386025650537,35);
  (1143861725372338460669820621869801,34); (1868780490174145783708598639269712,35);
  (1337278845962448731089322066391249,34); (1998450292177019106354677289393180,35);
  (1543322121993166382296255884305277,34); (2121231031726000679614081878422519,35);
  (1761281280417449656244469050306833,34); (2236699455183640510638282295928180,35);
  (1990404971431153362678528140176882,34); (2344457517037515701093631978255247,35);
  (2229903358614660594926325045949754,34); (2444133751634957021022420379179207,35);
  (2478950841714332814804415135560210,34); (2535384553464635764824274131726523,35);
  (2736688902690771043084276196233420,34); (2617895361493635909985076049468032,35);
  (3002229065230235113037184318808012,34); (2691381743436551452104072081770133,35);
  (3274655957521388216528446769652495,34); (2755590376196679950117485238293370,35);
  (3553030467741868967867264967029936,34); (2810299919086985490432753104572251,35);
  (3836392981378637031783181789000419,34); (2855321776813359588669166964920949,35);
  (4123766689223371246351044954335524,34); (2890500749585659815984153804862604,35);
  (4414160954640224249298715956103381,34); (2915715568112800377813787816884864,35);
  (4706574728498702674886440270833842,34); (2930879311636013165903596852499448,35);
  (5000000000000000000000000000000000,34); (2935939707558218226274347222106706,35);
  (5293425271501297325113559729166158,34); (2930879311636013165903596852499448,35);
  (5585839045359775750701284043896619,34); (2915715568112800377813787816884864,35);
  (5876233310776628753648955045664476,34); (2890500749585659815984153804862604,35);
  (6163607018621362968216818210999581,34); (2855321776813359588669166964920949,35);
  (6446969532258131032132735032970064,34); (2810299919086985490432753104572251,35);
  (6725344042478611783471553230347505,34); (2755590376196679950117485238293370,35);
  (6997770934769764886962815681191988,34); (2691381743436551452104072081770133,35);
  (7263311097309228956915723803766580,34); (2617895361493635909985076049468032,35);
  (7521049158285667185195584864439790,34); (2535384553464635764824274131726523,35);
  (7770096641385339405073674954050246,34); (2444133751634957021022420379179207,35);
  (8009595028568846637321471859823118,34); (2344457517037515701093631978255247,35);
  (8238718719582550343755530949693167,34); (2236699455183640510638282295928180,35);
  (8456677878006833617703744115694724,34); (2121231031726000679614081878422519,35);
  (8662721154037551268910677933608750,34); (1998450292177019106354677289393180,35);
  (8856138274627661539330179378130198,34); (1868780490174145783708598639269712,35);
  (9036262492084477391102428190129536,34); (1732668629176711897919386025650537,35);
  (9202472882729006877150637549149734,34); (1590583922950966153161793101554048,35);
  (9354196487791206758008500434442971,34); (1443016180891186813139977652179160,35);
  (9490910289377133129627600149865406,34); (1290474125537875885698094408331469,35);
  (9612143015214060641339095500412582,34); (1133483652853510419939463761991389,35);
  (9717476767322209395105353338480964,34); (9725860553818447694023461113748484,36);
  (9806548473115681661849290968413199,34); (8083362628343731964030414202019906,36);
  (9879051168574922908164919290531810,34); (6413013072120189589575091484601887,36);
  (9934735175116857608601865406552892,34); (4720601142470172193331089410162585,36);
  (9973409596540035393180179467419969,34); (3012138113474336640620853408149865,36);
  (9994949738881641135605271335160998,34); (1295841860283515905799619719255413,36)].
Definition gauss_54 : list (Z * Z) := [
  (4866665663295080744644465080207824,37); (1248740917880792887973019378633063,36);
  (2562441490830557540555002025648689,36); (2902805507619992439412943872937650,36);
  (6289681301328220723927139798226885,36); (4549684727754698474016760531209621,36);
  (1165683557104838139999496400584657,35); (6181664064423822083233912130094107,36);
  (1864617710703820837150303654730501,35); (7793151517962065851484454852918364,36);
  (2723451241750207311808148854690979,35); (9378763810734688956003992142035591,36);
  (3739332006667425687186196976010429,35); (1093322571142654297275521326943966,35);
  (4908885685764920962126638430578600,35); (1245137073360438652502748563669454,35);
  (6228227296721553029104533213869462,35); (1392815465529793514350101738195756,35);
  (7692974201461352528705624456357874,35); (1535867124893533802700230495807738,35);
  (9298260704321608226518084796240052,35); (1673816823218632285802022241780541,35);
  (1103875423268729892320256925797337,34); (1806206292019177629144353710371247,35);
  (1290867305954078418571168656232110,34); (1932595739105125841842856952578996,35);
  (1490180551404135403072145115151647,34); (2052565306832248711085910543880219,35);
  (1701153061840084376538550885718898,34); (2165716465479850772096288018525402,35);
  (1923084008344363146350310899191359,34); (2271673336413835698742609037577227,35);
  (2155236159023952851341875829114230,34); (2370083940322249552928820505766179,35);
  (2396838328070334633364914306251179,34); (2460621366226444303439531518440578,35);
  (2647087937593088581583939318361287,34); (2542984857309407215985460348805940,35);
  (2905153683723977359819486512687450,34); (2616900809914937233279434737634254,35);
  (3170178298139044090078339459172563,34); (2682123682377680563605031386262323,35);
  (3441281395827658855587248049239381,34); (2738436810652899315311131735855453,35);
  (3717562399650013499612943927734959,34); (2785653128029499384168490871368557,35);
  (3998103531968932151106987685853510,34); (2823615786531298251552213234088060,35);
  (4281972863418719230264551185506054,34); (2852198677939729928391421712711364,35);
  (4568227408683758923572784111156252,34); (2871306852705605742964506588660342,35);
  (4855916259003291111718820762498865,34); (2880876835357351233618806440293573,35);
  (5144083740996708888281179237501136,34); (2880876835357351233618806440293573,35);
  (5431772591316241076427215888843748,34); (2871306852705605742964506588660342,35);
  (5718027136581280769735448814493946,34); (2852198677939729928391421712711364,35);
  (6001896468031067848893012314146490,34); (2823615786531298251552213234088060,35);
  (6282437600349986500387056072265041,34); (2785653128029499384168490871368557,35);
  (6558718604172341144412751950760619,34); (2738436810652899315311131735855453,35);
  (6829821701860955909921660540827437,34); (2682123682377680563605031386262323,35);
  (7094846316276022640180513487312550,34); (2616900809914937233279434737634254,35);
  (7352912062406911418416060681638714,34); (2542984857309407215985460348805940,35);
  (7603161671929665366635085693748821,34); (2460621366226444303439531518440578,35);
  (7844763840976047148658124170885770,34); (2370083940322249552928820505766179,35);
  (8076915991655636853649689100808642,34); (2271673336413835698742609037577227,35);
  (8298846938159915623461449114281103,34); (2165716465479850772096288018525402,35);
  (8509819448595864596927854884848352,34); (2052565306832248711085910543880219,35);
  (8709132694045921581428831343767890,34); (1932595739105125841842856952578996,35);
  (8896124576731270107679743074202663,34); (1806206292019177629144353710371247,35);
  (9070173929567839177348191520375995,34); (1673816823218632285802022241780541,35);
  (9230702579853864747129437554364213,34); (1535867124893533802700230495807738,35);
  (9377177270327844697089546678613054,34); (1392815465529793514350101738195756,35);
  (9509111431423507903787336156942140,34); (1245137073360438652502748563669454,35);
  (9626066799333257431281380302398957,34); (1093322571142654297275521326943966,35);
  (9727654875824979268819185114530902,34); (9378763810734688956003992142035591,36);
  (9813538228929617916284969634526950,34); (7793151517962065851484454852918364,36);
  (9883431644289516186000050359941535,34); (6181664064423822083233912130094107,36);
  (9937103186986717792760728602017731,34); (4549684727754698474016760531209621,36);
  (9974375585091694424594449979743513,34); (2902805507619992439412943872937650,36);
  (9995133334336704919255355534919792,34); (1248740917880792887973019378633063,36)].
Definition gauss_55 : list (Z * Z) := [
  (4692902175907292602840802403077930,37); (1204161809989894409585096744562670,36);
  (2471011076294062478405441746898799,36); (2799316133280383677041708435929941,36);
  (6065529400555400738807157763263208,36); (4387873053529264088694800341658883,36);
  (1124213224800539557039169682963488,35); (5962580359924306085376276578794897,36);
  (1798433570343240061073168431131540,35); (7518229166755894106575449450968621,36);
  (2627056597939462907001007617735408,35); (9049807260364531203984101321706088,36);
  (3607428763960415159186436538370682,35); (1055240083400822706010465281184919,35);
  (4736409962799998710904428768518778,35); (1202119400486281100389578646430172,35);
  (6010383879005224696620454658795681,35); (1345148072819813533356001432688961,35);
  (7425269669142276426987733951649648,35); (1483867888258052061064825309344269,35);
  (8976535072033954377287935748263883,35); (1617834461309291584235279593788849,35);
  (1065921094361888170511818745309793,34); (1746618643679494370363411340135324,35);
  (1246790718259890456625061586463445,34); (1869807893398277264145779929122880,35);
  (1439683000066810805453249039394163,34); (1987007593716858980473191595169992,35);
  (1643980048400868021018366359969922,34); (2097842315885938119760365834607208,35);
  (1859027438750359299546818924835123,34); (2201957021080329494758404282664646,35);
  (2084136309869839485128475922061567,34); (2299018197314191905195243043603731,35);
  (2318585570458283516397002135782012,34); (2388714927560034777501835735802796,35);
  (2561624209062629513958681632303222,34); (2470759885577586974037926950801958,35);
  (2812473699814127040957594878512667,34); (2544890256224698961238763714404172,35);
  (3070330496295102851220757280437050,34); (2610868577281604228219678164064747,35);
  (3334368605549880574052642548835190,34); (2668483500080273636178525781804896,35);
  (3603742233995967307250687744121645,34); (2717550466495555103516105907688605,35);
  (3877588496760772582999054687985368,34); (2757912300125434379832556978033336,35);
  (4155030181765633958585787532441489,34); (2789439709764204355146800355495984,35);
  (4435178559703353667057810380556439,34); (2812031703554218401413954404509891,35);
  (4717136230908316118363311945534458,34); (2825615912488600070032918381759454,35);
  (5000000000000000000000000000000000,34); (2830148822228021272005288099062200,35);
  (5282863769091683881636688054465542,34); (2825615912488600070032918381759454,35);
  (5564821440296646332942189619443561,34); (2812031703554218401413954404509891,35);
  (5844969818234366041414212467558511,34); (2789439709764204355146800355495984,35);
  (6122411503239227417000945312014633,34); (2757912300125434379832556978033336,35);
  (6396257766004032692749312255878355,34); (2717550466495555103516105907688605,35);
  (6665631394450119425947357451164810,34); (2668483500080273636178525781804896,35);
  (6929669503704897148779242719562950,34); (2610868577281604228219678164064747,35);
  (7187526300185872959042405121487333,34); (2544890256224698961238763714404172,35);
  (7438375790937370486041318367696778,34); (2470759885577586974037926950801958,35);
  (7681414429541716483602997864217988,34); (2388714927560034777501835735802796,35);
  (7915863690130160514871524077938433,34); (2299018197314191905195243043603731,35);
  (8140972561249640700453181075164877,34); (2201957021080329494758404282664646,35);
  (8356019951599131978981633640030078,34); (2097842315885938119760365834607208,35);
  (8560316999933189194546750960605837,34); (1987007593716858980473191595169992,35);
  (8753209281740109543374938413536555,34); (1869807893398277264145779929122880,35);
  (8934078905638111829488181254690207,34); (1746618643679494370363411340135324,35);
  (9102346492796604562271206425173612,34); (1617834461309291584235279593788849,35);
  (9257473033085772357301226604835035,34); (1483867888258052061064825309344269,35);
  (9398961612099477530337954534120432,34); (1345148072819813533356001432688961,35);
  (9526359003720000128909557123148123,34); (1202119400486281100389578646430172,35);
  (9639257123603958484081356346162932,34); (1055240083400822706010465281184919,35);
  (9737294340206053709299899238226459,34); (9049807260364531203984101321706088,36);
  (9820156642965675993892683156886846,34); (7518229166755894106575449450968621,36);
  (9887578677519946044296083031703651,34); (5962580359924306085376276578794897,36);
  (9939344705994445992611928422367367,34); (4387873053529264088694800341658883,36);
  (9975289889237059375215945582531012,34); (2799316133280383677041708435929941,36);
  (9995307097824092707397159197596922,34); (1204161809989894409585096744562670,36)].
Definition gauss_56 : list (Z * Z) := [
  (4528280992672078234230874545478694,37); (1161927687886607750551138221697934,36);
  (2384386959465126391845619950529511,36); (2701261123007668880655630472060369,36);
  (5853142229919244455037418238256891,36); (4234531581653943830813556187504063,36);
  (1084914542987180831150472423090592,35); (5754912170191691086886379662248547,36);
  (1735704904725490818690251197245216,35); (7257544639010735903885370266506499,36);
  (2535676021901868217663119860253595,35); (8737756455700473252479684452728544,36);
  (3482355987625184972636363835419956,35); (1019096494120128631740299183346665,35);
  (4572818978967225457694635502137913,35); (1161267578128265846862907878839422,35);
  (5803694583608622960549385709535665,35); (1299849352919597609590971610363619,35);
  (7171178311862568229850430661656471,35); (1434413423691137086494294221519713,35);
  (8671043392855917416393651277157484,35); (1564543837365522393391773889651265,35);
  (1029865385530667509849958457569998,34); (1689838355780588064771331561272353,35);
  (1204897886474355488987933527770531,34); (1809909693615759301794223414444315,35);
  (1391660827749059582387031064762233,34); (1924386712962383124341279581169066,35);
  (1589576936527647722492192610150818,34); (2032915569237225894006251138942638,35);
  (1798034465964965528660307019685935,34); (2135160804233354325551928618123854,35);
  (2016389086146683399479323914307958,34); (2230806382634614160670759646381188,35);
  (2243965875722326906228182427118417,34); (2319556668650094838109509553324802,35);
  (2480061408078091429023877993906809,34); (2401137339680012906036775283349985,35);
  (2723945925607702105255842093376952,34); (2475296234152378945998302321542279,35);
  (2974865595364543609405665186985385,34); (2541804130889924028006200923509931,35);
  (3232044839125227395151463364833838,34); (2600455457587069992152613241374239,35);
  (3494688730663896654734528834373828,34); (2651068926200538198399577930384574,35);
  (3761985452828313980135167225147365,34); (2693488093285724285447720520334900,35);
  (4033108806823623708799076384936579,34); (2727581843544471053087532744504511,35);
  (4307220765948118789935567097807547,34); (2753244795088121289815229877392515,35);
  (4583474065887823127798563222796688,34); (2770397625162256160889669592195503,35);
  (4861014823563622814529694016125398,34); (2778987315325719792313671341758061,35);
  (5138985176436377185470305983874603,34); (2778987315325719792313671341758061,35);
  (5416525934112176872201436777203312,34); (2770397625162256160889669592195503,35);
  (5692779234051881210064432902192453,34); (2753244795088121289815229877392515,35);
  (5966891193176376291200923615063421,34); (2727581843544471053087532744504511,35);
  (6238014547171686019864832774852635,34); (2693488093285724285447720520334900,35);
  (6505311269336103345265471165626171,34); (2651068926200538198399577930384574,35);
  (6767955160874772604848536635166162,34); (2600455457587069992152613241374239,35);
  (7025134404635456390594334813014615,34); (2541804130889924028006200923509931,35);
  (7276054074392297894744157906623048,34); (2475296234152378945998302321542279,35);
  (7519938591921908570976122006093191,34); (2401137339680012906036775283349985,35);
  (7756034124277673093771817572881583,34); (2319556668650094838109509553324802,35);
  (7983610913853316600520676085692042,34); (2230806382634614160670759646381188,35);
  (8201965534035034471339692980314065,34); (2135160804233354325551928618123854,35);
  (8410423063472352277507807389849181,34); (2032915569237225894006251138942638,35);
  (8608339172250940417612968935237767,34); (1924386712962383124341279581169066,35);
  (8795102113525644511012066472229469,34); (1809909693615759301794223414444315,35);
  (8970134614469332490150041542430003,34); (1689838355780588064771331561272353,35);
  (9132895660714408258360634872284252,34); (1564543837365522393391773889651265,35);
  (9282882168813743177014956933834352,34); (1434413423691137086494294221519713,35);
  (9419630541639137703945061429046434,34); (1299849352919597609590971610363619,35);
  (9542718102103277454230536449786208,34); (1161267578128265846862907878839422,35);
  (9651764401237481502736363616458004,34); (1019096494120128631740299183346665,35);
  (9746432397809813178233688013974641,34); (8737756455700473252479684452728544,36);
  (9826429509527450918130974880275478,34); (7257544639010735903885370266506499,36);
  (9891508545701281916884952757690941,34); (5754912170191691086886379662248547,36);
  (9941468577700807555449625817617432,34); (4234531581653943830813556187504063,36);
  (9976156130405348736081543800494705,34); (2701261123007668880655630472060369,36);
  (9995471719007327921765769125454521,34); (1161927687886607750551138221697934,36)].
Definition gauss_57 : list (Z * Z) := [
  (4372171873685747139950752228750500,37); (1121876936125331454867393411317500,36);
  (2302238160784844432437486318790504,36); (2608266737359389695253314935710049,36);
  (5651711174888975575120800808072251,36); (4089080033910616313105499065189690,36);
  (1047638664526564310058956231674611,35); (5557881866167995072837724384095051,36);
  (1676195741405666044257070802883341,35); (7010135395376778085123575669075156,36);
  (2448968677606162904404794469740482,35); (8441479511720774517500410783416613,36);
  (3363651946644915194962292285132169,35); (9847635349744260191211226136757393,36);
  (4417516073930439363578471919016485,35); (1122440394538821903984461942254549,35);
  (5607416055888933524349992617906912,35); (1256767549545906132363689407047773,35);
  (6929800836897652763887905909739263,35); (1387344070109009616062897501918188,35);
  (8380723942478043958549455206739841,35); (1513780242134699972924529941656864,35);
  (9955855272639087896199564060252572,35); (1635698718318578427124505495519678,35);
  (1165049403202749022541419279909338,34); (1752735639115630875287548529827506,35);
  (1345958276277383385863276646316109,34); (1864541716220865867736763199784950,35);
  (1537772244002411304797581557779948,34); (1970783273774005704497636040052774,35);
  (1739918858595115543753190796021458,34); (2071143243540055518159845263680525,35);
  (1951794835456423172880755490376297,34); (2165322110810759829821605416421307,35);
  (2172767853653816204905072235973798,34); (2253038808069057889860676476291647,35);
  (2402178443044061968424230900968928,34); (2334031553682075189192044638941679,35);
  (2639341952410121452059699589753826,34); (2408058633084387563442552587840839,35);
  (2883550592742180245199878232642378,34); (2474899120100983949691897224969399,35);
  (3134075549567027707239328019275555,34); (2534353536246370432832021278181833,35);
  (3390169158023106797048960420973014,34); (2586244446025891236031195433257345,35);
  (3651067134190806171183271951001783,34); (2630416986458871622011569082044213,35);
  (3915990856019379817931930120102204,34); (2666739329240957921328848899572034,35);
  (4184149687043678744783598108392440,34); (2695103074164928732140474086530079,35);
  (4454743335956060995107367393445105,34); (2715423572624932156937338647739580,35);
  (4726964244991765878900847201313338,34); (2727640180238094324006949768209827,35);
  (5000000000000000000000000000000000,34); (2731716437829201203142069399402604,35);
  (5273035755008234121099152798686663,34); (2727640180238094324006949768209827,35);
  (5545256664043939004892632606554895,34); (2715423572624932156937338647739580,35);
  (5815850312956321255216401891607561,34); (2695103074164928732140474086530079,35);
  (6084009143980620182068069879897796,34); (2666739329240957921328848899572034,35);
  (6348932865809193828816728048998217,34); (2630416986458871622011569082044213,35);
  (6609830841976893202951039579026986,34); (2586244446025891236031195433257345,35);
  (6865924450432972292760671980724445,34); (2534353536246370432832021278181833,35);
  (7116449407257819754800121767357622,34); (2474899120100983949691897224969399,35);
  (7360658047589878547940300410246174,34); (2408058633084387563442552587840839,35);
  (7597821556955938031575769099031071,34); (2334031553682075189192044638941679,35);
  (7827232146346183795094927764026203,34); (2253038808069057889860676476291647,35);
  (8048205164543576827119244509623703,34); (2165322110810759829821605416421307,35);
  (8260081141404884456246809203978542,34); (2071143243540055518159845263680525,35);
  (8462227755997588695202418442220053,34); (1970783273774005704497636040052774,35);
  (8654041723722616614136723353683892,34); (1864541716220865867736763199784950,35);
  (8834950596797250977458580720090661,34); (1752735639115630875287548529827506,35);
  (9004414472736091210380043593974743,34); (1635698718318578427124505495519678,35);
  (9161927605752195604145054479326016,34); (1513780242134699972924529941656864,35);
  (9307019916310234723611209409026073,34); (1387344070109009616062897501918188,35);
  (9439258394411106647565000738209309,34); (1256767549545906132363689407047773,35);
  (9558248392606956063642152808098351,34); (1122440394538821903984461942254549,35);
  (9663634805335508480503770771486783,34); (9847635349744260191211226136757393,36);
  (9755103132239383709559520553025952,34); (8441479511720774517500410783416613,36);
  (9832380425859433395574292919711666,34); (7010135395376778085123575669075156,36);
  (9895236133547343568994104376832538,34); (5557881866167995072837724384095051,36);
  (9943482888251110244248791991919277,34); (4089080033910616313105499065189690,36);
  (9976977618392151555675625136812095,34); (2608266737359389695253314935710049,36);
  (9995627828126314252860049247771250,34); (1121876936125331454867393411317500,36)].
Definition gauss_58 : list (Z * Z) := [
  (4223997963066967786314779076971386,37); (1083861624813724971527171462492335,36);
  (2224261701354548698614236910026934,36); (2519990806325121542508750587311263,36);
  (5460495875778681750044872362278954,36); (3950986924999337377008372837423860,36);
  (1012249265282484544609183280370097,35); (5370776766439387058428180956830919,36);
  (1619689874853795492334960768939693,35); (6775118556494406072589483200880919,36);
  (2366622124056545427857724498853484,35); (8159937117485482526060415209785456,36);
  (3250893120587032575957838261687624,35); (9521232730946704327893829741053789,36);
  (4269953571782372965674717505123910,35); (1085507807007311788345840474755915,35);
  (5420865398898491180005858959360123,35); (1215762636248197627012938031289928,35);
  (6700310296259626036246438374395615,35); (1342512159099093423795373933907246,35);
  (8104599333031334182395103968918782,35); (1465390902208024535919701344422194,35);
  (9629683604345592947550142389630238,35); (1584044562690466366014601981097513,35);
  (1127116591251736273669299767515866,34); (1698131024670800539886377759229237,35);
  (1302431344899788660766913825744836,34); (1807321343354363527039042848792761,35);
  (1488407144230459432601213492708993,34); (1911300692292921661472951722857427,35);
  (1684507773339373667834918501232171,34); (2009769270493389844403837541344118,35);
  (1890167823684604444830079706272545,34); (2102443166479106299728499095862721,35);
  (2104794324348874847550114414319583,34); (2189055176682012551951284617416800,35);
  (2327768451755762068000987912873978,34); (2269355575740990125199026804443302,35);
  (2558447313916407681922237136316073,34); (2343112836451317345920903901896000,35);
  (2796165804065802174031484688928478,34); (2410114297270887420328520305493346,35);
  (3040238518346234248143915293934947,34); (2470166775448119643325543285635067,35);
  (3289961732010023693758158662580015,34); (2523097123997656264882991078381589,35);
  (3544615428444454052334873658428484,34); (2568752730914286273725741030553267,35);
  (3803465375169232727855257454573326,34); (2607001959183490948563027803003596,35);
  (4065765240821193393128080592679888,34); (2637734526318541671482288361576158,35);
  (4330758747022665714888115760627295,34); (2660861822328950705174049218869235,35);
  (4597681848929286353450761038097484,34); (2676317165202912605030540694308504,35);
  (4865764938170288220983306552413100,34); (2684055993166742443195297765286233,35);
  (5134235061829711779016693447586900,34); (2684055993166742443195297765286233,35);
  (5402318151070713646549238961902516,34); (2676317165202912605030540694308504,35);
  (5669241252977334285111884239372704,34); (2660861822328950705174049218869235,35);
  (5934234759178806606871919407320112,34); (2637734526318541671482288361576158,35);
  (6196534624830767272144742545426674,34); (2607001959183490948563027803003596,35);
  (6455384571555545947665126341571516,34); (2568752730914286273725741030553267,35);
  (6710038267989976306241841337419985,34); (2523097123997656264882991078381589,35);
  (6959761481653765751856084706065053,34); (2470166775448119643325543285635067,35);
  (7203834195934197825968515311071522,34); (2410114297270887420328520305493346,35);
  (7441552686083592318077762863683927,34); (2343112836451317345920903901896000,35);
  (7672231548244237931999012087126022,34); (2269355575740990125199026804443302,35);
  (7895205675651125152449885585680417,34); (2189055176682012551951284617416800,35);
  (8109832176315395555169920293727455,34); (2102443166479106299728499095862721,35);
  (8315492226660626332165081498767828,34); (2009769270493389844403837541344118,35);
  (8511592855769540567398786507291007,34); (1911300692292921661472951722857427,35);
  (8697568655100211339233086174255163,34); (1807321343354363527039042848792761,35);
  (8872883408748263726330700232484133,34); (1698131024670800539886377759229237,35);
  (9037031639565440705244985761036976,34); (1584044562690466366014601981097513,35);
  (9189540066696866581760489603108121,34); (1465390902208024535919701344422194,35);
  (9329968970374037396375356162560438,34); (1342512159099093423795373933907246,35);
  (9457913460110150881999414104063988,34); (1215762636248197627012938031289928,35);
  (9573004642821762703432528249487609,34); (1085507807007311788345840474755915,35);
  (9674910687941296742404216173831237,34); (9521232730946704327893829741053789,36);
  (9763337787594345457214227550114652,34); (8159937117485482526060415209785456,36);
  (9838031012514620450766503923106031,34); (6775118556494406072589483200880919,36);
  (9898775073471751545539081671962990,34); (5370776766439387058428180956830919,36);
  (9945395041242213182499551276377210,34); (3950986924999337377008372837423860,36);
  (9977757382986454513013857630899731,34); (2519990806325121542508750587311263,36);
  (9995776002036933032213685220923029,34); (1083861624813724971527171462492335,36)].
Definition gauss_59 : list (Z * Z) := [
  (4083230453526581217879902476609106,37); (1047746142270611701350365744320024,36);
  (2150179808377017656399088283275844,36); (2436119584132642384291000566461994,36);
  (5278817433134534108908032488647089,36); (3819764726743787571350341487377172,36);
  (9786213021642155775196009298366103,36); (5192942750497931096898937205491537,36);
  (1565988915910923432318333016371897,35); (6551683153172595509159773242108413,36);
  (2288349531152447206838344390717504,35); (7892173656540733073660240198624574,36);
  (3143690482327307029743076447835505,35); (9210671376805014680307875528222616,36);
  (4129628060592235932372925739237709,35); (1050349914421859367523073660933463,35);
  (5243414412826395731785158526877037,35); (1176705269685668171263768003917883,35);
  (6481945285355886951828688344792738,35); (1299780986564925009332525340085395,35);
  (7841768709156389926482452301388166,35); (1419234010026739895257643466769428,35);
  (9319094635589421428245511308939976,35); (1534731391805584161987516409624040,35);
  (1090980550688195471836605936162587,34); (1645951213552263887875563217679942,35);
  (1260946773606798840553712104933938,34); (1752583481820005439185917948053914,35);
  (1441334406614011342020421390170453,34); (1854330990943546134591895851763870,35);
  (1631640677475313864879863936223731,34); (1950910150808000475151538860564278,35);
  (1831335168805749512437095349124960,34); (2042051776934335383010105404473466,35);
  (2039861296479849277679119201217328,34); (2127501840553381933365410024235653,35);
  (2256637860958018078138718498064971,34); (2207022176514869034539904236654050,35);
  (2481060667211410106159563597713456,34); (2280391147025488491593410657918710,35);
  (2712504208733666548868923697825193,34); (2347404259348100959657986824146455,35);
  (2950323410947905166385881531220604,34); (2407874735730322019407341464296791,35);
  (3193855429151025950038437738329755,34); (2461634033968099288984681000751212,35);
  (3442421495984931498408199254471251,34); (2508532317149845140536021522108286,35);
  (3695328813285941441946918662928608,34); (2548438871269695842512398449684051,35);
  (3951872483039817275383166046842544,34); (2581242469544574107321996988671141,35);
  (4211337472060710159423910718642229,34); (2606851682418769569199360415390910,35);
  (4473000604918279280815428061190654,34); (2625195132391436952547066100714423,35);
  (4736132579558449980241598356983307,34); (2636221692956396598065212443530626,35);
  (5000000000000000000000000000000000,34); (2639900631099521070775616621542764,35);
  (5263867420441550019758401643016693,34); (2636221692956396598065212443530626,35);
  (5526999395081720719184571938809346,34); (2625195132391436952547066100714423,35);
  (5788662527939289840576089281357772,34); (2606851682418769569199360415390910,35);
  (6048127516960182724616833953157456,34); (2581242469544574107321996988671141,35);
  (6304671186714058558053081337071392,34); (2548438871269695842512398449684051,35);
  (6557578504015068501591800745528749,34); (2508532317149845140536021522108286,35);
  (6806144570848974049961562261670245,34); (2461634033968099288984681000751212,35);
  (7049676589052094833614118468779396,34); (2407874735730322019407341464296791,35);
  (7287495791266333451131076302174808,34); (2347404259348100959657986824146455,35);
  (7518939332788589893840436402286544,34); (2280391147025488491593410657918710,35);
  (7743362139041981921861281501935029,34); (2207022176514869034539904236654050,35);
  (7960138703520150722320880798782672,34); (2127501840553381933365410024235653,35);
  (8168664831194250487562904650875039,34); (2042051776934335383010105404473466,35);
  (8368359322524686135120136063776268,34); (1950910150808000475151538860564278,35);
  (8558665593385988657979578609829547,34); (1854330990943546134591895851763870,35);
  (8739053226393201159446287895066062,34); (1752583481820005439185917948053914,35);
  (8909019449311804528163394063837413,34); (1645951213552263887875563217679942,35);
  (9068090536441057857175448869106002,34); (1534731391805584161987516409624040,35);
  (9215823129084361007351754769861184,34); (1419234010026739895257643466769428,35);
  (9351805471464411304817131165520726,34); (1299780986564925009332525340085395,35);
  (9475658558717360426821484147312296,34); (1176705269685668171263768003917883,35);
  (9587037193940776406762707426076229,34); (1050349914421859367523073660933463,35);
  (9685630951767269297025692355216449,34); (9210671376805014680307875528222616,36);
  (9771165046884755279316165560928250,34); (7892173656540733073660240198624574,36);
  (9843401108408907656768166698362810,34); (6551683153172595509159773242108413,36);
  (9902137869783578442248039907016338,34); (5192942750497931096898937205491537,36);
  (9947211825668654658910919675113529,34); (3819764726743787571350341487377172,36);
  (9978498201916229823436009117167242,34); (2436119584132642384291000566461994,36);
  (9995916769546473418782120097523390,34); (1047746142270611701350365744320024,36)].
Definition gauss_60 : list (Z * Z) := [
  (3949383862819889828852071011753713,37); (1013405984436879248215855104946110,36);
  (2079737440580913061626643311279687,36); (2356364963476784320447410857038609,36);
  (5106052388889141316360506491951990,36); (3694965581672727765758478011043025,36);
  (9466399123700907190711600086614964,36); (5023778591143992178942882188528613,36);
  (1514910561747363313922795054310288,35); (6339083238407980065747689634757206,36);
  (2213887208000194630138407708515023,35); (7637309298392399653363019049412667,36);
  (3041686194178837525229049419514746,35); (8914950507103860130198130624174315,36);
  (3996076191118622357167156874005160,35); (1016856036472864338751607370855313,35);
  (5074484459497702903110533521368584,35); (1139475847199890993189172909645010,35);
  (6274003867655084243534595004378207,35); (1259023881076062418978548298618068,35);
  (7591400760703518375474225250281221,35); (1375177837496239581761159881931115,35);
  (9023123691892712031574094574013819,35); (1487624575039447262041824233674385,35);
  (1056531300338679727150276001113921,34); (1596060950964816447472944976838023,35);
  (1221381123467071565655789666988134,34); (1700194636247321141745720077762939,35);
  (1396417433221348002819894694932395,34); (1799744902554225153328932314403120,35);
  (1581168363093222813885348803878514,34); (1894443378462172201547039710463802,35);
  (1775135857552614660932760517897777,34); (1984034772619039973506141740585504,35);
  (1977797014757448182778956118443991,34); (2068277561779237780658191840332947,35);
  (2188605496230277304108637062570007,34); (2146944641796782097711561032819147,35);
  (2406992999707151262910553257576394,34); (2219823939789355666389208204568866,35);
  (2632370791191464444459184731236026,34); (2286718985805724332359822764545464,35);
  (2864131292084608053462735732348441,34); (2347449442445610242350657819735078,35);
  (3101649717116010114225236647390561,34); (2401851590998559048183332636436680,35);
  (3344285758657759028738235173247236,34); (2449778772787841769473784342894714,35);
  (3591385312883691541546525698302792,34); (2491101784527509050557961544685167,35);
  (3842282243119853309948276843266223,34); (2525709226625468729911936787082682,35);
  (4096300175632872913795615293690737,34); (2553507803492781370227456036724553,35);
  (4352754323015274984267779176752121,34); (2574422575049046699752219858852716,35);
  (4610953330252317152903572464588874,34); (2588397158745509377190182151441186,35);
  (4870201138493761007054148072998276,34); (2595393881561031986643246918113479,35);
  (5129798861506238992945851927001724,34); (2595393881561031986643246918113479,35);
  (5389046669747682847096427535411127,34); (2588397158745509377190182151441186,35);
  (5647245676984725015732220823247879,34); (2574422575049046699752219858852716,35);
  (5903699824367127086204384706309263,34); (2553507803492781370227456036724553,35);
  (6157717756880146690051723156733777,34); (2525709226625468729911936787082682,35);
  (6408614687116308458453474301697208,34); (2491101784527509050557961544685167,35);
  (6655714241342240971261764826752764,34); (2449778772787841769473784342894714,35);
  (6898350282883989885774763352609439,34); (2401851590998559048183332636436680,35);
  (7135868707915391946537264267651559,34); (2347449442445610242350657819735078,35);
  (7367629208808535555540815268763974,34); (2286718985805724332359822764545464,35);
  (7593007000292848737089446742423606,34); (2219823939789355666389208204568866,35);
  (7811394503769722695891362937429993,34); (2146944641796782097711561032819147,35);
  (8022202985242551817221043881556009,34); (2068277561779237780658191840332947,35);
  (8224864142447385339067239482102223,34); (1984034772619039973506141740585504,35);
  (8418831636906777186114651196121485,34); (1894443378462172201547039710463802,35);
  (8603582566778651997180105305067605,34); (1799744902554225153328932314403120,35);
  (8778618876532928434344210333011865,34); (1700194636247321141745720077762939,35);
  (8943468699661320272849723998886079,34); (1596060950964816447472944976838023,35);
  (9097687630810728796842590542598618,34); (1487624575039447262041824233674385,35);
  (9240859923929648162452577474971878,34); (1375177837496239581761159881931115,35);
  (9372599613234491575646540499562179,34); (1259023881076062418978548298618068,35);
  (9492551554050229709688946647863142,34); (1139475847199890993189172909645010,35);
  (9600392380888137764283284312599484,34); (1016856036472864338751607370855313,35);
  (9695831380582116247477095058048525,34); (8914950507103860130198130624174315,36);
  (9778611279199980536986159229148498,34); (7637309298392399653363019049412667,36);
  (9848508943825263668607720494568972,34); (6339083238407980065747689634757206,36);
  (9905336008762990928092883999133850,34); (5023778591143992178942882188528613,36);
  (9948939476111108586836394935080480,34); (3694965581672727765758478011043025,36);
  (9979202625594190869383733566887203,34); (2356364963476784320447410857038609,36);
  (9996050616137180110171147928988246,34); (1013405984436879248215855104946110,36)].
Definition gauss_61 : list (Z * Z) := [
  (3822011843182641340688702154345910,37); (9807266808351413358865322309635521,37);
  (2012700092439882865993619643855836,36); (2280462003006208592269466289871347,36);
  (4941627383741474517234157150041767,36); (3576177495874544792916996545847139,36);
  (9161994357981460157413729624340272,36); (4862730915178066868068335877785021,36);
  (1466287058340854587629577322604486,35); (6136631753906052314638900179763057,36);
  (2142992404350795431395985628939237,35); (7394532942468957273089257890744096,36);
  (2944550665931942626122806951110549,35); (8633146493806871797216606386218313,36);
  (3868870930852236937122424972207725,35); (9849238873050590665258915106342323,36);
  (4913541876299941467897997865824443,35); (1103963657415952200123788281409082,35);
  (6075838139255948376052624305332367,35); (1220123359377210145767032986623374,35);
  (7352727457616827721757654766291475,35); (1333099926207544483140535342248398,35);
  (8740878594567002466785905377457622,35); (1442598604409170075217088777279513,35);
  (1023667003588201754239755986237269,34); (1548333718419869741234897330624469,35);
  (1183619944138439014270426657528248,34); (1650029413795370531636184172050225,35);
  (1353529382752674451555216549322341,34); (1747420375826667554542595960460965,35);
  (1532952045527544222504078180198841,34); (1840252521157740869216052143203374,35);
  (1721419839524645641504071110818465,34); (1928283660350408637307602381482686,35);
  (1918441074010391376451915703357045,34); (2011284129549912368381999187875580,35);
  (2123501743245846906998150090275136,34); (2089037389544424603333778617553649,35);
  (2336066867485373671807591418134642,34); (2161340590624804895052182291134141,35);
  (2555581888688739405896507442870852,34); (2228005101754174413577070991554419,35);
  (2781474117307341990022053494670887,34); (2288857002657297968566991692341238,35);
  (3013154226371216954108540763157054,34); (2343737537540453298821472279429538,35);
  (3250017788979665827332827614689531,34); (2392503529254780358091671375934986,35);
  (3491446855184846436977567372715114,34); (2435027752820576304376504415735285,35);
  (3736811564154732520831545683327974,34); (2471199267336779496998438832555825,35);
  (3985471787409707503865263983284715,34); (2500923705408912671252580750317931,35);
  (4236778798845923497352466191132613,34); (2524123519339870232407223259407563,35);
  (4490076967188629655213957976178172,34); (2540738183440917160385026461173932,35);
  (4744705466460128253165562496905496,34); (2550724351934863177186754028692599,35);
  (5000000000000000000000000000000000,34); (2554055972039310898896054780315493,35);
  (5255294533539871746834437503094504,34); (2550724351934863177186754028692599,35);
  (5509923032811370344786042023821828,34); (2540738183440917160385026461173932,35);
  (5763221201154076502647533808867388,34); (2524123519339870232407223259407563,35);
  (6014528212590292496134736016715285,34); (2500923705408912671252580750317931,35);
  (6263188435845267479168454316672026,34); (2471199267336779496998438832555825,35);
  (6508553144815153563022432627284886,34); (2435027752820576304376504415735285,35);
  (6749982211020334172667172385310469,34); (2392503529254780358091671375934986,35);
  (6986845773628783045891459236842946,34); (2343737537540453298821472279429538,35);
  (7218525882692658009977946505329113,34); (2288857002657297968566991692341238,35);
  (7444418111311260594103492557129148,34); (2228005101754174413577070991554419,35);
  (7663933132514626328192408581865358,34); (2161340590624804895052182291134141,35);
  (7876498256754153093001849909724864,34); (2089037389544424603333778617553649,35);
  (8081558925989608623548084296642955,34); (2011284129549912368381999187875580,35);
  (8278580160475354358495928889181535,34); (1928283660350408637307602381482686,35);
  (8467047954472455777495921819801159,34); (1840252521157740869216052143203374,35);
  (8646470617247325548444783450677658,34); (1747420375826667554542595960460965,35);
  (8816380055861560985729573342471752,34); (1650029413795370531636184172050225,35);
  (8976332996411798245760244013762731,34); (1548333718419869741234897330624469,35);
  (9125912140543299753321409462254237,34); (1442598604409170075217088777279513,35);
  (9264727254238317227824234523370852,34); (1333099926207544483140535342248398,35);
  (9392416186074405162394737569466763,34); (1220123359377210145767032986623374,35);
  (9508645812370005853210200213417556,34); (1103963657415952200123788281409082,35);
  (9613112906914776306287757502779228,34); (9849238873050590665258915106342323,36);
  (9705544933406805737387719304888945,34); (8633146493806871797216606386218313,36);
  (9785700759564920456860401437106076,34); (7394532942468957273089257890744096,36);
  (9853371294165914541237042267739552,34); (6136631753906052314638900179763057,36);
  (9908380056420185398425862703756597,34); (4862730915178066868068335877785021,36);
  (9950583726162585254827658428499583,34); (3576177495874544792916996545847139,36);
  (9979872999075601171340063803561442,34); (2280462003006208592269466289871347,36);
  (9996177988156817358659311297845654,34); (9807266808351413358865322309635521,37)].
Definition gauss_62 : list (Z * Z) := [
  (3700703456114851507957674821005144,37); (9496028397568452401986719304675408,37);
  (1948851841866433557425784761914252,36); (2208166728465452406637062127745307,36);
  (4785014405354823785964469069659678,36); (3463020950915480435851412049628481,36);
  (8872025451381675254448435995103750,36); (4709289714210193818968781703283233,36);
  (1419963831417409677641025872984710,35); (5943695058505250972409469483399002,36);
  (2075441351303645398521976241701452,35); (7163095911903258883701441154707294,36);
  (2851979930383574808681759418832421,35); (8364405895088658144275235892046242,36);
  (3747618218189812238634993462147571,35); (9544588329286599366251856241141918,36);
  (4760093873945326712075719878581216,35); (1070066113883498442058954498245265,35);
  (5886849358405131846365668782208511,35); (1182970360434139628725840032526733,35);
  (7125038424396453859079833972766226,35); (1292886347701234901354778327675528,35);
  (8471533319799757432703444526139590,35); (1399536408165731877061914637702061,35);
  (9922932694801181423074724275230683,35); (1502651128699493503850473461353117,35);
  (1147557019722903405045276525024759,34); (1601970029081233905316961863907817,35);
  (1312552373584216250696078617492803,34); (1697242218970527254555873862711804,35);
  (1486862538888514724395136174700066,34); (1788227031138407064279368918086098,35);
  (1670047193322602765012269829588059,34); (1874694629114001499280928175939655,35);
  (1861643596765574096365226175419186,34); (1956426587598154206165540091130445,35);
  (2061167760234563309989252249390061,34); (2033216444120872048414250875833170,35);
  (2268115668498744520919498077381832,34); (2104870220519254832151131345191943,35);
  (2481964553276220220414895970341919,34); (2171206912902370979003461521697215,35);
  (2702174213799433023964280109621237,34); (2232058948856220714682234590456889,35);
  (2928188381414369759352056246711943,34); (2287272610728509038861613614884810,35);
  (3159436124767177351684890845237460,34); (2336708423920776240110352753974239,35);
  (3395333292029029979629491994982718,34); (2380241509205061613522504413393321,35);
  (3635283986516368284056581860132595,34); (2417761898173883641740159073922951,35);
  (3878682071979172341655043033275586,34); (2449174811025891855242556351310869,35);
  (4124912703754921857221562880478820,34); (2474400895984964626393290545238700,35);
  (4373353881920515956901755002501369,34); (2493376429747619712238065531742141,35);
  (4623378022518828336180865304410646,34); (2506053478452164403740205005076544,35);
  (4874353542890896926364558620004265,34); (2512400018762814084420147449756783,35);
  (5125646457109103073635441379995735,34); (2512400018762814084420147449756783,35);
  (5376621977481171663819134695589355,34); (2506053478452164403740205005076544,35);
  (5626646118079484043098244997498631,34); (2493376429747619712238065531742141,35);
  (5875087296245078142778437119521180,34); (2474400895984964626393290545238700,35);
  (6121317928020827658344956966724414,34); (2449174811025891855242556351310869,35);
  (6364716013483631715943418139867405,34); (2417761898173883641740159073922951,35);
  (6604666707970970020370508005017283,34); (2380241509205061613522504413393321,35);
  (6840563875232822648315109154762540,34); (2336708423920776240110352753974239,35);
  (7071811618585630240647943753288057,34); (2287272610728509038861613614884810,35);
  (7297825786200566976035719890378763,34); (2232058948856220714682234590456889,35);
  (7518035446723779779585104029658082,34); (2171206912902370979003461521697215,35);
  (7731884331501255479080501922618168,34); (2104870220519254832151131345191943,35);
  (7938832239765436690010747750609939,34); (2033216444120872048414250875833170,35);
  (8138356403234425903634773824580813,34); (1956426587598154206165540091130445,35);
  (8329952806677397234987730170411941,34); (1874694629114001499280928175939655,35);
  (8513137461111485275604863825299933,34); (1788227031138407064279368918086098,35);
  (8687447626415783749303921382507198,34); (1697242218970527254555873862711804,35);
  (8852442980277096594954723474975240,34); (1601970029081233905316961863907817,35);
  (9007706730519881857692527572476932,34); (1502651128699493503850473461353117,35);
  (9152846668020024256729655547386041,34); (1399536408165731877061914637702061,35);
  (9287496157560354614092016602723377,34); (1292886347701234901354778327675528,35);
  (9411315064159486815363433121779149,34); (1182970360434139628725840032526733,35);
  (9523990612605467328792428012141878,34); (1070066113883498442058954498245265,35);
  (9625238178181018776136500653785243,34); (9544588329286599366251856241141918,36);
  (9714802006961642519131824058116757,34); (8364405895088658144275235892046242,36);
  (9792455864869635460147802375829855,34); (7163095911903258883701441154707294,36);
  (9858003616858259032235897412701529,34); (5943695058505250972409469483399002,36);
  (9911279745486183247455515640048963,34); (4709289714210193818968781703283233,36);
  (9952149855946451762140355309303403,34); (3463020950915480435851412049628481,36);
  (9980511481581335664425742152380858,34); (2208166728465452406637062127745307,36);
  (9996299296543885148492042325178995,34); (9496028397568452401986719304675408,37)].
Definition gauss_63 : list (Z * Z) := [
  (3585079854381098105319295355277566,37); (9199372977885420585462227770219223,37);
  (1887993611014945698903319426844308,36); (2139254173431880933039205541311357,36);
  (4635726553905266594552666397648289,36); (3355145882980068125953465364864419,36);
  (8595594703136382568744297154194152,36); (4562984338163328177029322710879986,36);
  (1375798265121498859901966071159451,35); (5759688038440020875375303074309043,36);
  (2011027512052903646482291687050550,35); (6942306308057805412433043183812143,36);
  (2763693297949509851681234018624966,35); (8107939205169169441141836487565512,36);
  (3631953968907839727648430933743924,35); (9253732230080635204630272902579017,36);
  (4613684861073422098152343354202341,35); (1037688062901954538767097671073660,35);
  (5706483574607328685485077134331506,35); (1147463550244496657447115978088525,35);
  (6907675881793814023019408028447000,35); (1254431027667249330931506903422169,35);
  (8214322284024857826409611519214728,35); (1358328717954896661259491971970632,35);
  (9623225211327161997426700681837844,35); (1458902360414026347277575107701432,35);
  (1113093685048138322183349050444786,34); (1555905831110990875410799427859428,35);
  (1273376758410762910853391694812062,34); (1649101744188967088284158983622960,35);
  (1442779502075770960742842311479926,34); (1738262032267793884859025232139411,35);
  (1620887359425069549344483420152278,34); (1823168504272864481522620489377089,35);
  (1807264470893173074998465230633118,34); (1903613379217477838181916246394462,35);
  (2001454740611873821304955365656001,34); (1979399794577204699240396407460118,35);
  (2202982952568574933661510999649726,34); (2050342287983319931755501850453615,35);
  (2411355933549833759377612077368422,34); (2116267251040791149125274270151368,35);
  (2626063760025978000388938450742526,34); (2177013354151379539948215785220058,35);
  (2846581006024441996689555330406850,34); (2232431941297069768516633475840666,35);
  (3072368028938760537611924888628009,34); (2282387393814630434294299630427126,35);
  (3302872290127077987655827842028424,34); (2326757462269184825519770937347660,35);
  (3537529707068742799819214222246665,34); (2365433565613445954030249416942200,35);
  (3775766033770233186257977030375853,34); (2398321056899756570552637809756610,35);
  (4016998266042466577211862714671412,34); (2425339454894192393204504957290080,35);
  (4260636068210640157150804517235135,34); (2446422641025599497235468077460742,35);
  (4506083217765273602351481652730389,34); (2461519021187378039252155849407227,35);
  (4752739064419201863828830909740962,34); (2470591651995908948351982305835239,35);
  (5000000000000000000000000000000000,34); (2473618331196551044433468021046297,35);
  (5247260935580798136171169090259038,34); (2470591651995908948351982305835239,35);
  (5493916782234726397648518347269611,34); (2461519021187378039252155849407227,35);
  (5739363931789359842849195482764865,34); (2446422641025599497235468077460742,35);
  (5983001733957533422788137285328588,34); (2425339454894192393204504957290080,35);
  (6224233966229766813742022969624147,34); (2398321056899756570552637809756610,35);
  (6462470292931257200180785777753335,34); (2365433565613445954030249416942200,35);
  (6697127709872922012344172157971576,34); (2326757462269184825519770937347660,35);
  (6927631971061239462388075111371990,34); (2282387393814630434294299630427126,35);
  (7153418993975558003310444669593150,34); (2232431941297069768516633475840666,35);
  (7373936239974021999611061549257474,34); (2177013354151379539948215785220058,35);
  (7588644066450166240622387922631577,34); (2116267251040791149125274270151368,35);
  (7797017047431425066338489000350274,34); (2050342287983319931755501850453615,35);
  (7998545259388126178695044634343999,34); (1979399794577204699240396407460118,35);
  (8192735529106826925001534769366882,34); (1903613379217477838181916246394462,35);
  (8379112640574930450655516579847722,34); (1823168504272864481522620489377089,35);
  (8557220497924229039257157688520074,34); (1738262032267793884859025232139411,35);
  (8726623241589237089146608305187939,34); (1649101744188967088284158983622960,35);
  (8886906314951861677816650949555214,34); (1555905831110990875410799427859428,35);
  (9037677478867283800257329931816216,34); (1458902360414026347277575107701432,35);
  (9178567771597514217359038848078527,34); (1358328717954896661259491971970632,35);
  (9309232411820618597698059197155300,34); (1254431027667249330931506903422169,35);
  (9429351642539267131451492286566850,34); (1147463550244496657447115978088525,35);
  (9538631513892657790184765664579765,34); (1037688062901954538767097671073660,35);
  (9636804603109216027235156906625608,34); (9253732230080635204630272902579017,36);
  (9723630670205049014831876598137504,34); (8107939205169169441141836487565512,36);
  (9798897248794709635351770831294945,34); (6942306308057805412433043183812143,36);
  (9862420173487850114009803392884055,34); (5759688038440020875375303074309043,36);
  (9914044052968636174312557028458059,34); (4562984338163328177029322710879986,36);
  (9953642734460947334054473336023517,34); (3355145882980068125953465364864419,36);
  (9981120063889850543010966805731556,34); (2139254173431880933039205541311357,36);
  (9996414920145618901894680704644722,34); (9199372977885420585462227770219223,37)].
Definition gauss_64 : list (Z * Z) := [
  (3474791321139302715471878271818173,37); (8916403608482164736480395724859118,37);
  (1829941614022360326537749661800452,36); (2073516630281233817643767864275706,36);
  (4493314261627839630308808278348425,36); (3252228984489181428058680199990647,36);
  (8331873057687021534350348921584464,36); (4423379913181973861515457329865297,36);
  (1333658610504451812907324632386367,35); (5584069730065564409295246509604067,36);
  (1949560017397314054069293905142141,35); (6731523948359321299030383342977823,36);
  (2679431257079859196875925432636759,35); (7863015238012359660982997648769913,36);
  (3521541393403021208925492272038717,35); (8975857887848671542522651000559647,36);
  (4473893146074859712180966599583506,35); (1006741157676510468617015836427194,35);
  (5534227700244294707329798086357417,35); (1113508690419162707964916519207751,35);
  (6700030092295359011960830746492123,35); (1217635128435543666908877520453447,35);
  (7968535187370981862415422765206332,35); (1318873485752732933584589631261263,35);
  (9336734243860122012903833095684833,35); (1416983630712974161375565260011861,35);
  (1080138205283292961948897373931158,34); (1511732853620123943398702990977438,35);
  (1235900463697340516940681125571530,34); (1602896417742577679273375217394935,35);
  (1400590749141945865755298910840264,34); (1690258091857080469578274105536273,35);
  (1573818434728833787182208144843119,34); (1773610662844119190534657335762297,35);
  (1755172643726713300711193840032976,34); (1852756427012002302020755090479170,35);
  (1944223224138033748755735144907256,34); (1927507658930781456448124847340451,35);
  (2140521768986829828580609416704057,34); (1997687056636017069332846306416801,35);
  (2343602679900527271709930482277724,34); (2063128162131176430507814873681903,35);
  (2552984271464735212607368464890393,34); (2123675756182679450366988395440870,35);
  (2768169913732679560075261426205424,34); (2179186226466172668841393048686872,35);
  (2988649210180041981521166143699206,34); (2229527908187828153006735501547245,35);
  (3213899208311659420247786924768987,34); (2274581396370907223988549848563450,35);
  (3443385640048945219212436507199216,34); (2314239829065720864797662461613060,35);
  (3676564188956162918130179137449900,34); (2348409140810500866266314287729054,35);
  (3912881781299964579251756255055887,34); (2377008285741515433114110347211159,35);
  (4151777897880035909813431851258651,34); (2399969429822915386406308993567304,35);
  (4392685903519397227648117682538761,34); (2417238111740147858488476357900893,35);
  (4635034391061004802752285290298313,34); (2428773372075171346739953339198905,35);
  (4878248536682877837455220785731422,34); (2434547850456986019168269536737493,35);
  (5121751463317122162544779214268578,34); (2434547850456986019168269536737493,35);
  (5364965608938995197247714709701687,34); (2428773372075171346739953339198905,35);
  (5607314096480602772351882317461239,34); (2417238111740147858488476357900893,35);
  (5848222102119964090186568148741349,34); (2399969429822915386406308993567304,35);
  (6087118218700035420748243744944113,34); (2377008285741515433114110347211159,35);
  (6323435811043837081869820862550100,34); (2348409140810500866266314287729054,35);
  (6556614359951054780787563492800784,34); (2314239829065720864797662461613060,35);
  (6786100791688340579752213075231013,34); (2274581396370907223988549848563450,35);
  (7011350789819958018478833856300794,34); (2229527908187828153006735501547245,35);
  (7231830086267320439924738573794576,34); (2179186226466172668841393048686872,35);
  (7447015728535264787392631535109607,34); (2123675756182679450366988395440870,35);
  (7656397320099472728290069517722277,34); (2063128162131176430507814873681903,35);
  (7859478231013170171419390583295943,34); (1997687056636017069332846306416801,35);
  (8055776775861966251244264855092745,34); (1927507658930781456448124847340451,35);
  (8244827356273286699288806159967024,34); (1852756427012002302020755090479170,35);
  (8426181565271166212817791855156881,34); (1773610662844119190534657335762297,35);
  (8599409250858054134244701089159737,34); (1690258091857080469578274105536273,35);
  (8764099536302659483059318874428470,34); (1602896417742577679273375217394935,35);
  (8919861794716707038051102626068841,34); (1511732853620123943398702990977438,35);
  (9066326575613987798709616690431516,34); (1416983630712974161375565260011861,35);
  (9203146481262901813758457723479367,34); (1318873485752732933584589631261263,35);
  (9329996990770464098803916925350788,34); (1217635128435543666908877520453447,35);
  (9446577229975570529267020191364258,34); (1113508690419162707964916519207751,35);
  (9552610685392514028781903340041649,34); (1006741157676510468617015836427194,35);
  (9647845860659697879107450772796128,34); (8975857887848671542522651000559647,36);
  (9732056874292014080312407456736325,34); (7863015238012359660982997648769913,36);
  (9805043998260268594593070609485785,34); (6731523948359321299030383342977823,36);
  (9866634138949554818709267536761363,34); (5584069730065564409295246509604067,36);
  (9916681269423129784656496510784155,34); (4423379913181973861515457329865297,36);
  (9955066857383721603696911917216516,34); (3252228984489181428058680199990647,36);
  (9981700583859776396734622503381995,34); (2073516630281233817643767864275706,36);
  (9996525208678860697284528121728182,34); (8916403608482164736480395724859118,37)].
Definition gauss_65 : list (Z * Z) := [
  (3369514622935613671531943789260888,37); (8646291256501254491697925731519527,37);
  (1774525969075418472102530838934609,36); (2010762086001868173539329976414348,36);
  (4357361911599165639089409467224098,36); (3153971289485877275094435951930825,36);
  (8080093906482529311181109296966912,36); (4290074133440729946817906079599084,36);
  (1293423008322441546251605630455853,35); (5416339394798984310757027563601148,36);
  (1890862264097238114400812676638241,35); (6530155819997423168084171460957738,36);
  (2598953591579624681311512963535676,35); (7628956073224155174632694072311392,36);
  (3416068588562533101716150632680697,35); (8710210998835124247682879984599052,36);
  (4340327972857686913172653950852809,35); (9771432918375031413418714656500550,36);
  (5369605974763053428835723015124982,35); (1081018064246703142082713733374322,35);
  (6501535253679648190293402096765932,35); (1182406484564361834939048949699509,35);
  (7733512355003485802877497963239387,35); (1281075346901887910704248934677408,35);
  (9062703703867427328304043133710077,35); (1376797704422517197124986116355693,35);
  (1048605212539390784763097919629873,34); (1469353389465533403132242960488686,35);
  (1200028387790001065630086234418909,34); (1558529519009457123221592288833053,35);
  (1360191618352876604940131353534009,34); (1644120983818428749202481900407118,35);
  (1528726523930041832236887600261776,34); (1725930919927452931261063842969629,35);
  (1705245469031874334795296140195969,34); (1803771161278263696608313526222676,35);
  (1889342454572998792087002240680989,34); (1877462672412885490488611159912671,35);
  (2080594051697563433364227687840282,34); (1946835960202559880833690318197354,35);
  (2278560375688864307272137601262465,34); (2011731463650276690772316887168787,35);
  (2482786097724965588294784743044808,34); (2071999920862014651134314961627162,35);
  (2692801492154274711510829499493881,34); (2127502712337790135960857540132690,35);
  (2908123516882954953679004946235045,34); (2178112179790024326614241083069931,35);
  (3128256924389669939956030545784880,34); (2223711919754148721366175199997303,35);
  (3352695400812567961773566437935608,34); (2264197051315011532856412028708999,35);
  (3580922730488756346911722870197616,34); (2299474457332584848194669540891724,35);
  (3812413983267915967146437863390302,34); (2329462998611674915112756839484637,35);
  (4046636721869286151125438204669977,34); (2354093700522726112300340414508120,35);
  (4283052226505124144343751890070693,34); (2373309911644275157632222937001296,35);
  (4521116733954012471738907227287761,34); (2387067434062031077951948611327800,35);
  (4760282688234140712387351228550326,34); (2395334625024793101567364458811319,35);
  (5000000000000000000000000000000000,34); (2398092469723330906035381068451038,35);
  (5239717311765859287612648771449674,34); (2395334625024793101567364458811319,35);
  (5478883266045987528261092772712239,34); (2387067434062031077951948611327800,35);
  (5716947773494875855656248109929307,34); (2373309911644275157632222937001296,35);
  (5953363278130713848874561795330023,34); (2354093700522726112300340414508120,35);
  (6187586016732084032853562136609698,34); (2329462998611674915112756839484637,35);
  (6419077269511243653088277129802384,34); (2299474457332584848194669540891724,35);
  (6647304599187432038226433562064392,34); (2264197051315011532856412028708999,35);
  (6871743075610330060043969454215120,34); (2223711919754148721366175199997303,35);
  (7091876483117045046320995053764955,34); (2178112179790024326614241083069931,35);
  (7307198507845725288489170500506119,34); (2127502712337790135960857540132690,35);
  (7517213902275034411705215256955192,34); (2071999920862014651134314961627162,35);
  (7721439624311135692727862398737535,34); (2011731463650276690772316887168787,35);
  (7919405948302436566635772312159718,34); (1946835960202559880833690318197354,35);
  (8110657545427001207912997759319011,34); (1877462672412885490488611159912671,35);
  (8294754530968125665204703859804032,34); (1803771161278263696608313526222676,35);
  (8471273476069958167763112399738224,34); (1725930919927452931261063842969629,35);
  (8639808381647123395059868646465991,34); (1644120983818428749202481900407118,35);
  (8799971612209998934369913765581091,34); (1558529519009457123221592288833053,35);
  (8951394787460609215236902080370127,34); (1469353389465533403132242960488686,35);
  (9093729629613257267169595686628992,34); (1376797704422517197124986116355693,35);
  (9226648764499651419712250203676062,34); (1281075346901887910704248934677408,35);
  (9349846474632035180970659790323406,34); (1182406484564361834939048949699509,35);
  (9463039402523694657116427698487502,34); (1081018064246703142082713733374322,35);
  (9565967202714231308682734604914719,34); (9771432918375031413418714656500550,36);
  (9658393141143746689828384936731931,34); (8710210998835124247682879984599052,36);
  (9740104640842037531868848703646433,34); (7628956073224155174632694072311392,36);
  (9810913773590276188559918732336175,34); (6530155819997423168084171460957738,36);
  (9870657699167755845374839436954415,34); (5416339394798984310757027563601148,36);
  (9919199060935174706888188907030331,34); (4290074133440729946817906079599084,36);
  (9956426380884008343609105905327759,34); (3153971289485877275094435951930825,36);
  (9982254740309245815278974691610654,34); (2010762086001868173539329976414348,36);
  (9996630485377064386328468056210740,34); (8646291256501254491697925731519527,37)].
Definition gauss_66 : list (Z * Z) := [
  (3268950639110589635915077551232781,37); (8388268720036192996657864697883729,37);
  (1721589455223654438915853186417243,36); (1950812820872124129614230201117412,36);
  (4227484808312127234118656254248746,36); (3060096009223968182783963379966262,36);
  (7839547532429933554723443325134774,36); (4162694382995450708362772836919428,36);
  (1254978612685702407205092010221075,35); (5256032993852877328688463912454588,36);
  (1834770657037131451756941793920621,35); (6337651990630840938222594524527185,36);
  (2522037689688233045376661112345798,35); (7405132501366980086821269891302593,36);
  (3315246372760375281368417266772785,35); (8456090736122608590175147550847747,36);
  (4212626852739649202478538390717494,35); (9488180861385662967433519190956509,36);
  (5212176777671803076958182894201604,35); (1049909954593231288866552221655871,35);
  (6311665791652763479949738738057620,35); (1148659086766332795904932271959632,35);
  (7508640523199189026895085861686352,35); (1244845125737868631886546592516292,35);
  (8800430065220619432645901977185990,35); (1338253437712500095439648415364879,35);
  (1018415193770877147336351235080286,34); (1428675589146593559141114869597969,35);
  (1165671852123401870652285192139180,34); (1515909810943425959682037929087337,35);
  (1321484394752436002103815005731960,34); (1599761448202344363564086047485026,35);
  (1485505143205629070818703754068336,34); (1680043394305611633517446359851956,35);
  (1657368103245162036978564202420804,34); (1756576508273627795032054813002180,35);
  (1836689781545184152980526851045184,34); (1829190014406954720684498074530632,35);
  (2023070041429307708360328190130412,34); (1897721883297081047456504969928185,35);
  (2216092995741384678825260927926514,34); (1962019193341416509390642974488446,35);
  (2415327934858842432137122989139269,34); (2021938471947748956293418796647335,35);
  (2620330287778815785190349927683908,34); (2077346015662094065886726834371052,35);
  (2830642614133146658211521819203263,34); (2128118188502785815945336938506604,35);
  (3045795624919085251224389275125800,34); (2174141697833373932378769500856946,35);
  (3265309229668312255501226328365954,34); (2215313847157658095230167755443938,35);
  (3488693607717819499919355424313535,34); (2251542765272075010759640341864436,35);
  (3715450301192348885029002104406761,34); (2282747611263652806021942110529222,35);
  (3945073327259605032627294255266577,34); (2308858754895798773583323578652312,35);
  (4177050307176426963731747406206279,34); (2329817931979205181291206891114707,35);
  (4410863609606620014426428486834673,34); (2345578374381041387312702047611922,35);
  (4645991505659292043553181624318156,34); (2356104914382236609272258482232712,35);
  (4881909333070377147318883391990191,34); (2361374063149927742281666386912391,35);
  (5118090666929622852681116608009809,34); (2361374063149927742281666386912391,35);
  (5354008494340707956446818375681844,34); (2356104914382236609272258482232712,35);
  (5589136390393379985573571513165327,34); (2345578374381041387312702047611922,35);
  (5822949692823573036268252593793722,34); (2329817931979205181291206891114707,35);
  (6054926672740394967372705744733423,34); (2308858754895798773583323578652312,35);
  (6284549698807651114970997895593239,34); (2282747611263652806021942110529222,35);
  (6511306392282180500080644575686464,34); (2251542765272075010759640341864436,35);
  (6734690770331687744498773671634046,34); (2215313847157658095230167755443938,35);
  (6954204375080914748775610724874199,34); (2174141697833373932378769500856946,35);
  (7169357385866853341788478180796737,34); (2128118188502785815945336938506604,35);
  (7379669712221184214809650072316092,34); (2077346015662094065886726834371052,35);
  (7584672065141157567862877010860732,34); (2021938471947748956293418796647335,35);
  (7783907004258615321174739072073486,34); (1962019193341416509390642974488446,35);
  (7976929958570692291639671809869588,34); (1897721883297081047456504969928185,35);
  (8163310218454815847019473148954816,34); (1829190014406954720684498074530632,35);
  (8342631896754837963021435797579196,34); (1756576508273627795032054813002180,35);
  (8514494856794370929181296245931663,34); (1680043394305611633517446359851956,35);
  (8678515605247563997896184994268040,34); (1599761448202344363564086047485026,35);
  (8834328147876598129347714807860820,34); (1515909810943425959682037929087337,35);
  (8981584806229122852663648764919714,34); (1428675589146593559141114869597969,35);
  (9119956993477938056735409802281401,34); (1338253437712500095439648415364879,35);
  (9249135947680081097310491413831365,34); (1244845125737868631886546592516292,35);
  (9368833420834723652005026126194238,34); (1148659086766332795904932271959632,35);
  (9478782322232819692304181710579840,34); (1049909954593231288866552221655871,35);
  (9578737314726035079752146160928251,34); (9488180861385662967433519190956509,36);
  (9668475362723962471863158273322721,34); (8456090736122608590175147550847747,36);
  (9747796231031176695462333888765421,34); (7405132501366980086821269891302593,36);
  (9816522934296286854824305820607938,34); (6337651990630840938222594524527185,36);
  (9874502138731429759279490798977892,34); (5256032993852877328688463912454588,36);
  (9921604524675700664452765566748653,34); (4162694382995450708362772836919428,36);
  (9957725151916878727658813437457513,34); (3060096009223968182783963379966262,36);
  (9982784105447763455610841468135827,34); (1950812820872124129614230201117412,36);
  (9996731049360889410364084922448767,34); (8388268720036192996657864697883729,37)].
Definition gauss_67 : list (Z * Z) := [
  (3172822235116010147918412696410669,37); (8141625176200064332314731109499389,37);
  (1670986396943132317814628198015872,36); (1893504150912754222981958445245829,36);
  (4103326458845195269151112770686852,36); (2970346588791117608256681249240090,36);
  (7609576122024443278703600077763418,36); (4040895149511568107673142346240217,36);
  (1218220803854597380287279411399372,35); (5102720017051220493330934502340079,36);
  (1781133478614369415217642503464183,35); (6153501924644075260977073775477173,36);
  (2448477022992731339382593050958081,35); (7190959913600275465488692211631056,36);
  (3218806336462456156667354760556611,35); (8212845311265439602363405138215362,36);
  (4090453159363070937637635549843185,35); (9216944228402286936082999515262954,36);
  (5061529751933981209075549658088024,35); (1020108168567177022462864131036397,35);
  (6129933008417063979985090931482973,35); (1116312609822603846139865557567935,35);
  (7293349023147467460462829916999490,35); (1210099380483658236034591151959396,35);
  (8549258107334940115546302584058493,35); (1301265354310661940185252114305604,35);
  (9894940248915278279137321770359504,35); (1389613083121838499359991526756488,35);
  (1132748100500098362292255451158295,34); (1474951223547283484792363218793992,35);
  (1284377781478168966520192609862651,34); (1557094950973641196871300417234828,35);
  (1444054671949798360725820278661246,34); (1635866359576560271356115397629529,35);
  (1611432947508595856097374214077928,34); (1711094847476832336991938213082826,35);
  (1786150104216923228609329065368778,34); (1782617486137250333066631139361845,35);
  (1967827743722213068998510844131279,34); (1850279373174629101156751358927771,35);
  (2156072392792644893712141564150166,34); (1913933967808974032381852916811564,35);
  (2350476355498819919150996121511415,34); (1973443408215444132144341454502477,35);
  (2550618596196766869522035140298803,34); (2028678810087226261362577846930289,35);
  (2756065651400545580024336183144409,34); (2079520545759962154927413207971507,35);
  (2966372568569930420073503418823447,34); (2125858503291524573577387770478044,35);
  (3181083869780229145869777664126933,34); (2167592324934975867957788186121424,35);
  (3399734538187318344665624060889258,34); (2204631624487550915391579044112773,35);
  (3621851025151552061422223645241337,34); (2236896183044491273607088362972512,35);
  (3846952275839421310373850662901959,34); (2264316122733476578402500043808312,35);
  (4074550771081799155918842762883681,34); (2286832058053184546844708928469470,35);
  (4304153583232381432180546527957480,34); (2304395224488078809860869464417380,35);
  (4535263443739600616841396720244116,34); (2316967584120781055422352432043229,35);
  (4767379820119913902176804357680942,34); (2324521908013231410415732852656392,35);
  (5000000000000000000000000000000000,34); (2327041835178175412495014465175478,35);
  (5232620179880086097823195642319058,34); (2324521908013231410415732852656392,35);
  (5464736556260399383158603279755884,34); (2316967584120781055422352432043229,35);
  (5695846416767618567819453472042520,34); (2304395224488078809860869464417380,35);
  (5925449228918200844081157237116319,34); (2286832058053184546844708928469470,35);
  (6153047724160578689626149337098041,34); (2264316122733476578402500043808312,35);
  (6378148974848447938577776354758663,34); (2236896183044491273607088362972512,35);
  (6600265461812681655334375939110742,34); (2204631624487550915391579044112773,35);
  (6818916130219770854130222335873067,34); (2167592324934975867957788186121424,35);
  (7033627431430069579926496581176553,34); (2125858503291524573577387770478044,35);
  (7243934348599454419975663816855591,34); (2079520545759962154927413207971507,35);
  (7449381403803233130477964859701197,34); (2028678810087226261362577846930289,35);
  (7649523644501180080849003878488585,34); (1973443408215444132144341454502477,35);
  (7843927607207355106287858435849834,34); (1913933967808974032381852916811564,35);
  (8032172256277786931001489155868721,34); (1850279373174629101156751358927771,35);
  (8213849895783076771390670934631222,34); (1782617486137250333066631139361845,35);
  (8388567052491404143902625785922072,34); (1711094847476832336991938213082826,35);
  (8555945328050201639274179721338754,34); (1635866359576560271356115397629529,35);
  (8715622218521831033479807390137349,34); (1557094950973641196871300417234828,35);
  (8867251899499901637707744548841705,34); (1474951223547283484792363218793992,35);
  (9010505975108472172086267822964050,34); (1389613083121838499359991526756488,35);
  (9145074189266505988445369741594151,34); (1301265354310661940185252114305604,35);
  (9270665097685253253953717008300051,34); (1210099380483658236034591151959396,35);
  (9387006699158293602001490906851703,34); (1116312609822603846139865557567935,35);
  (9493847024806601879092445034191198,34); (1020108168567177022462864131036397,35);
  (9590954684063692906236236445015681,34); (9216944228402286936082999515262954,36);
  (9678119366353754384333264523944339,34); (8212845311265439602363405138215362,36);
  (9755152297700726866061740694904192,34); (7190959913600275465488692211631056,36);
  (9821886652138563058478235749653581,34); (6153501924644075260977073775477173,36);
  (9878177919614540261971272058860063,34); (5102720017051220493330934502340079,36);
  (9923904238779755567212963999222366,34); (4040895149511568107673142346240217,36);
  (9958966735411548047308488872293131,34); (2970346588791117608256681249240090,36);
  (9983290136030568676821853718019841,34); (1893504150912754222981958445245829,36);
  (9996827177764883989852081587303590,34); (8141625176200064332314731109499389,37)].
Definition gauss_68 : list (Z * Z) := [
  (3080872351478264180329747701649895,37); (7905701281864564695475293955503890,37);
  (1622581661667853731913263934338929,36); (1838683297505865316784041009772433,36);
  (3984556128775712676077348606306529,36); (2884484959364976010734235772414137,36);
  (7389569279877680552752323534626581,36); (3924355696588583707525230423089506,36);
  (1183052479982152152869422021647581,35); (4956000625792968604565189199054085,36);
  (1729809870890009838402250672243011,35); (5977231159884721051611528653473810,36);
  (2378079776019897533832058781484634,35); (6985894587228827907982512874783533,36);
  (3126499084359955675718972377879658,35); (7979867954806900036066702160390834,36);
  (3973493957604091676972381839863256,35); (8957060228961576244702732370907576,36);
  (4917283203994608489214537273152113,35); (9915416043977749145514335291491183,36);
  (5955882049127204115136793471125790,35); (1085291980518903990073284040773118,35);
  (7087106320867007725251885413571980,35); (1176759984293816668064649105399901,35);
  (8308577047916452708964448603067366,35); (1265753252258819916195135531299670,35);
  (9617725465514566738318687063519381,35); (1352084627295198077898905914470333,35);
  (1101179841905511706275243515565000,34); (1435572551374249535540196004563400,35);
  (1248786415485417401162108850906135,34); (1516041446927699017078964182258247,35);
  (1404281848617635036884632779892623,34); (1593322085841053246967382171032985,35);
  (1567339132169935276078219387973467,34); (1667251945199034395157156394288581,35);
  (1737615354276615178997226578948363,34); (1737675548987575658339655883531793,35);
  (1914752421500582886415264352936032,34); (1804444795008993535748791247951253,35);
  (2098377811918246299124323806097796,34); (1867419266309333385803956144680544,35);
  (2288105358544983070927547127222701,34); (1926466526455335724662681648736278,35);
  (2483536061454575636824323584847663,34); (1981462398035615401270322714476180,35);
  (2684258926885304804136140499848742,34); (2032291223797703807044086355627312,35);
  (2889851831568432104265306040322601,34); (2078846109870145824228774125968979,35);
  (3099882410461627612510179121229205,34); (2121029150557124965030711555419273,35);
  (3313908966020596186362573801659708,34); (2158751634232211161292176526991192,35);
  (3531481397096806300107884405960477,34); (2191934229897802600530247914124179,35);
  (3752142145507916327442126194530132,34); (2220507154017637795467434967918222,35);
  (3975427158290303520787351094018474,34); (2244410317271333391317606559363900,35);
  (4200866863610105195023897685541833,34); (2263593450922188893470584949800064,35);
  (4427987158280446577847111399165801,34); (2278016212532414299035385627572269,35);
  (4656310404808114238943049735335460,34); (2287648270803397525950307267380232,35);
  (4885356435872888251430018783729280,34); (2292469369362548734328199451279365,35);
  (5114643564127111748569981216270720,34); (2292469369362548734328199451279365,35);
  (5343689595191885761056950264664540,34); (2287648270803397525950307267380232,35);
  (5572012841719553422152888600834199,34); (2278016212532414299035385627572269,35);
  (5799133136389894804976102314458167,34); (2263593450922188893470584949800064,35);
  (6024572841709696479212648905981525,34); (2244410317271333391317606559363900,35);
  (6247857854492083672557873805469868,34); (2220507154017637795467434967918222,35);
  (6468518602903193699892115594039523,34); (2191934229897802600530247914124179,35);
  (6686091033979403813637426198340292,34); (2158751634232211161292176526991192,35);
  (6900117589538372387489820878770795,34); (2121029150557124965030711555419273,35);
  (7110148168431567895734693959677399,34); (2078846109870145824228774125968979,35);
  (7315741073114695195863859500151258,34); (2032291223797703807044086355627312,35);
  (7516463938545424363175676415152337,34); (1981462398035615401270322714476180,35);
  (7711894641455016929072452872777299,34); (1926466526455335724662681648736278,35);
  (7901622188081753700875676193902205,34); (1867419266309333385803956144680544,35);
  (8085247578499417113584735647063968,34); (1804444795008993535748791247951253,35);
  (8262384645723384821002773421051636,34); (1737675548987575658339655883531793,35);
  (8432660867830064723921780612026532,34); (1667251945199034395157156394288581,35);
  (8595718151382364963115367220107377,34); (1593322085841053246967382171032985,35);
  (8751213584514582598837891149093865,34); (1516041446927699017078964182258247,35);
  (8898820158094488293724756484435001,34); (1435572551374249535540196004563400,35);
  (9038227453448543326168131293648062,34); (1352084627295198077898905914470333,35);
  (9169142295208354729103555139693264,34); (1265753252258819916195135531299670,35);
  (9291289367913299227474811458642802,34); (1176759984293816668064649105399901,35);
  (9404411795087279588486320652887421,34); (1085291980518903990073284040773118,35);
  (9508271679600539151078546272684789,34); (9915416043977749145514335291491183,36);
  (9602650604239590832302761816013675,34); (8957060228961576244702732370907576,36);
  (9687350091564004432428102762212034,34); (7979867954806900036066702160390834,36);
  (9762192022398010246616794121851537,34); (6985894587228827907982512874783533,36);
  (9827019012910999016159774932775699,34); (5977231159884721051611528653473810,36);
  (9881694752001784784713057797835242,34); (4956000625792968604565189199054085,36);
  (9926104307201223194472476764653734,34); (3924355696588583707525230423089506,36);
  (9960154438712242873239226513936935,34); (2884484959364976010734235772414137,36);
  (9983774183383321462680867360656611,34); (1838683297505865316784041009772433,36);
  (9996919127648521735819670252298350,34); (7905701281864564695475293955503890,37)].
Definition gauss_69 : list (Z * Z) := [
  (2992862283776058959695161769393023,37); (7679884763960420375647009188708730,37);
  (1576249757402449770251492523177386,36); (1786208369698686304851872614250625,36);
  (3870866641573440649783043390266617,36); (2802289963935297414267995966845225,36);
  (7178959988681203381430323689438737,36); (3812777965600755305729134808305497,36);
  (1149383418895286830526695448923526,35); (4815503075207787794330148502354400,36);
  (1680668917856971657210009416460137,35); (5808398305335982774369936472725821,36);
  (2310667609740905123303008118444844,35); (6789430324537835499905933814390224,36);
  (3038092647919576351658209992171137,35); (7756593271703082369884554361835241,36);
  (3861458040977750140559110773014725,35); (8707910615984914566036893654275682,36);
  (4779081750708642996673758338170686,35); (9641438564424701394622189024551141,36);
  (5789089152637378166859057121806252,35); (1055526981993594731394508825104103,35);
  (6889416876362795807141398858553014,35); (1144753739537039282776072524033951,35);
  (8077817025974789336919176350745705,35); (1231641839227122768216794879507042,35);
  (9351861774985219307175995951202323,35); (1316013770843474189588036550900961,35);
  (1070894832766201198323154754597240,34); (1397697165609385299543085305230110,35);
  (1214630423720810742026384027836213,34); (1476525147895335588990553058681266,35);
  (1366099307019959556714199350239874,34); (1552336675894526951634285860007636,35);
  (1524992040585357695351280738567010,34); (1624976870482305562236694750360153,35);
  (1690984015794608779878868841925960,34); (1694297331541614474890491037621865,35);
  (1863736120650752991162712206663581,34); (1760156441084174307387718175389342,35);
  (2042895432577220872153452477889875,34); (1822419652535025702832175423431121,35);
  (2228095939424339927310135043909367,34); (1880959765582045325407918328677760,35);
  (2418959287215331454140896397748637,34); (1935657186024625696636972307461518,35);
  (2615095553104771448292795616724724,34); (1986400170088082060322927345503656,35);
  (2816104041970777895650615533070391,34); (2033085052703080026876301015451946,35);
  (3021574105013777763241219477028114,34); (2075616459282725104143703083420600,35);
  (3231085978689668410199364532735652,34); (2113907500564025642579134312883803,35);
  (3444211642263594067070473348386415,34); (2147879950115260693920995111263892,35);
  (3660515692232482857092007016872785,34); (2177464404146337051678788853103439,35);
  (3879556231830004933592679424582923,34); (2202600423295464219049295866100332,35);
  (4100885773796784178201433909468800,34); (2223236656102356904811554867095937,35);
  (4324052154571585039207641980150414,34); (2239330943915627877106763911240303,35);
  (4548599458035856287189401664679959,34); (2250850407019990109935809635802190,35);
  (4774068946924491382341837982709433,34); (2257771511807273025825852660998202,35);
  (5000000000000000000000000000000000,34); (2260080118853997712114460593776814,35);
  (5225931053075508617658162017290567,34); (2257771511807273025825852660998202,35);
  (5451400541964143712810598335320041,34); (2250850407019990109935809635802190,35);
  (5675947845428414960792358019849585,34); (2239330943915627877106763911240303,35);
  (5899114226203215821798566090531199,34); (2223236656102356904811554867095937,35);
  (6120443768169995066407320575417077,34); (2202600423295464219049295866100332,35);
  (6339484307767517142907992983127214,34); (2177464404146337051678788853103439,35);
  (6555788357736405932929526651613585,34); (2147879950115260693920995111263892,35);
  (6768914021310331589800635467264348,34); (2113907500564025642579134312883803,35);
  (6978425894986222236758780522971886,34); (2075616459282725104143703083420600,35);
  (7183895958029222104349384466929609,34); (2033085052703080026876301015451946,35);
  (7384904446895228551707204383275275,34); (1986400170088082060322927345503656,35);
  (7581040712784668545859103602251363,34); (1935657186024625696636972307461518,35);
  (7771904060575660072689864956090633,34); (1880959765582045325407918328677760,35);
  (7957104567422779127846547522110125,34); (1822419652535025702832175423431121,35);
  (8136263879349247008837287793336420,34); (1760156441084174307387718175389342,35);
  (8309015984205391220121131158074039,34); (1694297331541614474890491037621865,35);
  (8475007959414642304648719261432990,34); (1624976870482305562236694750360153,35);
  (8633900692980040443285800649760126,34); (1552336675894526951634285860007636,35);
  (8785369576279189257973615972163787,34); (1476525147895335588990553058681266,35);
  (8929105167233798801676845245402760,34); (1397697165609385299543085305230110,35);
  (9064813822501478069282400404879767,34); (1316013770843474189588036550900961,35);
  (9192218297402521066308082364925430,34); (1231641839227122768216794879507042,35);
  (9311058312363720419285860114144699,34); (1144753739537039282776072524033951,35);
  (9421091084736262183314094287819375,34); (1055526981993594731394508825104103,35);
  (9522091824929135700332624166182931,34); (9641438564424701394622189024551141,36);
  (9613854195902224985944088922698528,34); (8707910615984914566036893654275682,36);
  (9696190735208042364834179000782886,34); (7756593271703082369884554361835241,36);
  (9768933239025909487669699188155515,34); (6789430324537835499905933814390224,36);
  (9831933108214302834278999058353986,34); (5808398305335982774369936472725821,36);
  (9885061658110471316947330455107647,34); (4815503075207787794330148502354400,36);
  (9928210400113187966185696763105613,34); (3812777965600755305729134808305497,36);
  (9961291333584265593502169566097334,34); (2802289963935297414267995966845225,36);
  (9984237502425975502297485074768227,34); (1786208369698686304851872614250625,36);
  (9997007137716223941040304838230606,34); (7679884763960420375647009188708730,37)].
Definition gauss_70 : list (Z * Z) := [
  (2908570132120789716287090573952907,37); (7463606444222578655196780285689356,37);
  (1531874019159921695093252082922233,36); (1735947446539071627499596240523124,36);
  (3761972394155009450528957120304965,36); (2723555937108609156410482811948436,36);
  (6977220964800670036449330341332562,36); (3705884681595105181055463661601543,36);
  (1117129702120379980304618593188363,35); (4680881384849513405749757117893070,36);
  (1633588816750678080569088213795563,35); (5646592324965768824815498488572467,36);
  (2246074544285357867983632268574029,35); (6601095407338373812536745443242105,36);
  (2953371049809232223859229212900644,35); (7542493932721563841147593607198224,36);
  (3754074155103277986386701740755639,35); (8468918188151466265918427087343674,36);
  (4646594186953857528182363785302908,35); (9378528546566711707725565160934970,36);
  (5629159156832591443781325500295626,35); (1026951891216322669224629016633655,35);
  (6699818289307068530998274028969861,35); (1114012022612829791694542080977216,35);
  (7856445900050987884070323490128298,35); (1198860394455014613934334707676664,35);
  (9096745618727940548638400644665657,35); (1281328545423424139949241614969227,35);
  (1041825494960536209461619127575929,34); (1361252740933220857955360508121654,35);
  (1181835016140502155374524717516333,34); (1438474297790414033065519189010255,35);
  (1329425149695286793461741605309007,34); (1512839899007711890826837178621631,35);
  (1484302869242357014685263198887771,34); (1584201898065424086732642801123382,35);
  (1646160679529612971768594024942895,34); (1652418611968621023543714269895695,35);
  (1814677226951109518605701776564850,34); (1717354602495326878427266467426743,35);
  (1989517937573222563316167088982812,34); (1778880945064619026638485697630748,35);
  (2170335681405958568135203212649941,34); (1836875484683634767402013794736480,35);
  (2356771461601444363674596216695909,34); (1891223078461140859863606959950758,35);
  (2548455127211817053651109293235948,34); (1941815824203670198950152179844246,35);
  (2745006108091760671341801480594411,34); (1988553274638828373892477299656285,35);
  (2946034170486847053143686160328185,34); (2031342636839480817561295542826936,35);
  (3151140191807690520802976526835410,34); (2070098956452260431911325198986062,35);
  (3359916953051783710769342727564725,34); (2104745286364220301049194409133698,35);
  (3571949947299810691541676095698057,34); (2135212839472488888498285512216942,35);
  (3786818202681296771082104868081048,34); (2161441125253434989469761938723922,35);
  (4004095118175711679242982691899699,34); (2183378069860072012627421444599084,35);
  (4223349310589648763454972542486830,34); (2200980119509172937867789017555744,35);
  (4444145471028506531321238347248596,34); (2214212326952770338789983719597732,35);
  (4666045229162243379981402817802012,34); (2223048420862318541177863831294775,35);
  (4888608023569298451532536087555949,34); (2227470857987733360108374854007817,35);
  (5111391976430701548467463912444051,34); (2227470857987733360108374854007817,35);
  (5333954770837756620018597182197987,34); (2223048420862318541177863831294775,35);
  (5555854528971493468678761652751404,34); (2214212326952770338789983719597732,35);
  (5776650689410351236545027457513170,34); (2200980119509172937867789017555744,35);
  (5995904881824288320757017308100301,34); (2183378069860072012627421444599084,35);
  (6213181797318703228917895131918952,34); (2161441125253434989469761938723922,35);
  (6428050052700189308458323904301943,34); (2135212839472488888498285512216942,35);
  (6640083046948216289230657272435275,34); (2104745286364220301049194409133698,35);
  (6848859808192309479197023473164590,34); (2070098956452260431911325198986062,35);
  (7053965829513152946856313839671815,34); (2031342636839480817561295542826936,35);
  (7254993891908239328658198519405589,34); (1988553274638828373892477299656285,35);
  (7451544872788182946348890706764051,34); (1941815824203670198950152179844246,35);
  (7643228538398555636325403783304091,34); (1891223078461140859863606959950758,35);
  (7829664318594041431864796787350059,34); (1836875484683634767402013794736480,35);
  (8010482062426777436683832911017187,34); (1778880945064619026638485697630748,35);
  (8185322773048890481394298223435150,34); (1717354602495326878427266467426743,35);
  (8353839320470387028231405975057106,34); (1652418611968621023543714269895695,35);
  (8515697130757642985314736801112229,34); (1584201898065424086732642801123382,35);
  (8670574850304713206538258394690993,34); (1512839899007711890826837178621631,35);
  (8818164983859497844625475282483667,34); (1438474297790414033065519189010255,35);
  (8958174505039463790538380872424071,34); (1361252740933220857955360508121654,35);
  (9090325438127205945136159935533435,34); (1281328545423424139949241614969227,35);
  (9214355409994901211592967650987170,34); (1198860394455014613934334707676664,35);
  (9330018171069293146900172597103014,34); (1114012022612829791694542080977216,35);
  (9437084084316740855621867449970437,34); (1026951891216322669224629016633655,35);
  (9535340581304614247181763621469709,34); (9378528546566711707725565160934970,36);
  (9624592584489672201361329825924436,34); (8468918188151466265918427087343674,36);
  (9704662895019076777614077078709936,34); (7542493932721563841147593607198224,36);
  (9775392545571464213201636773142597,34); (6601095407338373812536745443242105,36);
  (9836641118324932191943091178620444,34); (5646592324965768824815498488572467,36);
  (9888287029787962001969538140681164,34); (4680881384849513405749757117893070,36);
  (9930227790351993299635506696586675,34); (3705884681595105181055463661601543,36);
  (9962380276058449905494710428796950,34); (2723555937108609156410482811948436,36);
  (9984681259808400783049067479170778,34); (1735947446539071627499596240523124,36);
  (9997091429867879210283712909426047,34); (7463606444222578655196780285689356,37)].
Definition gauss_71 : list (Z * Z) := [
  (2827789401315362191700264171056044,37); (7256336650146986342490205134301228,37);
  (1489345874372434967163700994381957,36); (1687777748365337932563345304162135,36);
  (3657607564679215029097182641819547,36); (2648091422012946316339810507382072,36);
  (6783861365869315953929076666799394,36); (3603417640915746693672326710969683,36);
  (1086213194319910356258796423097204,35); (4551813230996002925658373772360786,36);
  (1588456128683732715984770437916939,35); (5491430077149275853137272603577070,36);
  (2184145947947356255764781251355812,35); (6420449834043903035208976302244820,36);
  (2872133003886442043780216311068531,35); (7337077667305764600203813990032325,36);
  (3651089387456429461593474563561021,35); (8239543603731198275296220309993759,36);
  (4519511550773282027918254885755325,35); (9126105352339335251164690162566974,36);
  (5475723232239674416304411950384103,35); (9995051466175055643742571863741620,36);
  (6517878702184629442645589846708444,35); (1084470456799268398091616323118845,35);
  (7643966330406301552946640406868317,35); (1167342455461162631585747658879840,35);
  (8851812471622362380531747485066048,35); (1247961174715693652763783553657705,35);
  (1013908566253410196802546289395113,34); (1326170997107895400405272702628023,35);
  (1150330112294816762974173191525197,34); (1401820955587074530899000696604200,35);
  (1294182555253115759948279466257627,34); (1474765024685440623246824377032239,35);
  (1445188221407278145126973700954245,34); (1544862402254536084930292043636853,35);
  (1603055629351777118577109373197779,34); (1611977781172176347095358013475949,35);
  (1767480052646061785992982604462150,34); (1675981610472701541720306446820027,35);
  (1938144108026588318448119546836371,34); (1736750345384109418768263653505453,35);
  (2114718368047400947571005014085247,34); (1794166685782445538898421361004171,35);
  (2296861996967563219975443332044107,34); (1848119802599101592804145886006893,35);
  (2484223408658549645831973092230367,34); (1898505551741557810720898095926441,35);
  (2676440945262010885262106863509079,34); (1945226675113147374620137145212312,35);
  (2873143575288152220683742563905252,34); (1988192988342879083716852925605147,35);
  (3073951609807363520051398359923494,34); (2027321554862344821746261097346564,35);
  (3278477435352764876447662649163327,34); (2062536845993301212455444651853151,35);
  (3486326262119043117825289654237425,34); (2093770886736650309477130163678015,35);
  (3697096886013406689880367735537904,34); (2120963386981229651766966332164479,35);
  (3910382463087733322328084867912045,34); (2144061857879021751030354317593420,35);
  (4125771294857075684151562050712810,34); (2163021713162063329942812780818040,35);
  (4342847622988669564935450392469187,34); (2177806355205426668556698618143774,35);
  (4561192431827496588190965483067934,34); (2188387245670107248615491254301319,35);
  (4780384257209323353338915324266396,34); (2194743960589429316062628330792782,35);
  (5000000000000000000000000000000000,34); (2196864229792618287911298732296447,35);
  (5219615742790676646661084675733604,34); (2194743960589429316062628330792782,35);
  (5438807568172503411809034516932066,34); (2188387245670107248615491254301319,35);
  (5657152377011330435064549607530813,34); (2177806355205426668556698618143774,35);
  (5874228705142924315848437949287190,34); (2163021713162063329942812780818040,35);
  (6089617536912266677671915132087954,34); (2144061857879021751030354317593420,35);
  (6302903113986593310119632264462096,34); (2120963386981229651766966332164479,35);
  (6513673737880956882174710345762576,34); (2093770886736650309477130163678015,35);
  (6721522564647235123552337350836673,34); (2062536845993301212455444651853151,35);
  (6926048390192636479948601640076506,34); (2027321554862344821746261097346564,35);
  (7126856424711847779316257436094748,34); (1988192988342879083716852925605147,35);
  (7323559054737989114737893136490921,34); (1945226675113147374620137145212312,35);
  (7515776591341450354168026907769633,34); (1898505551741557810720898095926441,35);
  (7703138003032436780024556667955893,34); (1848119802599101592804145886006893,35);
  (7885281631952599052428994985914754,34); (1794166685782445538898421361004171,35);
  (8061855891973411681551880453163629,34); (1736750345384109418768263653505453,35);
  (8232519947353938214007017395537850,34); (1675981610472701541720306446820027,35);
  (8396944370648222881422890626802220,34); (1611977781172176347095358013475949,35);
  (8554811778592721854873026299045755,34); (1544862402254536084930292043636853,35);
  (8705817444746884240051720533742373,34); (1474765024685440623246824377032239,35);
  (8849669887705183237025826808474803,34); (1401820955587074530899000696604200,35);
  (8986091433746589803197453710604887,34); (1326170997107895400405272702628023,35);
  (9114818752837763761946825251493395,34); (1247961174715693652763783553657705,35);
  (9235603366959369844705335959313169,34); (1167342455461162631585747658879840,35);
  (9348212129781537055735441015329156,34); (1084470456799268398091616323118845,35);
  (9452427676776032558369558804961590,34); (9995051466175055643742571863741620,36);
  (9548048844922671797208174511424468,34); (9126105352339335251164690162566974,36);
  (9634891061254357053840652543643898,34); (8239543603731198275296220309993759,36);
  (9712786699611355795621978368893146,34); (7337077667305764600203813990032325,36);
  (9781585405205264374423521874864419,34); (6420449834043903035208976302244820,36);
  (9841154387131626728401522956208307,34); (5491430077149275853137272603577070,36);
  (9891378680568008964374120357690280,34); (4551813230996002925658373772360786,36);
  (9932161386341306840460709233332006,34); (3603417640915746693672326710969683,36);
  (9963423924353207849709028173581804,34); (2648091422012946316339810507382072,36);
  (9985106541256275650328362990056180,34); (1687777748365337932563345304162135,36);
  (9997172210598684637808299735828943,34); (7256336650146986342490205134301228,37)].
Definition gauss_72 : list (Z * Z) := [
  (2750327735186789090730911763958951,37); (7057581969867170678595308585452029,37);
  (1448564178635460767016731823864267,36); (1641584887333747900950256451189942,36);
  (3557524491599045885948079548309764,36); (2575718009395443454125317379011661,36);
  (6598423812084767095963303772698902,36); (3505136160930931648040662227838141,36);
  (1056561072138311410190663502241260,35); (4427998036853076691978706763764869,36);
  (1545165100060978703891453017785808,35); (5342554082675948579479153843761486,36);
  (2124737621115088716789834710157468,35); (6247082809936878883891445681343049,36);
  (2794190736373101749640951183463604,35); (7139884527277096633277646479139545,36);
  (3552267705954099471388810044064275,35); (8019282475142577609080606089436368,36);
  (4397545365566426503848507674308432,35); (8883625394600326797179897729413171,36);
  (5328436820595437190205147715694478,35); (9731290431647139021508615707658154,36);
  (6343194435061054735914591509733577,35); (1056068610822027675490975985016982,35);
  (7439913117278107444402499956144209,35); (1137025527751787722796567153172913,35);
  (8616533898862284269171990513237531,35); (1215847803220958216317357108788514,35);
  (9870847801535407398649851946841511,35); (1292387455032794514194886129622519,35);
  (1120049998500087189289016580931953,34); (1366500786947546721689812412156616,35);
  (1260299416835838046645970027307615,34); (1438048658235088054756250685501887,35);
  (1407569731688825193187692125688122,34); (1506896744768773964649137099373354,35);
  (1561584458547660962542953108454177,34); (1572915791128090698888796774369144,35);
  (1722054450943994719255515282898780,34); (1635981853214692335215635054160131,35);
  (1888678443302659044961381027238099,34); (1695976530914302974859807488758393,35);
  (2061143616541722003981135083568004,34); (1752787190360893521706920525996672,35);
  (2239126185361428012998708825163775,34); (1806307175381899649281552895110133,35);
  (2422292006119982380699206724542538,34); (1856436007725144973027760601077250,35);
  (2610297204155297714081244797983655,34); (1903079575690108191718776407310961,35);
  (2802788819375196339580621105894787,34); (1946150310808483189998146638292630,35);
  (2999405468904191936486461629212303,34); (1985567352241745089119931939522785,35);
  (3199778025542903812299631137251374,34); (2021256698586698502166445712817091,35);
  (3403530310766439143335087676314129,34); (2053151346803753055096801727575304,35);
  (3610279800960761965099445680726288,34); (2081191418006929910380390363312980,35);
  (3819638345571200374710974610974710,34); (2105324269879323207329364089337365,35);
  (4031212895814869700984335273844408,34); (2125504595502886003890041382777057,35);
  (4244606242588949848366464520377886,34); (2141694508416940683341990970401713,35);
  (4459417762189485925951833561538674,34); (2153863613745684987262518029851889,35);
  (4675244168440714429626622280536791,34); (2161989065261130874263257059616489,35);
  (4891680269822879776648368104423404,34); (2166055608274326853819691844969056,35);
  (5108319730177120223351631895576596,34); (2166055608274326853819691844969056,35);
  (5324755831559285570373377719463210,34); (2161989065261130874263257059616489,35);
  (5540582237810514074048166438461326,34); (2153863613745684987262518029851889,35);
  (5755393757411050151633535479622114,34); (2141694508416940683341990970401713,35);
  (5968787104185130299015664726155592,34); (2125504595502886003890041382777057,35);
  (6180361654428799625289025389025291,34); (2105324269879323207329364089337365,35);
  (6389720199039238034900554319273713,34); (2081191418006929910380390363312980,35);
  (6596469689233560856664912323685871,34); (2053151346803753055096801727575304,35);
  (6800221974457096187700368862748626,34); (2021256698586698502166445712817091,35);
  (7000594531095808063513538370787697,34); (1985567352241745089119931939522785,35);
  (7197211180624803660419378894105213,34); (1946150310808483189998146638292630,35);
  (7389702795844702285918755202016344,34); (1903079575690108191718776407310961,35);
  (7577707993880017619300793275457463,34); (1856436007725144973027760601077250,35);
  (7760873814638571987001291174836225,34); (1806307175381899649281552895110133,35);
  (7938856383458277996018864916431996,34); (1752787190360893521706920525996672,35);
  (8111321556697340955038618972761901,34); (1695976530914302974859807488758393,35);
  (8277945549056005280744484717101220,34); (1635981853214692335215635054160131,35);
  (8438415541452339037457046891545823,34); (1572915791128090698888796774369144,35);
  (8592430268311174806812307874311878,34); (1506896744768773964649137099373354,35);
  (8739700583164161953354029972692385,34); (1438048658235088054756250685501887,35);
  (8879950001499912810710983419068047,34); (1366500786947546721689812412156616,35);
  (9012915219846459260135014805315849,34); (1292387455032794514194886129622519,35);
  (9138346610113771573082800948676246,34); (1215847803220958216317357108788514,35);
  (9256008688272189255559750004385580,34); (1137025527751787722796567153172913,35);
  (9365680556493894526408540849026643,34); (1056068610822027675490975985016982,35);
  (9467156317940456280979485228430552,34); (9731290431647139021508615707658154,36);
  (9560245463443357349615149232569157,34); (8883625394600326797179897729413171,36);
  (9644773229404590052861118995593572,34); (8019282475142577609080606089436368,36);
  (9720580926362689825035904881653640,34); (7139884527277096633277646479139545,36);
  (9787526237888491128321016528984254,34); (6247082809936878883891445681343049,36);
  (9845483489993902129610854698221419,34); (5342554082675948579479153843761486,36);
  (9894343892786168858980933649775874,34); (4427998036853076691978706763764869,36);
  (9934015761879152329040366962273011,34); (3505136160930931648040662227838141,36);
  (9964424755084009541140519204516902,34); (2575718009395443454125317379011661,36);
  (9985514358213645392329832681761357,34); (1641584887333747900950256451189942,36);
  (9997249672264813210909269088236041,34); (7057581969867170678595308585452029,37)].
Definition gauss_73 : list (Z * Z) := [
  (2676005770594145017644035259807738,37); (6866882313798096119921354046664105,37);
  (1409434614194366373219257118737014,36); (1597262188644517261038858543716537,36);
  (3461492205527424222397895955771481,36); (2506269285803095131906349764330406,36);
  (6420481687533942609485783519223716,36); (3410815674587396181104669685103290,36);
  (1028105397175818771864750596092432,35); (4309155239766123806955908369329114,36);
  (1503617047250704362649616834519171,35); (5199630497500266100652096932001921,36);
  (2067714965101288979307437148559947,35); (6080610464640556363881611543868811,36);
  (2719368915525821403416607449779932,35); (6950484394157325433759817212004100,36);
  (3457388630938772004765088082774195,35); (7807662716795711497766805530775746,36);
  (4280426041187179262915823677458878,35); (8650579381244541502803503824231951,36);
  (5186977757665438947553090502570051,35); (9477694524335010844867984492361851,36);
  (6175387828967425008702855984644536,35); (1028749721018058458300975087843922,35);
  (7243850770285025774600458580026647,35); (1107850815852003602838490118152219,35);
  (8390414863754512812210583035115609,35); (1184928243210948731330466263578373,35);
  (9612985724863203759646937981599743,35); (1259841206876915640666612612721438,35);
  (1090933012891776243329543515236583,34); (1332452864936374147611522965909579,35);
  (1227708009083382598807773111974968,34); (1402630579528603016190111717062267,35);
  (1371373719092200907484321354659465,34); (1470246159005828005272861499051239,35);
  (1521667713883686413898901595505791,34); (1535176092021675246906300839437145,35);
  (1678315456739018305588119392436970,34); (1597301773098835324325071844929214,35);
  (1841030804749407717444796189885840,34); (1656509719252192033853439971744437,35);
  (2009516531508645119998005706552579,34); (1712691777265110770706475913088175,35);
  (2183464870049917436318787128841228,34); (1765745321236414375453153691434060,35);
  (2362558075035645315997794798029119,34); (1815573440034889234517333253885454,35);
  (2546469003173740061498888266861090,34); (1862085114317488657844710572529602,35);
  (2734861710800273024040047360019677,34); (1905195382786990029775403918261563,35);
  (2927392067537121180554395360851565,34); (1944825497384836976023780090551264,35);
  (3123708384903742485471305401419455,34); (1980903067135307165825402297977496,35);
  (3323452058734887719421294206756356,34); (2013362190378001668247084216562066,35);
  (3526258224230816158720724512324616,34); (2042143575146943077468027928178454,35);
  (3731756422443493032220976074110341,34); (2067194647476274726344167091734401,35);
  (3939571276981347367363782069260128,34); (2088469647434642687705084901015252,35);
  (4149323179696496207471772152765027,34); (2105929712712781813447276107717506,35);
  (4360628984101928491226604418727734,34); (2119542949611579720268699216957132,35);
  (4573102705252018495020714314219966,34); (2129284491300919351288150403575919,35);
  (4786356224807930044071546111437871,34); (2135136543242861103830049483203309,35);
  (5000000000000000000000000000000000,34); (2137088415696178120572747725318968,35);
  (5213643775192069955928453888562129,34); (2135136543242861103830049483203309,35);
  (5426897294747981504979285685780034,34); (2129284491300919351288150403575919,35);
  (5639371015898071508773395581272266,34); (2119542949611579720268699216957132,35);
  (5850676820303503792528227847234973,34); (2105929712712781813447276107717506,35);
  (6060428723018652632636217930739872,34); (2088469647434642687705084901015252,35);
  (6268243577556506967779023925889659,34); (2067194647476274726344167091734401,35);
  (6473741775769183841279275487675384,34); (2042143575146943077468027928178454,35);
  (6676547941265112280578705793243644,34); (2013362190378001668247084216562066,35);
  (6876291615096257514528694598580545,34); (1980903067135307165825402297977496,35);
  (7072607932462878819445604639148435,34); (1944825497384836976023780090551264,35);
  (7265138289199726975959952639980323,34); (1905195382786990029775403918261563,35);
  (7453530996826259938501111733138910,34); (1862085114317488657844710572529602,35);
  (7637441924964354684002205201970881,34); (1815573440034889234517333253885454,35);
  (7816535129950082563681212871158772,34); (1765745321236414375453153691434060,35);
  (7990483468491354880001994293447421,34); (1712691777265110770706475913088175,35);
  (8158969195250592282555203810114161,34); (1656509719252192033853439971744437,35);
  (8321684543260981694411880607563030,34); (1597301773098835324325071844929214,35);
  (8478332286116313586101098404494209,34); (1535176092021675246906300839437145,35);
  (8628626280907799092515678645340536,34); (1470246159005828005272861499051239,35);
  (8772291990916617401192226888025032,34); (1402630579528603016190111717062267,35);
  (8909066987108223756670456484763417,34); (1332452864936374147611522965909579,35);
  (9038701427513679624035306201840025,34); (1259841206876915640666612612721438,35);
  (9160958513624548718778941696488439,34); (1184928243210948731330466263578373,35);
  (9275614922971497422539954141997335,34); (1107850815852003602838490118152219,35);
  (9382461217103257499129714401535547,34); (1028749721018058458300975087843922,35);
  (9481302224233456105244690949742995,34); (9477694524335010844867984492361851,36);
  (9571957395881282073708417632254112,34); (8650579381244541502803503824231951,36);
  (9654261136906122799523491191722581,34); (7807662716795711497766805530775746,36);
  (9728063108447417859658339255022007,34); (6950484394157325433759817212004100,36);
  (9793228503489871102069256285144006,34); (6080610464640556363881611543868811,36);
  (9849638295274929563735038316548083,34); (5199630497500266100652096932001921,36);
  (9897189460282418122813524940390757,34); (4309155239766123806955908369329114,36);
  (9935795183124660573905142164807763,34); (3410815674587396181104669685103290,36);
  (9965385077944725757776021040442286,34); (2506269285803095131906349764330406,36);
  (9985905653858056336267807428812630,34); (1597262188644517261038858543716537,36);
  (9997323994229405854982355964740192,34); (6866882313798096119921354046664105,37)].
Definition gauss_74 : list (Z * Z) := [
  (2604656098352378644777424452357682,37); (6683808250349417751643745682339743,37);
  (1371869144491804580967951827771085,36); (1554710074948377339336683060664548,36);
  (3369295097677513643057536079217172,36); (2439589879297072292144905883520792,36);
  (6249636691880720196437836430259052,36); (3320246454557178817380624353762861,36);
  (1000782728434983195059796679579805,35); (4195022716985698532044170425414612,36);
  (1463719797874063659032272008862753,35); (5062347269143652710559968009038403,36);
  (2012952227023554365004139198074926,35); (5920673773749833661584237059667671,36);
  (2647503678580749586368582579274148,35); (6768474705893747170526675677237121,36);
  (3366246026897271695719943514906622,35); (7604242121700617404437370363769819,36);
  (4167901417854676966142587085697833,35); (8426489791012426792423736383218159,36);
  (5051044561905210220814229809936081,35); (9233755654489939891426864829628886,36);
  (6014105277395559538561836766302653,35); (1002460435139747212636732773523847,35);
  (7055371286700821160175680635604041,35); (1079762974083794448484977366103078,35);
  (8172991262859213041582599148933567,35); (1155145738745791151546631344458724,35);
  (9364978122401281306237244435876890,35); (1228474699797138362282460289161313,35);
  (1062921255902122410900066450468000,34); (1299619480036189393338677302180850,35);
  (1196344681205027620156885507232595,34); (1368453585983967615121888635623037,35);
  (1336530866315598611187682980046930,34); (1434854632663493767104755322433172,35);
  (1483230565422790704698400203927550,34); (1498704561123059366998238855018998,35);
  (1636182951898761986407472666248473,34); (1559889848295771301668617555280415,35);
  (1795116082046538057023290273597350,34); (1618301708810849976264009324506838,35);
  (1959747378611100872374185472645408,34); (1673836288391438313186123701083350,35);
  (2129784133195029237490536898693515,34); (1726394848491323050166698689930303,35);
  (2304924026685914583796364836768476,34); (1775883941840047996292693472692893,35);
  (2484855666770574170429634780610912,34); (1822215578582928224090545375814048,35);
  (2669259141580594082889700840122908,34); (1865307382719707786685334281284763,35);
  (2857806588484983603120853529898827,34); (1905082738563162444817582832931750,35);
  (3050162777018746247144640350167171,34); (1941470926956885387904113645594107,35);
  (3245985704911009762537325155857647,34); (1974407251009823416181636024517005,35);
  (3444927206153046814751211391953496,34); (2003833151123848337957558596168847,35);
  (3646633570025097972311638793648585,34); (2029696309109736402903840991395421,35);
  (3850746169981414844909152833871237,34); (2051950741206363342370940490825845,35);
  (4056902101275407108446394661600329,34); (2070556879837675541003403500994075,35);
  (4264734826191232941355743215557376,34); (2085481643962037718935496680431172,35);
  (4473874825734645140680056003760247,34); (2096698497888851073497760391994349,35);
  (4683950256624418540521366991116894,34); (2104187498457848623744788250119145,35);
  (4894587612416258477762323907429763,34); (2107935330497171106111533244516982,35);
  (5105412387583741522237676092570237,34); (2107935330497171106111533244516982,35);
  (5316049743375581459478633008883106,34); (2104187498457848623744788250119145,35);
  (5526125174265354859319943996239753,34); (2096698497888851073497760391994349,35);
  (5735265173808767058644256784442624,34); (2085481643962037718935496680431172,35);
  (5943097898724592891553605338399671,34); (2070556879837675541003403500994075,35);
  (6149253830018585155090847166128763,34); (2051950741206363342370940490825845,35);
  (6353366429974902027688361206351415,34); (2029696309109736402903840991395421,35);
  (6555072793846953185248788608046504,34); (2003833151123848337957558596168847,35);
  (6754014295088990237462674844142353,34); (1974407251009823416181636024517005,35);
  (6949837222981253752855359649832829,34); (1941470926956885387904113645594107,35);
  (7142193411515016396879146470101173,34); (1905082738563162444817582832931750,35);
  (7330740858419405917110299159877092,34); (1865307382719707786685334281284763,35);
  (7515144333229425829570365219389088,34); (1822215578582928224090545375814048,35);
  (7695075973314085416203635163231524,34); (1775883941840047996292693472692893,35);
  (7870215866804970762509463101306485,34); (1726394848491323050166698689930303,35);
  (8040252621388899127625814527354592,34); (1673836288391438313186123701083350,35);
  (8204883917953461942976709726402649,34); (1618301708810849976264009324506838,35);
  (8363817048101238013592527333751527,34); (1559889848295771301668617555280415,35);
  (8516769434577209295301599796072450,34); (1498704561123059366998238855018998,35);
  (8663469133684401388812317019953070,34); (1434854632663493767104755322433172,35);
  (8803655318794972379843114492767405,34); (1368453585983967615121888635623037,35);
  (8937078744097877589099933549532001,34); (1299619480036189393338677302180850,35);
  (9063502187759871869376275556412311,34); (1228474699797138362282460289161313,35);
  (9182700873714078695841740085106643,34); (1155145738745791151546631344458724,35);
  (9294462871329917883982431936439596,34); (1079762974083794448484977366103078,35);
  (9398589472260444046143816323369735,34); (1002460435139747212636732773523847,35);
  (9494895543809478977918577019006392,34); (9233755654489939891426864829628886,36);
  (9583209858214532303385741291430217,34); (8426489791012426792423736383218159,36);
  (9663375397310272830428005648509338,34); (7604242121700617404437370363769819,36);
  (9735249632141925041363141742072585,34); (6768474705893747170526675677237121,36);
  (9798704777297644563499586080192507,34); (5920673773749833661584237059667671,36);
  (9853628020212593634096772799113725,34); (5062347269143652710559968009038403,36);
  (9899921727156501680494020332042019,34); (4195022716985698532044170425414612,36);
  (9937503633081192798035621635697409,34); (3320246454557178817380624353762861,36);
  (9966307049023224863569424639207829,34); (2439589879297072292144905883520792,36);
  (9986281308555081954190320481722289,34); (1554710074948377339336683060664548,36);
  (9997395343901647621355222575547642,34); (6683808250349417751643745682339743,37)].
Definition gauss_75 : list (Z * Z) := [
  (2536122319822717582664028218419575,37); (6507958586879279969491127912286180,37);
  (1335785518884098345467121628044725,36); (1513835507303020645613222894081163,36);
  (3280731710553647811476401077113696,36); (2375534592507636982949378237577333,36);
  (6085516616237739929366659962479012,36); (3233232453518769200981596036798615,36);
  (9745337701291697114153438132395428,36); (4085355353663913201858929589061416,36);
  (1425387182846808831809310126615900,35); (4930412458057009196025874917820389,36);
  (1960331812905384292227599969359889,35); (5766936664152247983406838093782758,36);
  (2578441746035631103904007637658680,35); (6593478381412401059806937098511560,36);
  (3278647001794642158190293687313396,35); (7408606144907234260068867774545504,36);
  (4059735438580300436438025235325441,35); (8210908559512320021799653039378187,36);
  (4920354872577683295301786403193238,35); (8998996562822525318972837240415584,36);
  (5859015427605222891995384322820132,35); (9771505760063944689785460126777548,36);
  (6874092118655828726936882703831873,35); (1052709875614142111822297130419748,35);
  (7963827667252097495149419929698214,35); (1126446745693288822527318999128221,35);
  (9126335544822934257830236439769179,35); (1198233532685847958738272443943287,35);
  (1035960323932182448197930271601841,34); (1267945959510818954710421979566545,35);
  (1166149573966790372379526229081817,34); (1335463340506042588617704153435750,35);
  (1302975923209837367517432166113196,34); (1400668790239027041262950726905303,35);
  (1446202500209794366152203328633893,34); (1463449425786299340251670324199232,35);
  (1595581353518652009778080472486354,34); (1523696562110726960156881097088412,35);
  (1750853880948688837065565326024237,34); (1581305900187482402801619590469593,35);
  (1911751277265370177749070612036056,34); (1636177707546711026076137865498405,35);
  (2077994999542110598401963443283025,34); (1688216990916704632347784352018103,35);
  (2249297249371772242484925318284652,34); (1737333660666520326754926934860478,35);
  (2425361471100416797360040238078252,34); (1783442686762022654455919020170761,35);
  (2605882865220984214920954620052114,34); (1826464245964516950342554862177085,35);
  (2790548916038258667313322680594515,34); (1866323860016604508365319630741331,35);
  (2979039932691731934045965633356905,34); (1902952524575680156781545001893894,35);
  (3171029602599820373369909895483087,34); (1936286828671628792073322550258784,35);
  (3366185556367368488208000126198847,34); (1966269064481758126038373449129475,35);
  (3564169943178513765286491674249592,34); (1992847327232817628798265242009724,35);
  (3764640015678826215478799803007599,34); (2015975605057078877908718418696343,35);
  (3967248723334201964427627732050474,34); (2035613858646866514937891030427594,35);
  (4171645313239310908070252396110071,34); (2051728090569605333811125865510765,35);
  (4377475937335498691874577541303156,34); (2064290404123359454173043626532794,35);
  (4584384264986945041512514561706136,34); (2073279051630954606762416783131793,35);
  (4792012099854602720125543343859992,34); (2078678472089063939149971111669011,35);
  (5000000000000000000000000000000000,34); (2080479318107070469023354052239407,35);
  (5207987900145397279874456656140008,34); (2078678472089063939149971111669011,35);
  (5415615735013054958487485438293864,34); (2073279051630954606762416783131793,35);
  (5622524062664501308125422458696844,34); (2064290404123359454173043626532794,35);
  (5828354686760689091929747603889929,34); (2051728090569605333811125865510765,35);
  (6032751276665798035572372267949526,34); (2035613858646866514937891030427594,35);
  (6235359984321173784521200196992400,34); (2015975605057078877908718418696343,35);
  (6435830056821486234713508325750408,34); (1992847327232817628798265242009724,35);
  (6633814443632631511791999873801154,34); (1966269064481758126038373449129475,35);
  (6828970397400179626630090104516913,34); (1936286828671628792073322550258784,35);
  (7020960067308268065954034366643095,34); (1902952524575680156781545001893894,35);
  (7209451083961741332686677319405485,34); (1866323860016604508365319630741331,35);
  (7394117134779015785079045379947886,34); (1826464245964516950342554862177085,35);
  (7574638528899583202639959761921748,34); (1783442686762022654455919020170761,35);
  (7750702750628227757515074681715347,34); (1737333660666520326754926934860478,35);
  (7922005000457889401598036556716975,34); (1688216990916704632347784352018103,35);
  (8088248722734629822250929387963944,34); (1636177707546711026076137865498405,35);
  (8249146119051311162934434673975763,34); (1581305900187482402801619590469593,35);
  (8404418646481347990221919527513646,34); (1523696562110726960156881097088412,35);
  (8553797499790205633847796671366107,34); (1463449425786299340251670324199232,35);
  (8697024076790162632482567833886804,34); (1400668790239027041262950726905303,35);
  (8833850426033209627620473770918182,34); (1335463340506042588617704153435750,35);
  (8964039676067817551802069728398159,34); (1267945959510818954710421979566545,35);
  (9087366445517706574216976356023082,34); (1198233532685847958738272443943287,35);
  (9203617233274790250485058007030179,34); (1126446745693288822527318999128221,35);
  (9312590788134417127306311729616813,34); (1052709875614142111822297130419748,35);
  (9414098457239477710800461567717987,34); (9771505760063944689785460126777548,36);
  (9507964512742231670469821359680677,34); (8998996562822525318972837240415584,36);
  (9594026456141969956356197476467456,34); (8210908559512320021799653039378187,36);
  (9672135299820535784180970631268661,34); (7408606144907234260068867774545504,36);
  (9742155825396436889609599236234132,34); (6593478381412401059806937098511560,36);
  (9803966818709461570777240003064011,34); (5766936664152247983406838093782758,36);
  (9857461281715319116819068987338410,34); (4930412458057009196025874917820389,36);
  (9902546622987083028858465618676045,34); (4085355353663913201858929589061416,36);
  (9939144833837622600706333400375210,34); (3233232453518769200981596036798615,36);
  (9967192682894463521885235989228864,34); (2375534592507636982949378237577333,36);
  (9986642144811159016545328783719552,34); (1513835507303020645613222894081163,36);
  (9997463877680177282417335971781581,34); (6507958586879279969491127912286180,37)].
Definition gauss_76 : list (Z * Z) := [
  (2470258189234609468991252331183301,37); (6338958170426798316412296984333057,37);
  (1301106822322281654282809582899346,36); (1474551476821237450196684475854498,36);
  (3195613638236507691904284035598747,36); (2313967614018710663064307188195818,36);
  (5927773320081280750677620887885700,36); (3149590248664222933286710120157952,36);
  (9493030512172052374080943083517477,36); (3979923738619867310559404314673719,36);
  (1388538573981154776095990520266219,35); (4803552707356877041202171330024680,36);
  (1909743662061608641598394192382712,35); (5619084284833843619837454765648282,36);
  (2512039614455180745755228151565433,35); (6425141923755072472462683407910557,36);
  (3194410903259460186838850053941089,35); (7220365874138339969944890862126819,36);
  (3955706937392494075420928746450110,35); (8003414956124285444255113655647226,36);
  (4794644022721658572778703464785735,35); (8772968645737115477099845241371881,36);
  (5709807535395860639254489873182451,35); (9527729233595291403401130585175654,36);
  (6699654311400902238606613197041572,35); (1026642398395401054648752591010336,35);
  (7762515250832880299455485722906800,35); (1098780726720812458400652740112650,35);
  (8896598133551269326111464486938425,35); (1169066265350559331123985226032411,35);
  (1009999064193999151235947662488089,34); (1237380496032983582163223167229590,35);
  (1137066358590951193511632660065485,34); (1303608224899299176213727048195321,35);
  (1270647432481947784256806189732003,34); (1367637776591376083707622393078066,35);
  (1410517038061481803134972454550077,34); (1429361182502700188698752658928431,35);
  (1556439323611797015017376623620779,34); (1488674362795252047835367733221773,35);
  (1708168231209286848623836698959531,34); (1545477301874579769496845762777366,35);
  (1865447911638667204272739420519535,34); (1599674217021080003426758943070684,35);
  (2028013155816035409242468548254605,34); (1651173719889587050327076634779851,35);
  (2195589841993812605004191671847211,34); (1699888970602819042337123737912830,35);
  (2367895397993787045223462655294819,34); (1745737824177538372206270105369881,35);
  (2544639277689030675691273774666854,34); (1788642969035697376388968967941204,35);
  (2725523450931368302830796491098475,34); (1828532057366480850362202479954201,35);
  (2910242906098363506021702481605513,34); (1865337827119080491378358168085614,35);
  (3098486164412477782662477620976427,34); (1898998215420264159761766610484906,35);
  (3289935805165189880343993955128859,34); (1929456463225336917146059916822776,35);
  (3484269000960461109502924112094549,34); (1956661211025922038375374972895611,35);
  (3681158062075028617602972583403169,34); (1980566585453102921157335742414961,35);
  (3880270989017629331186812013364594,34); (2001132276629841305823086586057223,35);
  (4081272032355427612903777844324098,34); (2018323606142201157704781142353306,35);
  (4283822258863662392772459540288300,34); (2032111585514736938872748442948975,35);
  (4487580123043864908499745313730960,34); (2042472965091424614019589812110339,35);
  (4692202043046943957856661273455857,34); (2049390273239697577065420157731411,35);
  (4897342980030006822491266208950211,34); (2052851845811471129662985693958234,35);
  (5102657019969993177508733791049789,34); (2052851845811471129662985693958234,35);
  (5307797956953056042143338726544143,34); (2049390273239697577065420157731411,35);
  (5512419876956135091500254686269040,34); (2042472965091424614019589812110339,35);
  (5716177741136337607227540459711700,34); (2032111585514736938872748442948975,35);
  (5918727967644572387096222155675902,34); (2018323606142201157704781142353306,35);
  (6119729010982370668813187986635406,34); (2001132276629841305823086586057223,35);
  (6318841937924971382397027416596831,34); (1980566585453102921157335742414961,35);
  (6515730999039538890497075887905451,34); (1956661211025922038375374972895611,35);
  (6710064194834810119656006044871141,34); (1929456463225336917146059916822776,35);
  (6901513835587522217337522379023573,34); (1898998215420264159761766610484906,35);
  (7089757093901636493978297518394487,34); (1865337827119080491378358168085614,35);
  (7274476549068631697169203508901525,34); (1828532057366480850362202479954201,35);
  (7455360722310969324308726225333147,34); (1788642969035697376388968967941204,35);
  (7632104602006212954776537344705181,34); (1745737824177538372206270105369881,35);
  (7804410158006187394995808328152789,34); (1699888970602819042337123737912830,35);
  (7971986844183964590757531451745396,34); (1651173719889587050327076634779851,35);
  (8134552088361332795727260579480465,34); (1599674217021080003426758943070684,35);
  (8291831768790713151376163301040468,34); (1545477301874579769496845762777366,35);
  (8443560676388202984982623376379221,34); (1488674362795252047835367733221773,35);
  (8589482961938518196865027545449923,34); (1429361182502700188698752658928431,35);
  (8729352567518052215743193810267997,34); (1367637776591376083707622393078066,35);
  (8862933641409048806488367339934515,34); (1303608224899299176213727048195321,35);
  (8990000935806000848764052337511912,34); (1237380496032983582163223167229590,35);
  (9110340186644873067388853551306158,34); (1169066265350559331123985226032411,35);
  (9223748474916711970054451427709320,34); (1098780726720812458400652740112650,35);
  (9330034568859909776139338680295843,34); (1026642398395401054648752591010336,35);
  (9429019246460413936074551012681755,34); (9527729233595291403401130585175654,36);
  (9520535597727834142722129653521426,34); (8772968645737115477099845241371881,36);
  (9604429306260750592457907125354989,34); (8003414956124285444255113655647226,36);
  (9680558909674053981316114994605891,34); (7220365874138339969944890862126819,36);
  (9748796038554481925424477184843457,34); (6425141923755072472462683407910557,36);
  (9809025633793839135840160580761729,34); (5619084284833843619837454765648282,36);
  (9861146142601884522390400947973378,34); (4803552707356877041202171330024680,36);
  (9905069694878279476259190569164825,34); (3979923738619867310559404314673719,36);
  (9940722266799187192493223791121143,34); (3149590248664222933286710120157952,36);
  (9968043863617634923080957159644013,34); (2313967614018710663064307188195818,36);
  (9986988931776777183457171904171006,34); (1474551476821237450196684475854498,36);
  (9997529741810765390531008747668817,34); (6338958170426798316412296984333057,37)].
Definition gauss_77 : list (Z * Z) := [
  (2406926832949951257094798283985860,37); (6176455885697048070859346788850871,37);
  (1267761065392950062565131832859222,36); (1436776541826345828639205162959449,36);
  (3113764525060875845544403866408314,36); (2254761800102917666619130030861271,36);
  (5776080888719346337490485166116009,36); (3069148079878170919634948820974838,36);
  (9250386334430768805827581403869933,36); (3878512975041535365921185750754345,36);
  (1353098462544580482684692816388551,35); (4681511846193215384630970054606124,36);
  (1861084676613284402991906613271239,35); (5476821426955677119295495328215563,36);
  (2448162819970406423828558590963756,35); (6263133684613682593679968030463165,36);
  (3113368402046947790492892709902687,35); (7039156170013502025083987273474101,36);
  (3855608532029890003597728237215670,35); (7803613634374565647540626413677001,36);
  (4673663733937109098945459615426790,35); (8555249953265552088119813271140841,36);
  (5566189958721796505258254790850484,35); (9292830124170742754589872768644929,36);
  (6531720796613297006067281029325075,35); (1001514226715808819812311707108415,35);
  (7568669888518798176521108334934279,35); (1072099960272806775256248047279483,35);
  (8675333533549894028220664455884415,35); (1140924239506476025645483421211901,35);
  (9849893488853738630818110040958371,35); (1207873985397792247029693933830131,35);
  (1109041995737284290635660280524497,34); (1272839199084720187631888055212726,35);
  (1239487475873920293078066897705391,34); (1335713142477894541600139516698468,35);
  (1376111467815441356096072427410340,34); (1396392513563848427075362291926967,35);
  (1518689498778788876044900161723937,34); (1454777616088438067435124549629495,35);
  (1666987313492742532045419707535013,34); (1510772523331149934569934480133449,35);
  (1820761259083438164931743942458721,34); (1564285235695271669697823441240113,35);
  (1979758685398713075149258069672682,34); (1615227831851548779678601243850948,35);
  (2143718360114008745965084199113534,34); (1663516613184927265141972509447128,35);
  (2312370897938111304877875862248662,34); (1709072241305783963265896468333915,35);
  (2485439203213742410961368452812724,34); (1751819868398913922743876708843014,35);
  (2662638925185941026776781700366333,34); (1791689260195598130132131774943576,35);
  (2843678925190321589637379153422804,34); (1828614911366372726672916509422089,35);
  (3028261754993682197657662673397546,34); (1862536153144685943938013763869618,35);
  (3216084145501094647107223411973534,34); (1893397253004466013083341318494129,35);
  (3406837505026563456112384594026461,34); (1921147506227726183684058369750789,35);
  (3600208426308619389676476242438633,34); (1945741319211689281051640976347329,35);
  (3795879201437839011951591001444168,34); (1967138284378507596856615300107022,35);
  (3993528343850278216809261713707823,34); (1985303246564465534051877205322301,35);
  (4192831116529195341964079501410435,34); (2000206360779561870517575543780124,35);
  (4393460065547237066790965898751219,34); (2011823141242554209763262632254562,35);
  (4595085558072484343967511065827380,34); (2020134501610887808516309714349327,35);
  (4797376323954420370349650935716238,34); (2025126786339401597762480213558455,35);
  (5000000000000000000000000000000000,34); (2026791793116282514602613089177739,35);
  (5202623676045579629650349064283762,34); (2025126786339401597762480213558455,35);
  (5404914441927515656032488934172619,34); (2020134501610887808516309714349327,35);
  (5606539934452762933209034101248781,34); (2011823141242554209763262632254562,35);
  (5807168883470804658035920498589565,34); (2000206360779561870517575543780124,35);
  (6006471656149721783190738286292177,34); (1985303246564465534051877205322301,35);
  (6204120798562160988048408998555832,34); (1967138284378507596856615300107022,35);
  (6399791573691380610323523757561367,34); (1945741319211689281051640976347329,35);
  (6593162494973436543887615405973539,34); (1921147506227726183684058369750789,35);
  (6783915854498905352892776588026466,34); (1893397253004466013083341318494129,35);
  (6971738245006317802342337326602453,34); (1862536153144685943938013763869618,35);
  (7156321074809678410362620846577196,34); (1828614911366372726672916509422089,35);
  (7337361074814058973223218299633667,34); (1791689260195598130132131774943576,35);
  (7514560796786257589038631547187276,34); (1751819868398913922743876708843014,35);
  (7687629102061888695122124137751338,34); (1709072241305783963265896468333915,35);
  (7856281639885991254034915800886467,34); (1663516613184927265141972509447128,35);
  (8020241314601286924850741930327317,34); (1615227831851548779678601243850948,35);
  (8179238740916561835068256057541279,34); (1564285235695271669697823441240113,35);
  (8333012686507257467954580292464987,34); (1510772523331149934569934480133449,35);
  (8481310501221211123955099838276064,34); (1454777616088438067435124549629495,35);
  (8623888532184558643903927572589659,34); (1396392513563848427075362291926967,35);
  (8760512524126079706921933102294610,34); (1335713142477894541600139516698468,35);
  (8890958004262715709364339719475502,34); (1272839199084720187631888055212726,35);
  (9015010651114626136918188995904163,34); (1207873985397792247029693933830131,35);
  (9132466646645010597177933554411558,34); (1140924239506476025645483421211901,35);
  (9243133011148120182347889166506572,34); (1072099960272806775256248047279483,35);
  (9346827920338670299393271897067492,34); (1001514226715808819812311707108415,35);
  (9443381004127820349474174520914952,34); (9292830124170742754589872768644929,36);
  (9532633626606289090105454038457321,34); (8555249953265552088119813271140841,36);
  (9614439146797010999640227176278434,34); (7803613634374565647540626413677001,36);
  (9688663159795305220950710729009732,34); (7039156170013502025083987273474101,36);
  (9755183718002959357617144140903625,34); (6263133684613682593679968030463165,36);
  (9813891532338671559700809338672876,34); (5476821426955677119295495328215563,36);
  (9864690153745541951731530718361145,34); (4681511846193215384630970054606124,36);
  (9907496136655692311941724185961301,34); (3878512975041535365921185750754345,36);
  (9942239191112806536625095148338840,34); (3069148079878170919634948820974838,36);
  (9968862354749391241544555961335917,34); (2254761800102917666619130030861271,36);
  (9987322389346070499374348681671408,34); (1436776541826345828639205162959449,36);
  (9997593073167050048742905201716015,34); (6176455885697048070859346788850871,37)].
Definition gauss_78 : list (Z * Z) := [
  (2346000037881202406550165539265995,37); (6020122830336766401649367257361828,37);
  (1235680810637819248850979982810521,36); (1400434405919315205806478164313289,36);
  (3035019152755628408905097288096894,36); (2197798019730173371369092590373786,36);
  (5630133953141282807718251485331145,36); (2991744972220203994824368917549094,36);
  (9016918450224751107741087255106924,36); (3780921594719859413489073006412170,36);
  (1318996074688177897004476822724462,35); (4564049613627543638471177680794042,36);
  (1814258200662204922008006718092663,35); (5339871078740556676757956554111255,36);
  (2386685265506831814139419154052293,35); (6107142274894943198841418146531941,36);
  (3035360654252670346467642731565946,35); (6864633960072074196863363735526163,36);
  (3759245610996811181983626094533910,35); (7611132840089225846657784882257819,36);
  (4557180921340587089633687097448932,35); (8345443344671945933106180425435318,36);
  (5427888777059071059572256911913819,35); (9066389477491164322203183903636195,36);
  (6369974826363774753430405036411543,35); (9772816671699961688958936224457159,36);
  (7381930408872114835699920296650225,35); (1046359362593886339268904882152297,35);
  (8462134972704436363136609138583973,35); (1113761410955694338152523735406085,35);
  (9608858670289915661567400478159711,35); (1179379873072873604822568675753234,35);
  (1082026512894286064643411264485478,34); (1243109666311122538072172171842310,35);
  (1209441439188423424647996672293044,34); (1304848732755441751491684809005638,35);
  (1342926602505848012507773056527337,34); (1364498202581218243228211877166162,35);
  (1482268238480381139397176477892643,34); (1421962552344875813119524809313437,35);
  (1627243204116246048380528195532830,34); (1477149757930347320581003560280105,35);
  (1777619335136035727034511593216347,34); (1529971441900652264471660207245794,35);
  (1933155817774076116002954185983779,34); (1580343015015239886944137809583824,35);
  (2093603574420241223892351909278221,34); (1628183811684452220402777995139874,35);
  (2258705662496936956266153594098946,34); (1673417219142948898649072051920727,35);
  (2428197685930679709890547817039556,34); (1715970800134454514514589981315397,35);
  (2601808218559463801574248049176821,34); (1755776408910859473744002783114175,35);
  (2779259238797956984663678465264062,34); (1792770300359584772250286339168444,35);
  (2960266574864508041765754739505046,34); (1826893232084235032409617537815877,35);
  (3144540359857018628371365685323146,34); (1858090559274919342533549901894666,35);
  (3331785495948947196086405486351387,34); (1886312322216212393214507390091023,35);
  (3521702126962099273885208740591374,34); (1911513326292549382481012630864117,35);
  (3713986118559437785057384265546628,34); (1933653214362883700194777906349765,35);
  (3908329545288940105931553466402192,34); (1952696531388670657365568274560210,35);
  (4104421183698554242187885323131871,34); (1968612781211656096861013216865500,35);
  (4301947010732582025453620910582722,34); (1981376475390527147819674660984520,35);
  (4500590706611357947357526730806748,34); (1990967174018204461251587788960897,35);
  (4700034161388911531820625500443636,34); (1997369518454401243965244478772673,35);
  (4899957984377410385239662842792212,34); (2000573255921024149438929428719801,35);
  (5100042015622589614760337157207787,34); (2000573255921024149438929428719801,35);
  (5299965838611088468179374499556364,34); (1997369518454401243965244478772673,35);
  (5499409293388642052642473269193252,34); (1990967174018204461251587788960897,35);
  (5698052989267417974546379089417278,34); (1981376475390527147819674660984520,35);
  (5895578816301445757812114676868129,34); (1968612781211656096861013216865500,35);
  (6091670454711059894068446533597808,34); (1952696531388670657365568274560210,35);
  (6286013881440562214942615734453372,34); (1933653214362883700194777906349765,35);
  (6478297873037900726114791259408626,34); (1911513326292549382481012630864117,35);
  (6668214504051052803913594513648612,34); (1886312322216212393214507390091023,35);
  (6855459640142981371628634314676853,34); (1858090559274919342533549901894666,35);
  (7039733425135491958234245260494954,34); (1826893232084235032409617537815877,35);
  (7220740761202043015336321534735939,34); (1792770300359584772250286339168444,35);
  (7398191781440536198425751950823179,34); (1755776408910859473744002783114175,35);
  (7571802314069320290109452182960444,34); (1715970800134454514514589981315397,35);
  (7741294337503063043733846405901054,34); (1673417219142948898649072051920727,35);
  (7906396425579758776107648090721779,34); (1628183811684452220402777995139874,35);
  (8066844182225923883997045814016221,34); (1580343015015239886944137809583824,35);
  (8222380664863964272965488406783653,34); (1529971441900652264471660207245794,35);
  (8372756795883753951619471804467170,34); (1477149757930347320581003560280105,35);
  (8517731761519618860602823522107357,34); (1421962552344875813119524809313437,35);
  (8657073397494151987492226943472663,34); (1364498202581218243228211877166162,35);
  (8790558560811576575352003327706956,34); (1304848732755441751491684809005638,35);
  (8917973487105713935356588735514523,34); (1243109666311122538072172171842310,35);
  (9039114132971008433843259952184029,34); (1179379873072873604822568675753234,35);
  (9153786502729556363686339086141603,34); (1113761410955694338152523735406085,35);
  (9261806959112788516430007970334977,34); (1046359362593886339268904882152297,35);
  (9363002517363622524656959496358846,34); (9772816671699961688958936224457159,36);
  (9457211122294092894042774308808618,34); (9066389477491164322203183903636195,36);
  (9544281907865941291036631290255106,34); (8345443344671945933106180425435318,36);
  (9624075438900318881801637390546609,34); (7611132840089225846657784882257819,36);
  (9696463934574732965353235726843405,34); (6864633960072074196863363735526163,36);
  (9761331473449316818586058084594771,34); (6107142274894943198841418146531941,36);
  (9818574179933779507799199328190734,34); (5339871078740556676757956554111255,36);
  (9868100392531182210299552317727553,34); (4564049613627543638471177680794042,36);
  (9909830815497752488922589127448931,34); (3780921594719859413489073006412170,36);
  (9943698660468587171922817485146688,34); (2991744972220203994824368917549094,36);
  (9969649808472443715910949027119031,34); (2197798019730173371369092590373786,36);
  (9987643191893621807511490200171894,34); (1400434405919315205806478164313289,36);
  (9997653999962118797593449834460734,34); (6020122830336766401649367257361828,37)].
Definition gauss_79 : list (Z * Z) := [
  (2287357602150778379242120215315621,37); (5869650649783065106011072355375493,37);
  (1204802831529282411572910498359034,36); (1365453532877427959266695024510656,36);
  (2959222607228688794422505359124854,36); (2142964556563265609109418416142535,36);
  (5489646156107831062620981221329427,36); (2917229934381732794606743075837717,36);
  (8792170374360534950709311188018143,36); (3686960565665088415195591804980694,36);
  (1286165020109644091058290522275291,35); (4450940491326243126869896402740459,36);
  (1769173544256760694627520456758592,35); (5207973102256691289591734655195631,36);
  (2327488605536543201836192278829532,35); (5956875107558499349799936611335906,36);
  (2960238534671137484999163160815602,35); (6696476672412838098654471232768691,36);
  (3666435405954806316773860799660095,35); (7425622763175034659289475496546338,36);
  (4444976598270959987749690551583362,35); (8143174788095841045918628106861678,36);
  (5294646524788244934478510602283411,35); (8848012312155208932331512533375411,36);
  (6214118534823526167024128250932540,35); (9539034779468744292391984685540125,36);
  (7201956987239031176336457659984942,35); (1021516321907042993922168975539772,35);
  (8256619493111105896634330006551773,35); (1087534192330403988432098489729050,35);
  (9376459324609661311759604626809355,35); (1151854009285951313848959659654859,35);
  (1055972798654011172174856828093136,34); (1214375344439974631971113768782146,35);
  (1180457794664149457708371191506512,34); (1275000577756438697366975375607812,35);
  (1310906552043608952373391766105041,34); (1333635049855277826894171268781840,35);
  (1447115390615879181208973900687804,34); (1390187209772352947221781991637012,35);
  (1588871636504644703611898341199893,34); (1444568757880363339081826206333833,35);
  (1735953954203280007375534359263760,34); (1496694783741918144782436667980539,35);
  (1888132692167113805585451488797142,34); (1546483898676241764414694840965277,35);
  (2045170241389300085733591940056567,34); (1593858362830558518025948164686589,35);
  (2206821406400705466720734473538051,34); (1638744206556540892671075165153145,35);
  (2372833788114727260518661806323225,34); (1681071345901546502496134176833754,35);
  (2542948177919400894520695729016760,34); (1720773692033830044129575179598637,35);
  (2716898962401554344256451328840257,34); (1757789254430556556412534933577142,35);
  (2894414538071140356339271199868455,34); (1792060237667287614460346267043893,35);
  (3075217735438245580388765810762644,34); (1823533131657671376462824282328685,35);
  (3259026251780660663804313139341436,34); (1852158795202339207991892781086642,35);
  (3445553091926317813955625213743438,34); (1877892532716488523895349628517504,35);
  (3634507016362382281287319660556377,34); (1900694164016302477275875340284722,35);
  (3825592995971340420613753205404631,34); (1920528087055208870270829688073518,35);
  (4018512672684076791704030356197288,34); (1937363333511998353409266533006650,35);
  (4212964825330691974858871933097290,34); (1951173617143989801325250990467036,35);
  (4408645839961695594165439713832385,34); (1961937374829732177745943149539355,35);
  (4605250183905227972759573735222361,34); (1969637800237150196713210105033516,35);
  (4802470882820129679705026018786032,34); (1974262870064558237686083363446556,35);
  (5000000000000000000000000000000000,34); (1975805362813565585457826956346317,35);
  (5197529117179870320294973981213969,34); (1974262870064558237686083363446556,35);
  (5394749816094772027240426264777639,34); (1969637800237150196713210105033516,35);
  (5591354160038304405834560286167614,34); (1961937374829732177745943149539355,35);
  (5787035174669308025141128066902709,34); (1951173617143989801325250990467036,35);
  (5981487327315923208295969643802712,34); (1937363333511998353409266533006650,35);
  (6174407004028659579386246794595369,34); (1920528087055208870270829688073518,35);
  (6365492983637617718712680339443623,34); (1900694164016302477275875340284722,35);
  (6554446908073682186044374786256562,34); (1877892532716488523895349628517504,35);
  (6740973748219339336195686860658564,34); (1852158795202339207991892781086642,35);
  (6924782264561754419611234189237356,34); (1823533131657671376462824282328685,35);
  (7105585461928859643660728800131545,34); (1792060237667287614460346267043893,35);
  (7283101037598445655743548671159743,34); (1757789254430556556412534933577142,35);
  (7457051822080599105479304270983240,34); (1720773692033830044129575179598637,35);
  (7627166211885272739481338193676775,34); (1681071345901546502496134176833754,35);
  (7793178593599294533279265526461949,34); (1638744206556540892671075165153145,35);
  (7954829758610699914266408059943433,34); (1593858362830558518025948164686589,35);
  (8111867307832886194414548511202859,34); (1546483898676241764414694840965277,35);
  (8264046045796719992624465640736240,34); (1496694783741918144782436667980539,35);
  (8411128363495355296388101658800107,34); (1444568757880363339081826206333833,35);
  (8552884609384120818791026099312195,34); (1390187209772352947221781991637012,35);
  (8689093447956391047626608233894959,34); (1333635049855277826894171268781840,35);
  (8819542205335850542291628808493488,34); (1275000577756438697366975375607812,35);
  (8944027201345988827825143171906864,34); (1214375344439974631971113768782146,35);
  (9062354067539033868824039537319065,34); (1151854009285951313848959659654859,35);
  (9174338050688889410336566999344822,34); (1087534192330403988432098489729050,35);
  (9279804301276096882366354234001506,34); (1021516321907042993922168975539772,35);
  (9378588146517647383297587174906746,34); (9539034779468744292391984685540125,36);
  (9470535347521175506552148939771659,34); (8848012312155208932331512533375411,36);
  (9555502340172904001225030944841664,34); (8143174788095841045918628106861678,36);
  (9633356459404519368322613920033990,34); (7425622763175034659289475496546338,36);
  (9703976146532886251500083683918440,34); (6696476672412838098654471232768691,36);
  (9767251139446345679816380772117047,34); (5956875107558499349799936611335906,36);
  (9823082645574323930537247954324141,34); (5207973102256691289591734655195631,36);
  (9871383497989035590894170947772471,34); (4450940491326243126869896402740459,36);
  (9912078296256394650492906888119818,34); (3686960565665088415195591804980694,36);
  (9945103538438921689373790187786706,34); (2917229934381732794606743075837717,36);
  (9970407773927713112055774946408752,34); (2142964556563265609109418416142535,36);
  (9987951971684707175884270895016409,34); (1365453532877427959266695024510656,36);
  (9997712642397849221620757879784684,34); (5869650649783065106011072355375493,37)].
Definition gauss_80 : list (Z * Z) := [
  (2230886741846850599597504527163893,37); (5724750015934707672720859706577367,37);
  (1175067800881155550252895908438499,36); (1331766794756340834646767915834235,36);
  (2886229517155861053968248167544142,36); (2090156562347447618369652100840637,36);
  (5354348750122234486748416431684306,36); (2845461225701599324634553558580990,36);
  (8575713630685464790855986145441772,36); (3596452384058656376337785433978227,36);
  (1254542970713610330717738496543189,35); (4341972634630429213204726102017130,36);
  (1725745547810037427386342216427250,35); (5080883020551532260415925176203516,36);
  (2270461682818254725325924148948526,35); (5812057060398913458233384997716334,36);
  (2887861934506366262386699774999912,35); (6534380796200669646893412948528144,36);
  (3577006141377710202347702046227345,35); (7246754020254538058481037291730264,36);
  (4336844871412117291763317192452624,35); (7948091791862844022451454614589326,36);
  (5166221028061465840283796401630204,35); (8637326028134653179292103565645500,36);
  (6063871616089308564811332818043781,35); (9313407104149515714367707076078624,36);
  (7028429666844445151140393825417177,35); (9975305439070999464445964357556806,36);
  (8058426320987236219168847804856645,35); (1062201305789100319435536862530661,35);
  (9152293065926826481443750299385214,35); (1125254512316623096311079484308440,35);
  (1030836412476972750256803441307728,34); (1186594143296505064659626230678420,35);
  (1152487899324793130671919656254869,34); (1246126788205774555255892350160988,35);
  (1279998512082013638417297360345432,34); (1303761788378255895148437180013466,35);
  (1413174073189500598729658708530924,34); (1359411375024319033720935334027211,35);
  (1551811778289861996143961937805324,34); (1412990802863843119837659898250726,35);
  (1695700505069400991320164385778414,34); (1464418479163392384638379300978956,35);
  (1844621134765640168760358063553316,34); (1513616087977899033061000504545059,35);
  (1998346885851241284226268504179966,34); (1560508709405735082122143336030175,35);
  (2156643659386451076372571066875864,34); (1605024933674388657402824514362540,35);
  (2319270395514340339900713734372995,34); (1647096969882270069141809045097975,35);
  (2485979440556075062031636248162160,34); (1686660749230576140833758153211934,35);
  (2656516924147277614819608175320956,34); (1723656022587696439718211336551494,35);
  (2830623145841219534688066498184090,34); (1758026452237379674776329619434842,35);
  (3008032970590153864878101787412331,34); (1789719697670802730143079440807721,35);
  (3188476232502563421904783568205182,34); (1818687495291798902198249552326140,35);
  (3371678146261490426904435281863206,34); (1844885731913800441957549828670263,35);
  (3557359725577440734454303492826431,34); (1868274511936524501335268852891936,35);
  (3745238208038639397534205919824976,34); (1888818218100069874488748821316050,35);
  (3935027485711669337138057306668391,34); (1906485565723881917210339578286811,35);
  (4126438540836765937203304759943569,34); (1921249650347971159260621816474507,35);
  (4319179885954280567203794609996415,34); (1933087988703823166353855513357837,35);
  (4512958007792077004683607749475316,34); (1941982552952598446588709133439360,35);
  (4707477814237896656855033390582911,34); (1947919798138476559931276238613038,35);
  (4902443083716030011728243829462727,34); (1950890682815332740564021962637702,35);
  (5097556916283969988271756170537273,34); (1950890682815332740564021962637702,35);
  (5292522185762103343144966609417089,34); (1947919798138476559931276238613038,35);
  (5487041992207922995316392250524684,34); (1941982552952598446588709133439360,35);
  (5680820114045719432796205390003585,34); (1933087988703823166353855513357837,35);
  (5873561459163234062796695240056431,34); (1921249650347971159260621816474507,35);
  (6064972514288330662861942693331610,34); (1906485565723881917210339578286811,35);
  (6254761791961360602465794080175024,34); (1888818218100069874488748821316050,35);
  (6442640274422559265545696507173569,34); (1868274511936524501335268852891936,35);
  (6628321853738509573095564718136794,34); (1844885731913800441957549828670263,35);
  (6811523767497436578095216431794818,34); (1818687495291798902198249552326140,35);
  (6991967029409846135121898212587669,34); (1789719697670802730143079440807721,35);
  (7169376854158780465311933501815910,34); (1758026452237379674776329619434842,35);
  (7343483075852722385180391824679044,34); (1723656022587696439718211336551494,35);
  (7514020559443924937968363751837840,34); (1686660749230576140833758153211934,35);
  (7680729604485659660099286265627005,34); (1647096969882270069141809045097975,35);
  (7843356340613548923627428933124136,34); (1605024933674388657402824514362540,35);
  (8001653114148758715773731495820034,34); (1560508709405735082122143336030175,35);
  (8155378865234359831239641936446684,34); (1513616087977899033061000504545059,35);
  (8304299494930599008679835614221586,34); (1464418479163392384638379300978956,35);
  (8448188221710138003856038062194676,34); (1412990802863843119837659898250726,35);
  (8586825926810499401270341291469076,34); (1359411375024319033720935334027211,35);
  (8720001487917986361582702639654568,34); (1303761788378255895148437180013466,35);
  (8847512100675206869328080343745130,34); (1246126788205774555255892350160988,35);
  (8969163587523027249743196558692272,34); (1186594143296505064659626230678420,35);
  (9084770693407317351855624970061478,34); (1125254512316623096311079484308440,35);
  (9194157367901276378083115219514335,34); (1062201305789100319435536862530661,35);
  (9297157033315555484885960617458283,34); (9975305439070999464445964357556806,36);
  (9393612838391069143518866718195622,34); (9313407104149515714367707076078624,36);
  (9483377897193853415971620359836980,34); (8637326028134653179292103565645500,36);
  (9566315512858788270823668280754738,34); (7948091791862844022451454614589326,36);
  (9642299385862228979765229795377266,34); (7246754020254538058481037291730264,36);
  (9711213806549363373761330022500009,34); (6534380796200669646893412948528144,36);
  (9772953831718174527467407585105147,34); (5812057060398913458233384997716334,36);
  (9827425445218996257261365778357275,34); (5080883020551532260415925176203516,36);
  (9874545702928638966928226150345681,34); (4341972634630429213204726102017130,36);
  (9914242863693145352091440138545583,34); (3596452384058656376337785433978227,36);
  (9946456512498777655132515835683157,34); (2845461225701599324634553558580990,36);
  (9971137704828441389460317518324559,34); (2090156562347447618369652100840637,36);
  (9988249321991188444497471040915615,34); (1331766794756340834646767915834235,36);
  (9997769113258153149400402495472837,34); (5724750015934707672720859706577367,37)].
Definition gauss_81 : list (Z * Z) := [
  (2176481548404827616394542422323069,37); (5585149235623033030603251828296799,37);
  (1146420005826768171024464464779212,36); (1299311149964476506748394113552361,36);
  (2815903357390067488661579809761521,36); (2039275556710697793010367041278272,36);
  (5223989314489000436055306377537805,36); (2776305685128139451136316324890741,36);
  (8367145716784886390029545025299906,36); (3509230242465812755804975912108189,36);
  (1224071366381935154187306958704323,35); (4236946892672782724807914009919543,36);
  (1683894183097194446495392195028208,35); (4958370904797937749874949894654581,36);
  (2215500012179874237558146559692792,35); (5672429247708127881004086228786162,36);
  (2818099117359308940970923230759108,35); (6378060557567210500128063221988521,36);
  (3490796254241624848872722240249202,35); (7074216256618032774125790510339626,36);
  (4232592017962464135546115892962371,35); (7759861956232181469122619672082050,36);
  (5042384335692173457366701588769681,35); (8433978933817569737167270425796276,36);
  (5918970107663992691586287421973374,35); (9095565620627880575881336928446681,36);
  (6861046996510405266312628405710456,35); (9743639077800959107963525258815652,36);
  (7867215363176647689664368859650983,35); (1037723645072280426976137211898615,35);
  (8935980346954488827061605978344404,35); (1099541639637581638525062921795482,35);
  (1006575408674858589213992724965880,34); (1159726048013695994072766423372742,35);
  (1125485808037882842971812394578519,34); (1218187453928154866624552730050143,35);
  (1250152567846896638887426445083940,34); (1274839001083283853473988953030431,35);
  (1380390470924736927783180183231601,34); (1329596522160996054545989736751770,35);
  (1516006023037821951590697526350499,34); (1382378663846246345554307342005629,35);
  (1656797740374549266975504063405355,34); (1433107007678033811289587772419417,35);
  (1802556448892527226776189963268397,34); (1481706186545279882923759632298343,35);
  (1953065595090317269705960841510364,34); (1528103996652633094782992042611045,35);
  (2108101567742243152589609976200219,34); (1572231504788703320901826957214535,35);
  (2267434030118443634602068332076325,34); (1614023150736634443620161607266951,35);
  (2430826262196708922389901207508431,34); (1653416844674400221043760319594647,35);
  (2598035512357758649286685233160154,34); (1690354059419812277559790674831628,35);
  (2768813358041504716759484879612027,34); (1724779917382989794737276433796783,35);
  (2942906074828512291569970784886282,34); (1756643272096968970798954608185834,35);
  (3120055013398343560397415727863355,34); (1785896784205228426536301299968544,35);
  (3299996983804758301120902810098826,34); (1812496991793170639916289084520700,35);
  (3482464646496869177241841618213073,34); (1836404374959021975845298309605707,35);
  (3667186909505323304272488140848460,34); (1857583414528185607237130081994359,35);
  (3853889331203419472792463449046788,34); (1876002644823791892961962230426204,35);
  (4042294528044785721300764668958323,34); (1891634700415027962378756981469206,35);
  (4232122586671846815716059395222839,34); (1904456356773780091551167721851934,35);
  (4423091479782816443705730697874402,34); (1914448564779176221515999467113212,35);
  (4614917485139364113408546486170000,34); (1921596479018758605012828400176349,35);
  (4807315607092440080817571822656713,34); (1925889479844234761891905691674012,35);
  (5000000000000000000000000000000000,34); (1927321189149035169475703783053868,35);
  (5192684392907559919182428177343287,34); (1925889479844234761891905691674012,35);
  (5385082514860635886591453513829999,34); (1921596479018758605012828400176349,35);
  (5576908520217183556294269302125598,34); (1914448564779176221515999467113212,35);
  (5767877413328153184283940604777162,34); (1904456356773780091551167721851934,35);
  (5957705471955214278699235331041677,34); (1891634700415027962378756981469206,35);
  (6146110668796580527207536550953212,34); (1876002644823791892961962230426204,35);
  (6332813090494676695727511859151540,34); (1857583414528185607237130081994359,35);
  (6517535353503130822758158381786927,34); (1836404374959021975845298309605707,35);
  (6700003016195241698879097189901174,34); (1812496991793170639916289084520700,35);
  (6879944986601656439602584272136646,34); (1785896784205228426536301299968544,35);
  (7057093925171487708430029215113719,34); (1756643272096968970798954608185834,35);
  (7231186641958495283240515120387973,34); (1724779917382989794737276433796783,35);
  (7401964487642241350713314766839846,34); (1690354059419812277559790674831628,35);
  (7569173737803291077610098792491569,34); (1653416844674400221043760319594647,35);
  (7732565969881556365397931667923675,34); (1614023150736634443620161607266951,35);
  (7891898432257756847410390023799781,34); (1572231504788703320901826957214535,35);
  (8046934404909682730294039158489636,34); (1528103996652633094782992042611045,35);
  (8197443551107472773223810036731603,34); (1481706186545279882923759632298343,35);
  (8343202259625450733024495936594646,34); (1433107007678033811289587772419417,35);
  (8483993976962178048409302473649501,34); (1382378663846246345554307342005629,35);
  (8619609529075263072216819816768399,34); (1329596522160996054545989736751770,35);
  (8749847432153103361112573554916060,34); (1274839001083283853473988953030431,35);
  (8874514191962117157028187605421481,34); (1218187453928154866624552730050143,35);
  (8993424591325141410786007275034121,34); (1159726048013695994072766423372742,35);
  (9106401965304551117293839402165560,34); (1099541639637581638525062921795482,35);
  (9213278463682335231033563114034901,34); (1037723645072280426976137211898615,35);
  (9313895300348959473368737159428954,34); (9743639077800959107963525258815652,36);
  (9408102989233600730841371257802663,34); (9095565620627880575881336928446681,36);
  (9495761566430782654263329841123032,34); (8433978933817569737167270425796276,36);
  (9576740798203753586445388410703763,34); (7759861956232181469122619672082050,36);
  (9650920374575837515112727775975080,34); (7074216256618032774125790510339626,36);
  (9718190088264069105902907676924089,34); (6378060557567210500128063221988521,36);
  (9778449998782012576244185344030721,34); (5672429247708127881004086228786162,36);
  (9831610581690280555350460780497180,34); (4958370904797937749874949894654581,36);
  (9877592863361806484581269304129568,34); (4236946892672782724807914009919543,36);
  (9916328542832151136099704549747001,34); (3509230242465812755804975912108189,36);
  (9947760106855109995639446936224621,34); (2776305685128139451136316324890741,36);
  (9971840966426099325113384201902384,34); (2039275556710697793010367041278272,36);
  (9988535799941732318289755355352208,34); (1299311149964476506748394113552361,36);
  (9997823518451595172383605457577677,34); (5585149235623033030603251828296799,37)].
Definition gauss_82 : list (Z * Z) := [
  (2124042491736755629354047323745212,37); (5450592976379154330535957691200668,37);
  (1118807086807068718820807369291257,36); (1268027348428053054910876925490516,36);
  (2748115810962185533000112381905243,36); (1990228968928037309514423367067055,36);
  (5098330580045525033687341369301706,36); (2709638116223382545352289866852306,36);
  (8166088238996198316055936571377961,36); (3425137267091763092163132255023569,36);
  (1194695145275058565429011614667922,35); (4135675909191842802215191353328016,36);
  (1643544187370465200196149165919933,35); (4840220352185536868482747157054269,36);
  (2162505306919454843910032872021122,35); (5537747890879948160112527482329178,36);
  (2750826128051975540887698788115364,35); (6227246700571052339866808250503008,36);
  (3407653677268855607263369121272672,35); (6907716857063229693863841843279470,36);
  (4132035637335994642711923355407848,35); (7578171635381280894234476406038226,36);
  (4922921735557937090185749737288985,35); (8237638881991854445506118304102828,36);
  (5779165270163764588600461545722027,35); (8885162399249203573490984062896730,36);
  (6699524774761727571465786803194196,35); (9519803320089462536519682295705906,36);
  (7682665819354314910213783236989103,35); (1014064146345607945078533983533999,35);
  (8727162945711617198568264556235457,35); (1074677666538742202174483190406033,35);
  (9831501734494585034905875045826869,35); (1133733008245705155122099150890109,35);
  (1099408100123208774030166301131118,34); (1191144546502391317111354248735571,35);
  (1221321511802197913512229543899120,34); (1246829039812037757788611414277895,35);
  (1348713645762018774741533917447925,34); (1300705750800851187693426155497488,35);
  (1481399795639166607530821858791640,34); (1352696563256238575989339833115641,35);
  (1619187579241764877170244502297792,34); (1402726095372711523585698766636858,35);
  (1761877217488267007168442480696035,34); (1450721809038220198072651503066859,35);
  (1909261824070106589794850004143828,34); (1496614115000636231754298099130937,35);
  (2061127705418575664231455647658936,34); (1540336473760781490683394139415700,35);
  (2217254670541180938263391218464243,34); (1581825492045012276881166216103744,35);
  (2377416350278361160124602676011500,34); (1621021014717030253891820391321247,35);
  (2541380525517753387682704634255242,34); (1657866211995360566387919220166237,35);
  (2708909463890184010885683887573376,34); (1692307661849842937231828106613338,35);
  (2879760264459246389182203613302733,34); (1724295427457535275368940348279596,35);
  (3053685209904725920394764187222082,34); (1753783129605634519239015288735666,35);
  (3230432125689260317973026612376035,34); (1780728013936373634024795762972449,35);
  (3409744745687492474949578306744294,34); (1805091012936351153784776126066880,35);
  (3591363083747599488158679709835206,34); (1826836802580382642109886641263437,35);
  (3775023810646477310804117359858893,34); (1845933853547722849926583641606645,35);
  (3960460635892038245168854110611798,34); (1862354476936383209392001803511834,35);
  (4147404693819049201164503165397833,34); (1876074864409251043578703599035039,35);
  (4335584933418712371175932189317854,34); (1887075122713793483576851931551379,35);
  (4524728511336775630235566295398072,34); (1895339302525289238973211301098198,35);
  (4714561187470365340485201603896676,34); (1900855421571763495265138711804523,35);
  (4904807722589965931192726606934023,34); (1903615482007093560384800891283571,35);
  (5095192277410034068807273393065977,34); (1903615482007093560384800891283571,35);
  (5285438812529634659514798396103324,34); (1900855421571763495265138711804523,35);
  (5475271488663224369764433704601928,34); (1895339302525289238973211301098198,35);
  (5664415066581287628824067810682146,34); (1887075122713793483576851931551379,35);
  (5852595306180950798835496834602167,34); (1876074864409251043578703599035039,35);
  (6039539364107961754831145889388201,34); (1862354476936383209392001803511834,35);
  (6224976189353522689195882640141107,34); (1845933853547722849926583641606645,35);
  (6408636916252400511841320290164794,34); (1826836802580382642109886641263437,35);
  (6590255254312507525050421693255706,34); (1805091012936351153784776126066880,35);
  (6769567874310739682026973387623965,34); (1780728013936373634024795762972449,35);
  (6946314790095274079605235812777918,34); (1753783129605634519239015288735666,35);
  (7120239735540753610817796386697267,34); (1724295427457535275368940348279596,35);
  (7291090536109815989114316112426624,34); (1692307661849842937231828106613338,35);
  (7458619474482246612317295365744758,34); (1657866211995360566387919220166237,35);
  (7622583649721638839875397323988500,34); (1621021014717030253891820391321247,35);
  (7782745329458819061736608781535758,34); (1581825492045012276881166216103744,35);
  (7938872294581424335768544352341064,34); (1540336473760781490683394139415700,35);
  (8090738175929893410205149995856172,34); (1496614115000636231754298099130937,35);
  (8238122782511732992831557519303965,34); (1450721809038220198072651503066859,35);
  (8380812420758235122829755497702208,34); (1402726095372711523585698766636858,35);
  (8518600204360833392469178141208359,34); (1352696563256238575989339833115641,35);
  (8651286354237981225258466082552074,34); (1300705750800851187693426155497488,35);
  (8778678488197802086487770456100881,34); (1246829039812037757788611414277895,35);
  (8900591899876791225969833698868882,34); (1191144546502391317111354248735571,35);
  (9016849826550541496509412495417313,34); (1133733008245705155122099150890109,35);
  (9127283705428838280143173544376454,34); (1074677666538742202174483190406033,35);
  (9231733418064568508978621676301090,34); (1014064146345607945078533983533999,35);
  (9330047522523827242853421319680581,34); (9519803320089462536519682295705906,36);
  (9422083472983623541139953845427798,34); (8885162399249203573490984062896730,36);
  (9507707826444206290981425026271101,34); (8237638881991854445506118304102828,36);
  (9586796436266400535728807664459215,34); (7578171635381280894234476406038226,36);
  (9659234632273114439273663087872732,34); (6907716857063229693863841843279470,36);
  (9724917387194802445911230121188464,34); (6227246700571052339866808250503008,36);
  (9783749469308054515608996712797888,34); (5537747890879948160112527482329178,36);
  (9835645581262953479980385083408007,34); (4840220352185536868482747157054269,36);
  (9880530485472494143457098838533208,34); (4135675909191842802215191353328016,36);
  (9918339117610038016839440634286220,34); (3425137267091763092163132255023569,36);
  (9949016694199544749663126586306983,34); (2709638116223382545352289866852306,36);
  (9972518841890378144669998876180948,34); (1990228968928037309514423367067055,36);
  (9988811929131929312811791926307087,34); (1268027348428053054910876925490516,36);
  (9997875957508263244370645952676255,34); (5450592976379154330535957691200668,37)].
Definition gauss_83 : list (Z * Z) := [
  (2073475964753280936977600941475954,37); (5320841098332838781903762413011191,37);
  (1092179798285019121866863181127221,36); (1237859661272969871664382554819878,36);
  (2682746184109838296016760586972213,36); (1942929717676601096001251235020698,36);
  (4977149351367388613835971387243787,36); (2645340722929932777619249725185010,36);
  (7972185201659264231466574150384648,36); (3344025817621842870678376462860227,36);
  (1166362496357853288390606489440462,35); (4037983296561726141796525671817523,36);
  (1604624727493563522649257405309994,35); (4726227546239849944121508260584356,36);
  (2111385043861644701924412992345600,35); (5407783279018579360180630695139805,36);
  (2685926249410456277885237181400984,35); (6081685363899306031516631863436634,36);
  (3327435179908069038216011321358010,35); (6746979756187617490349774812349141,36);
  (4035003870639602810950189041218719,35); (7402724700358938840424714629619968,36);
  (4807630848855024595913965982028847,35); (8047992005967685457719035647332853,36);
  (5644222554746832962974029410120588,35); (8681868336912311175082805749735756,36);
  (6543594891064150825044197548003285,35); (9303456492739236420833874299112941,36);
  (7504474900053310133078531836107586,35); (9911876672827469524656024729240141,36);
  (8525502565750786179912229191426469,35); (1050626771863495893700467249993273,35);
  (9605232739270518385106755689797641,35); (1108578833090181131099522057586768,35);
  (1074213718445920798561819181990152,34); (1164961825945027468508048180373694,35);
  (1193460674107706296403723580867079,34); (1219695946357927874871710384329585,35);
  (1318095360247178662963088412878580,34); (1272703724124474837540908452352687,35);
  (1447941370453912677597711754270006,34); (1323910132533688124255430606950364,35);
  (1582814922259891098720796052173377,34); (1373242694545163061946401731358216,35);
  (1722525117265881412584568317157413,34); (1420631585362382078187536986610414,35);
  (1866874211338803207525385338966192,34); (1466009731255226395902069638815925,35);
  (2015657894497908438040847116053696,34); (1509312904490720852705087096797884,35);
  (2168665580093795984961580742005285,34); (1550479814236959742153352280859296,35);
  (2325680702871073447098785762365512,34); (1589452193311107532177437778019553,35);
  (2486481025492869339894444032395811,34); (1626174880648403299564557762398762,35);
  (2650838953093398356412748964625231,34); (1660595899375250759058662581305907,35);
  (2818521855413403622572512638449060,34); (1692666530375759934965497115596405,35);
  (2989292396062556322179855820979436,34); (1722341381247525841626095688376726,35);
  (3162908868442798162992035978029196,34); (1749578450548982736576230764667569,35);
  (3339125537857179088424190021320586,34); (1774339187247355132292162162102258,35);
  (3517692989319984044446433696560290,34); (1796588545283032367366537284704408,35);
  (3698358480575870410437521087573088,34); (1816295033173114444994790462412271,35);
  (3880866299828363004034040636959059,34); (1833430758583904502195032210362298,35);
  (4064958127671386596052233156032934,34); (1847971467809248553987899320102786,35);
  (4250373402711565911019454691109287,34); (1859896580098836527200063537009616,35);
  (4436849690363798460960107674281198,34); (1869189216787870220545879779817138,35);
  (4624123054298113588365930717556282,34); (1875836225186863635752882166874613,35);
  (4811928430012078086662106476653340,34); (1879828197197758879598467215459595,35);
  (5000000000000000000000000000000000,34); (1881159482630006166287506494012805,35);
  (5188071569987921913337893523346660,34); (1879828197197758879598467215459595,35);
  (5375876945701886411634069282443718,34); (1875836225186863635752882166874613,35);
  (5563150309636201539039892325718802,34); (1869189216787870220545879779817138,35);
  (5749626597288434088980545308890713,34); (1859896580098836527200063537009616,35);
  (5935041872328613403947766843967066,34); (1847971467809248553987899320102786,35);
  (6119133700171636995965959363040941,34); (1833430758583904502195032210362298,35);
  (6301641519424129589562478912426912,34); (1816295033173114444994790462412271,35);
  (6482307010680015955553566303439710,34); (1796588545283032367366537284704408,35);
  (6660874462142820911575809978679413,34); (1774339187247355132292162162102258,35);
  (6837091131557201837007964021970804,34); (1749578450548982736576230764667569,35);
  (7010707603937443677820144179020565,34); (1722341381247525841626095688376726,35);
  (7181478144586596377427487361550940,34); (1692666530375759934965497115596405,35);
  (7349161046906601643587251035374769,34); (1660595899375250759058662581305907,35);
  (7513518974507130660105555967604189,34); (1626174880648403299564557762398762,35);
  (7674319297128926552901214237634487,34); (1589452193311107532177437778019553,35);
  (7831334419906204015038419257994715,34); (1550479814236959742153352280859296,35);
  (7984342105502091561959152883946304,34); (1509312904490720852705087096797884,35);
  (8133125788661196792474614661033808,34); (1466009731255226395902069638815925,35);
  (8277474882734118587415431682842587,34); (1420631585362382078187536986610414,35);
  (8417185077740108901279203947826623,34); (1373242694545163061946401731358216,35);
  (8552058629546087322402288245729994,34); (1323910132533688124255430606950364,35);
  (8681904639752821337036911587121420,34); (1272703724124474837540908452352687,35);
  (8806539325892293703596276419132921,34); (1219695946357927874871710384329585,35);
  (8925786281554079201438180818009848,34); (1164961825945027468508048180373694,35);
  (9039476726072948161489324431020236,34); (1108578833090181131099522057586768,35);
  (9147449743424921382008777080857353,34); (1050626771863495893700467249993273,35);
  (9249552509994668986692146816389241,34); (9911876672827469524656024729240141,36);
  (9345640510893584917495580245199671,34); (9303456492739236420833874299112941,36);
  (9435577744525316703702597058987941,34); (8681868336912311175082805749735756,36);
  (9519236915114497540408603401797115,34); (8047992005967685457719035647332853,36);
  (9596499612936039718904981095878128,34); (7402724700358938840424714629619968,36);
  (9667256482009193096178398867864199,34); (6746979756187617490349774812349141,36);
  (9731407375058954372211476281859902,34); (6081685363899306031516631863436634,36);
  (9788861495613835529807558700765440,34); (5407783279018579360180630695139805,36);
  (9839537527250643647735074259469000,34); (4726227546239849944121508260584356,36);
  (9883363750364214671160939351055954,34); (4037983296561726141796525671817523,36);
  (9920278147983407357685334258496153,34); (3344025817621842870678376462860227,36);
  (9950228506486326113861640286127562,34); (2645340722929932777619249725185010,36);
  (9973172538158901617039832394130277,34); (1942929717676601096001251235020698,36);
  (9989078202017149808781331368188728,34); (1237859661272969871664382554819878,36);
  (9997926524035246719063022399058525,34); (5320841098332838781903762413011191,37)].
Definition gauss_84 : list (Z * Z) := [
  (2024693865383788976263708743827814,37); (5195667582259859445940567695406154,37);
  (1066491789144019219290517108318456,36); (1208755632721561427617595876645253,36);
  (2619680869357679402081296893800846,36); (1897295825226174848196697203761717,36);
  (4860235517321656332892051214174317,36); (2583302591373404164940510558013071,36);
  (7785101436209174240462503186672705,36); (3265756843856827300560674696595422,36);
  (1139024632084210867284966786644952,35); (3943702876324073191053063912386839,36);
  (1567069091318905115468604641554069,35); (4616200392095123507191472807107633,36);
  (2062052063515326399002540716104484,35); (5282318811504122632424239284979075,36);
  (2623289502627843859436212941579405,35); (5941137044900611747525980821548398,36);
  (3250005761822059112379971545416933,35); (6591744339591172993399733717000943,36);
  (3941334681847439113639663509642962,35); (7233241394580593121137436061475634,36);
  (4696320795299578933001224567709261,35); (7864741547791799100799911791553092,36);
  (5513920650584226959803026858671113,35); (8485371977605805671540841144938286,36);
  (6393004255821048398509470858580913,35); (9094274898028274963800120392287951,36);
  (7332356641554066920062958177970785,35); (9690608738659404323903529156021864,36);
  (8330679540498928557697377669659958,35); (1027354930487813930576221981834464,35);
  (9386593182193848048853106472863232,35); (1084229091532241149462201858575074,35);
  (1049863820017015660161311715719491,34); (1139604751447106466944431670064369,35);
  (1166527764905818586665499073097917,34); (1193405375847911969235771095021934,35);
  (1288489912886950396132391301911987,34); (1245556607260321444219567989160505,35);
  (1415581701353625880885588735647206,34); (1295986367866732386258010776020287,35);
  (1547627478063757643898463974896427,34); (1344624959109881875790821172673213,35);
  (1684444743909926828319004286965387,34); (1391405158012920301788346016431872,35);
  (1825844405151542581779928755797887,34); (1436262310081090110633238968979362,35);
  (1971631034760833051578656390961601,34); (1479134418655542264480263067412938,35);
  (2121603142521629219790420531124143,34); (1519962230595123488655685115450849,35);
  (2275553453507751555436766050462094,34); (1558689318167283064598373477461096,35);
  (2433269194556192999759480785449834,34); (1595262157034636374201148288844143,35);
  (2594532388339219119728455318841236,34); (1629630200229212859180666765804596,35);
  (2759120154628988344207501352354388,34); (1661745948012022203735781332940455,35);
  (2926805018338343903300051583501600,34); (1691565013521299240186244569061307,35);
  (3097355223912056497305993679579738,34); (1719046184118635031066746665205604,35);
  (3270535055634014704834350141410906,34); (1744151478348165422820833103798841,35);
  (3446105163407680136860146321360000,34); (1766846198430063808019436248521049,35);
  (3623822893559557197503231423482512,34); (1787098978215765363894448651395197,35);
  (3803442624208483171453536904747328,34); (1804881826538628335087631133991025,35);
  (3984716104737232609355952902355256,34); (1820170165900106124431313006439180,35);
  (4167392798897259205167774481097720,34); (1832942866437953781828845867139632,35);
  (4351220231072376290997312143494889,34); (1843182275129515385922603581891081,35);
  (4535944335222810586268748296774502,34); (1850874240189726029262221184906514,35);
  (4721309806027358915003635788388103,34); (1856008130630104713686379364342199,35);
  (4907060451738339333565849486072828,34); (1858576850951703380164180627247621,35);
  (5092939548261660666434150513927172,34); (1858576850951703380164180627247621,35);
  (5278690193972641084996364211611897,34); (1856008130630104713686379364342199,35);
  (5464055664777189413731251703225498,34); (1850874240189726029262221184906514,35);
  (5648779768927623709002687856505111,34); (1843182275129515385922603581891081,35);
  (5832607201102740794832225518902280,34); (1832942866437953781828845867139632,35);
  (6015283895262767390644047097644745,34); (1820170165900106124431313006439180,35);
  (6196557375791516828546463095252672,34); (1804881826538628335087631133991025,35);
  (6376177106440442802496768576517488,34); (1787098978215765363894448651395197,35);
  (6553894836592319863139853678640000,34); (1766846198430063808019436248521049,35);
  (6729464944365985295165649858589094,34); (1744151478348165422820833103798841,35);
  (6902644776087943502694006320420262,34); (1719046184118635031066746665205604,35);
  (7073194981661656096699948416498400,34); (1691565013521299240186244569061307,35);
  (7240879845371011655792498647645612,34); (1661745948012022203735781332940455,35);
  (7405467611660780880271544681158764,34); (1629630200229212859180666765804596,35);
  (7566730805443807000240519214550166,34); (1595262157034636374201148288844143,35);
  (7724446546492248444563233949537906,34); (1558689318167283064598373477461096,35);
  (7878396857478370780209579468875858,34); (1519962230595123488655685115450849,35);
  (8028368965239166948421343609038399,34); (1479134418655542264480263067412938,35);
  (8174155594848457418220071244202112,34); (1436262310081090110633238968979362,35);
  (8315555256090073171680995713034612,34); (1391405158012920301788346016431872,35);
  (8452372521936242356101536025103573,34); (1344624959109881875790821172673213,35);
  (8584418298646374119114411264352793,34); (1295986367866732386258010776020287,35);
  (8711510087113049603867608698088012,34); (1245556607260321444219567989160505,35);
  (8833472235094181413334500926902083,34); (1193405375847911969235771095021934,35);
  (8950136179982984339838688284280509,34); (1139604751447106466944431670064369,35);
  (9061340681780615195114689352713676,34); (1084229091532241149462201858575074,35);
  (9166932045950107144230262233034004,34); (1027354930487813930576221981834464,35);
  (9266764335844593307993704182202921,34); (9690608738659404323903529156021864,36);
  (9360699574417895160149052914141908,34); (9094274898028274963800120392287951,36);
  (9448607934941577304019697314132889,34); (8485371977605805671540841144938286,36);
  (9530367920470042106699877543229074,34); (7864741547791799100799911791553092,36);
  (9605866531815256088636033649035704,34); (7233241394580593121137436061475634,36);
  (9674999423817794088762002845458306,34); (6591744339591172993399733717000943,36);
  (9737671049737215614056378705842059,34); (5941137044900611747525980821548398,36);
  (9793794793648467360099745928389552,34); (5282318811504122632424239284979075,36);
  (9843293090868109488453139535844593,34); (4616200392095123507191472807107633,36);
  (9886097536791578913271503321335505,34); (3943702876324073191053063912386839,36);
  (9922148985637908257595374968133273,34); (3265756843856827300560674696595422,36);
  (9951397644826783436671079487858257,34); (2583302591373404164940510558013071,36);
  (9973803191306423205979187031061992,34); (1897295825226174848196697203761717,36);
  (9989335082108559807807094828916815,34); (1208755632721561427617595876645253,36);
  (9997975306134616211023736291256173,34); (5195667582259859445940567695406154,37)].
Definition gauss_85 : list (Z * Z) := [
  (1977613212607728368482025049214431,37); (5074859544838718476865112733909545,37);
  (1041699400941533424845582015468541,36); (1180665852142510448383689398931342,36);
  (2558812852191860773316427958006295,36); (1853250062879658353435499371736954,36);
  (4747391141792018106437835039337303,36); (2523419213462221362725885926387986,36);
  (7604521157209751336417952562795559,36); (3190199293948757549342962616727119,36);
  (1112635579387830403333306353044842,35); (3852677980191378539948585201806872,36);
  (1530814403816083599743189819287354,35); (4509957719996815639483596826678518,36);
  (2014424202140581880182657357178855,35); (5161150115262122946908104861426771,36);
  (2562812187271052329767571161902550,35); (5805375643351949004812155951186294,36);
  (3175238094178465015665119917476905,35); (6441764428249042145253141155736373,36);
  (3850875195195497720561527205713098,35); (7069457274200416465277710239668094,36);
  (4588811423045405755158745947870368,35); (7687606771194813437204195265911210,36);
  (5388050605432204920914312867664065,35); (8295378415577335037602524810208683,36);
  (6247513811545145618067352531988815,35); (8891951725699085453871846739570641,36);
  (7166040809502190545209433872777040,35); (9476521344091420223402597996744084,36);
  (8142391633145867490072907564533329,35); (1004829812178771087089727069279902,35);
  (9175248256260419263971337600040190,35); (1060651018204468983620835470498704,35);
  (1026321637204417472764253392428947,34); (1115040396141968709472877007685080,35);
  (1140482727548534606698444694443052,34); (1167924522649494594884921657606076,35);
  (1259853984612829630218650485940934,34); (1219232006471784157120791066092640,35);
  (1384274262856994893077083033927211,34); (1268893584793304423868483760896914,35);
  (1513575600788752261745180050519516,34); (1316842216725717991086576890612472,35);
  (1647583447706686696486639627273460,34); (1363013173800558239288497561901746,35);
  (1786116899337426425783002841955017,34); (1407344127343253792319154670048896,35);
  (1928988942049315034643515325697755,34); (1449775232609507604493313624500892,35);
  (2076006705313059571448539717886512,34); (1490249209569794368780618372774235,35);
  (2226971722068652834205046243948310,34); (1528711420232499786196205590806954,35);
  (2381680196647160626059773319145350,34); (1565109942401043522419848515217595,35);
  (2539923279885743447614289372764505,34); (1599395639765233722988500028774812,35);
  (2701487351064556396192652893587411,34); (1631522228232108909451885612812950,35);
  (2866154306284951491390027933339350,34); (1661446338406638488126428748193453,35);
  (3033701852899704046748926235199516,34); (1689127574137876516565586627693963,35);
  (3203903809597809756216775968835425,34); (1714528567051492335411112879499665,35);
  (3376530411738762212729917223315236,34); (1737615026995031876462367690718433,35);
  (3551348621524131482306451862968196,34); (1758355788327789412490642548347448,35);
  (3728122442587732387511346698130060,34); (1776722851992784954099575675039401,35);
  (3906613238579704921448783544058799,34); (1792691423314040627845759913321658,35);
  (4086580055314436630618594552314567,34); (1806239945468123018737594033250856,35);
  (4267779946047445053945492391513925,34); (1817350128584760188337838722179157,35);
  (4449968299442113813236599915428980,34); (1826006974437244242873830639265876,35);
  (4632899169783544371902461363824223,34); (1832198796689285124320346330161932,35);
  (4816325608993751682397656156793943,34); (1835917236670980811107612728393645,35);
  (5000000000000000000000000000000000,34); (1837157274662605330010331601626900,35);
  (5183674391006248317602343843206057,34); (1835917236670980811107612728393645,35);
  (5367100830216455628097538636175777,34); (1832198796689285124320346330161932,35);
  (5550031700557886186763400084571020,34); (1826006974437244242873830639265876,35);
  (5732220053952554946054507608486075,34); (1817350128584760188337838722179157,35);
  (5913419944685563369381405447685433,34); (1806239945468123018737594033250856,35);
  (6093386761420295078551216455941201,34); (1792691423314040627845759913321658,35);
  (6271877557412267612488653301869940,34); (1776722851992784954099575675039401,35);
  (6448651378475868517693548137031804,34); (1758355788327789412490642548347448,35);
  (6623469588261237787270082776684764,34); (1737615026995031876462367690718433,35);
  (6796096190402190243783224031164575,34); (1714528567051492335411112879499665,35);
  (6966298147100295953251073764800484,34); (1689127574137876516565586627693963,35);
  (7133845693715048508609972066660650,34); (1661446338406638488126428748193453,35);
  (7298512648935443603807347106412589,34); (1631522228232108909451885612812950,35);
  (7460076720114256552385710627235495,34); (1599395639765233722988500028774812,35);
  (7618319803352839373940226680854650,34); (1565109942401043522419848515217595,35);
  (7773028277931347165794953756051690,34); (1528711420232499786196205590806954,35);
  (7923993294686940428551460282113487,34); (1490249209569794368780618372774235,35);
  (8071011057950684965356484674302244,34); (1449775232609507604493313624500892,35);
  (8213883100662573574216997158044983,34); (1407344127343253792319154670048896,35);
  (8352416552293313303513360372726540,34); (1363013173800558239288497561901746,35);
  (8486424399211247738254819949480484,34); (1316842216725717991086576890612472,35);
  (8615725737143005106922916966072790,34); (1268893584793304423868483760896914,35);
  (8740146015387170369781349514059066,34); (1219232006471784157120791066092640,35);
  (8859517272451465393301555305556948,34); (1167924522649494594884921657606076,35);
  (8973678362795582527235746607571053,34); (1115040396141968709472877007685080,35);
  (9082475174373958073602866239995981,34); (1060651018204468983620835470498704,35);
  (9185760836685413250992709243546667,34); (1004829812178771087089727069279902,35);
  (9283395919049780945479056612722296,34); (9476521344091420223402597996744084,36);
  (9375248618845485438193264746801118,34); (8891951725699085453871846739570641,36);
  (9461194939456779507908568713233594,34); (8295378415577335037602524810208683,36);
  (9541118857695459424484125405212963,34); (7687606771194813437204195265911210,36);
  (9614912480480450227943847279428690,34); (7069457274200416465277710239668094,36);
  (9682476190582153498433488008252310,34); (6441764428249042145253141155736373,36);
  (9743718781272894767023242883809745,34); (5805375643351949004812155951186294,36);
  (9798557579785941811981734264282115,34); (5161150115262122946908104861426771,36);
  (9846918559618391640025681018071265,34); (4509957719996815639483596826678518,36);
  (9888736442061216959666669364695516,34); (3852677980191378539948585201806872,36);
  (9923954788427902486635820474372044,34); (3190199293948757549342962616727119,36);
  (9952526088582079818935621649606627,34); (2523419213462221362725885926387986,36);
  (9974411871478081392266835720419937,34); (1853250062879658353435499371736954,36);
  (9989583005990584665751544179845314,34); (1180665852142510448383689398931342,36);
  (9998022386787392271631517974950786,34); (5074859544838718476865112733909545,37)].
Definition gauss_86 : list (Z * Z) := [
  (1932155793370714913240285154050983,37); (4958216333101817627887911914660959,37);
  (1017761482378027607400876481153156,36); (1153543744404951462983911337051172,36);
  (2500041257331051887986085156736634,36); (1810719624805450718777860196796456,36);
  (4638429627240647390026920212133769,36); (2465592048480051848210781980445065,36);
  (7430146633748793194432533935153870,36); (3117229569570061731943472959940935,36);
  (1087151987315764168875914495516029,35); (3764760806097281303422447523943510,36);
  (1495801365712993432071660716233809,35); (4407328550977407851891003621200804,36);
  (1968423952855077568529269555418494,35); (5044084230193052827336514108621546,36);
  (2504396457389487214399576889031561,35); (5674187578088851988583294875656662,36);
  (3103012004505369278347840852672991,35); (6296807339034848905204627271248551,36);
  (3763481083856902511147706807257566,35); (6911122226383335433324095849788658,36);
  (4484932597691708489472345149220967,35); (7516321952540689342472593130603103,36);
  (5266415013027683281048051783621560,35); (8111608274864511294041803802692162,36);
  (6106897618331703133004217060491006,35); (8696196037845271193359823119232496,36);
  (7005271883865752234989565516234497,35); (9269314203354929603157361413003844,36);
  (7960352924278347415014465563665550,35); (9830206864781089903700998003976339,36);
  (8970881061691988923147484147549674,35); (1037813424245457139529084737297168,35);
  (1003552348731691059318736492832044,34); (1091237365846381390034210940794515,35);
  (1115287601944883144727651436292562,34); (1143222048927400322288642296641737,35);
  (1232146495555955482510296191469187,34); (1193698909473950248660870587892228,35);
  (1353974901605358385506410174169068,34); (1242601372219991795916291424923784,35);
  (1480612137713661526017863465053309,34); (1289864938441976770388555165853474,35);
  (1611891179012057446720239312385137,34); (1335427271018610478765337152604855,35);
  (1747638878437368835745026420510806,34); (1379228276642562419369210139567998,35);
  (1887676195101245940433731500762979,34); (1421210185074674737865621561491059,35);
  (2031818430432509831639562542192853,34); (1461317625335497229183074842261280,35);
  (2179875471781293354924474891603303,34); (1499497698733246624566924488982764,35);
  (2331652043163756583480754348807495,34); (1535700048631602659152002453668027,35);
  (2486947962816713627490436614252250,34); (1569876926865143277926661207237856,35);
  (2645558407222511082110273717614458,34); (1601983256714700805511417448472823,35);
  (2807274181255954529941084506589020,34); (1631976692359496097804933913352661,35);
  (2971881994096998019244129000390639,34); (1659817674727579856004517066873208,35);
  (3139164740545301948379323060759261,34); (1685469483670877743248576805550837,35);
  (3308901787365636667940178931600098,34); (1708898286395995231711905974131179,35);
  (3480869264286471324686141484122615,34); (1730073182086884612996720456862115,35);
  (3654840359267948474497952499439808,34); (1748966242660504968570658754352688,35);
  (3830585617649812681299419295822982,34); (1765552549601710254029235597274914,35);
  (4007873244784742985927342627913844,34); (1779810226828774779534557419198919,35);
  (4186469411757941428312337964413655,34); (1791720469546202789488971104460163,35);
  (4366138563789758735069006071626930,34); (1801267569046762885504478060013759,35);
  (4546643730914599164843116171959423,34); (1808438933430031879137247691553953,35);
  (4727746840526343969850325413641841,34); (1813225104210119371574597625998410,35);
  (4909209031378070920332785526421198,34); (1815619768790666914115757044120885,35);
  (5090790968621929079667214473578802,34); (1815619768790666914115757044120885,35);
  (5272253159473656030149674586358159,34); (1813225104210119371574597625998410,35);
  (5453356269085400835156883828040577,34); (1808438933430031879137247691553953,35);
  (5633861436210241264930993928373070,34); (1801267569046762885504478060013759,35);
  (5813530588242058571687662035586345,34); (1791720469546202789488971104460163,35);
  (5992126755215257014072657372086156,34); (1779810226828774779534557419198919,35);
  (6169414382350187318700580704177018,34); (1765552549601710254029235597274914,35);
  (6345159640732051525502047500560193,34); (1748966242660504968570658754352688,35);
  (6519130735713528675313858515877385,34); (1730073182086884612996720456862115,35);
  (6691098212634363332059821068399902,34); (1708898286395995231711905974131179,35);
  (6860835259454698051620676939240740,34); (1685469483670877743248576805550837,35);
  (7028118005903001980755870999609361,34); (1659817674727579856004517066873208,35);
  (7192725818744045470058915493410980,34); (1631976692359496097804933913352661,35);
  (7354441592777488917889726282385542,34); (1601983256714700805511417448472823,35);
  (7513052037183286372509563385747750,34); (1569876926865143277926661207237856,35);
  (7668347956836243416519245651192505,34); (1535700048631602659152002453668027,35);
  (7820124528218706645075525108396697,34); (1499497698733246624566924488982764,35);
  (7968181569567490168360437457807147,34); (1461317625335497229183074842261280,35);
  (8112323804898754059566268499237021,34); (1421210185074674737865621561491059,35);
  (8252361121562631164254973579489194,34); (1379228276642562419369210139567998,35);
  (8388108820987942553279760687614863,34); (1335427271018610478765337152604855,35);
  (8519387862286338473982136534946691,34); (1289864938441976770388555165853474,35);
  (8646025098394641614493589825830932,34); (1242601372219991795916291424923784,35);
  (8767853504444044517489703808530814,34); (1193698909473950248660870587892228,35);
  (8884712398055116855272348563707438,34); (1143222048927400322288642296641737,35);
  (8996447651268308940681263507167955,34); (1091237365846381390034210940794515,35);
  (9102911893830801107685251585245033,34); (1037813424245457139529084737297168,35);
  (9203964707572165258498553443633444,34); (9830206864781089903700998003976339,36);
  (9299472811613424776501043448376551,34); (9269314203354929603157361413003844,36);
  (9389310238166829686699578293950899,34); (8696196037845271193359823119232496,36);
  (9473358498697231671895194821637844,34); (8111608274864511294041803802692162,36);
  (9551506740230829151052765485077904,34); (7516321952540689342472593130603103,36);
  (9623651891614309748885229319274243,34); (6911122226383335433324095849788658,36);
  (9689698799549463072165215914732701,34); (6296807339034848905204627271248551,36);
  (9749560354261051278560042311096843,34); (5674187578088851988583294875656662,36);
  (9803157604714492243147073044458151,34); (5044084230193052827336514108621546,36);
  (9850419863428700656792833928376619,34); (4407328550977407851891003621200804,36);
  (9891284801268423583112408550448397,34); (3764760806097281303422447523943510,36);
  (9925698533662512068055674660648461,34); (3117229569570061731943472959940935,36);
  (9953615703727593526099730797878663,34); (2465592048480051848210781980445065,36);
  (9974999587426689481120139148432634,34); (1810719624805450718777860196796456,36);
  (9989822385176219723925991235188468,34); (1153543744404951462983911337051172,36);
  (9998067844206629285086759714845949,34); (4958216333101817627887911914660959,37)].
Definition gauss_87 : list (Z * Z) := [
  (1888247837578638054519071252512308,37); (4845548690885376688032674220365965,37);
  (9946392185088209591605542840768083,37); (1127345376876426546240605397622311,36);
  (2443270931003997027245834791884509,36); (1769635827694314270090792988971844,36);
  (4533174944517714738566088230558013,36); (2409728119250942949654349288993273,36);
  (7261696965789816018096045886746770,36); (3046731023817436065051127732116638,36);
  (1062532949809186378676098121528827,35); (3679811824409031830385291360976658,36);
  (1461974012635786282322634546673884,35); (4308151419244475916475051797025217,36);
  (1923978153196341536788515838756253,35); (4930938856850913358292065239575929,36);
  (2447949930534321304044049473836075,35); (5547370970280359639860422276624856,36);
  (3033214001289712606100595355699538,35); (6156653015024018271143501688843288,36);
  (3679016005438139002426790860863931,35); (6757999559122829040940343036649265,36);
  (4384523545293855780850832102087905,35); (7350635443619921114946960979403498,36);
  (5148827261621531649133686972064680,35); (7933796759413159501460871021979882,36);
  (5970942007397907947114339195967092,35); (8506731821500767216822672892281032,36);
  (6849808118514669871490475540970247,35); (9068702132677126025109021877935631,36);
  (7784292780148238987972148999005350,35); (9618983332678279392525333948483882,36);
  (8773191487210975993328263725268293,35); (1015686613032778476328489796801108,35);
  (9815229597091111088233944305184344,35); (1068165721690126579680807612508683,35);
  (1090906397272811318226610057141147,34); (1119268015924273910709874957218987,35);
  (1205328471393253421322859793655430,34); (1168927627133008612891197550739481,35);
  (1324641697473431029489819755074956,34); (1217080546308381616960690260620070,35);
  (1448692286442635485790158107183966,34); (1263664706527853658205930517823334,35);
  (1577320342985881629400692413356218,34); (1308620062946677947486275953921282,35);
  (1710360071643253044785229824016144,34); (1351888670186790364198864731154540,35);
  (1847639990513747763531526114620932,34); (1393414757021460299481717988457306,35);
  (1988983152288323991560225165544315,34); (1433144798258810919429364166832414,35);
  (2134207372327347940628936075039448,34); (1471027583731152412461238510237288,35);
  (2283125463488533232786919253252480,34); (1507014284300941237197557980246892,35);
  (2435545477402738704295452409231317,34); (1541058514798111707685952143877273,35);
  (2591270951886665974552691092484775,34); (1573116393807538196898111165226784,35);
  (2750101164173578107992134482947094,34); (1603146600229483388882909097149647,35);
  (2911831389635654724850446219276739,34); (1631110426540072196290017033902088,35);
  (3076253165664515681680944148888232,34); (1656971828683101176814441834946219,35);
  (3243154560369793421421530606661771,34); (1680697472528846779211112867189465,35);
  (3412320445749421428343281765753603,34); (1702256776839968672759181823521909,35);
  (3583532774979540634027739023173856,34); (1721621952689112188296909637912455,35);
  (3756570863466614342002310383198424,34); (1738768039277391462435561204307668,35);
  (3931211673299491982031187111525371,34); (1753672936107576827831267359562997,35);
  (4107230100734778928508852565079038,34); (1766317431470510684921526548435284,35);
  (4284399266344959304938003164896277,34); (1776685227208029695566737852464155,35);
  (4462490807455286141971187620500184,34); (1784762959720471688823971504997481,35);
  (4641275172492502851435845728217129,34); (1790540217191687087831279960251247,35);
  (4820521916865995502636414086735880,34); (1794009553009350793886760361188480,35);
  (5000000000000000000000000000000000,34); (1795166495363275072104163367106956,35);
  (5179478083134004497363585913264119,34); (1794009553009350793886760361188480,35);
  (5358724827507497148564154271782870,34); (1790540217191687087831279960251247,35);
  (5537509192544713858028812379499817,34); (1784762959720471688823971504997481,35);
  (5715600733655040695061996835103723,34); (1776685227208029695566737852464155,35);
  (5892769899265221071491147434920962,34); (1766317431470510684921526548435284,35);
  (6068788326700508017968812888474629,34); (1753672936107576827831267359562997,35);
  (6243429136533385657997689616801576,34); (1738768039277391462435561204307668,35);
  (6416467225020459365972260976826144,34); (1721621952689112188296909637912455,35);
  (6587679554250578571656718234246398,34); (1702256776839968672759181823521909,35);
  (6756845439630206578578469393338229,34); (1680697472528846779211112867189465,35);
  (6923746834335484318319055851111768,34); (1656971828683101176814441834946219,35);
  (7088168610364345275149553780723261,34); (1631110426540072196290017033902088,35);
  (7249898835826421892007865517052906,34); (1603146600229483388882909097149647,35);
  (7408729048113334025447308907515225,34); (1573116393807538196898111165226784,35);
  (7564454522597261295704547590768682,34); (1541058514798111707685952143877273,35);
  (7716874536511466767213080746747520,34); (1507014284300941237197557980246892,35);
  (7865792627672652059371063924960552,34); (1471027583731152412461238510237288,35);
  (8011016847711676008439774834455685,34); (1433144798258810919429364166832414,35);
  (8152360009486252236468473885379068,34); (1393414757021460299481717988457306,35);
  (8289639928356746955214770175983856,34); (1351888670186790364198864731154540,35);
  (8422679657014118370599307586643782,34); (1308620062946677947486275953921282,35);
  (8551307713557364514209841892816034,34); (1263664706527853658205930517823334,35);
  (8675358302526568970510180244925044,34); (1217080546308381616960690260620070,35);
  (8794671528606746578677140206344570,34); (1168927627133008612891197550739481,35);
  (8909093602727188681773389942858853,34); (1119268015924273910709874957218987,35);
  (9018477040290888891176605569481566,34); (1068165721690126579680807612508683,35);
  (9122680851278902400667173627473171,34); (1015686613032778476328489796801108,35);
  (9221570721985176101202785100099465,34); (9618983332678279392525333948483882,36);
  (9315019188148533012850952445902976,34); (9068702132677126025109021877935631,36);
  (9402905799260209205288566080403291,34); (8506731821500767216822672892281032,36);
  (9485117273837846835086631302793532,34); (7933796759413159501460871021979882,36);
  (9561547645470614421914916789791209,34); (7350635443619921114946960979403498,36);
  (9632098399456186099757320913913607,34); (6757999559122829040940343036649265,36);
  (9696678599871028739389940464430046,34); (6156653015024018271143501688843288,36);
  (9755205006946567869595595052616392,34); (5547370970280359639860422276624856,36);
  (9807602184680365846321148416124375,34); (4930938856850913358292065239575929,36);
  (9853802598736421371767736545332611,34); (4308151419244475916475051797025217,36);
  (9893746705019081362132390187847117,34); (3679811824409031830385291360976658,36);
  (9927383030342101839819039541132532,34); (3046731023817436065051127732116638,36);
  (9954668250554822852614339117694420,34); (2409728119250942949654349288993273,36);
  (9975567290689960029727541652081154,34); (1769635827694314270090792988971844,36);
  (9990053607814911790408394457159232,34); (1127345376876426546240605397622311,36);
  (9998111752162421361945480928747488,34); (4845548690885376688032674220365965,37)].
Definition gauss_88 : list (Z * Z) := [
  (1845819718646721093383473928473235,37); (4736677990809636333856231819272877,37);
  (9722959733751611969987763620646111,37); (1102029281571848314270025224317840,36);
  (2388412056005564609449410156931257,36); (1729933833931398211987683072686057,36);
  (4431460922992222444193900500363878,36); (2355739639799330871510907344550191,36);
  (7098906956118223858032124079286261,36); (2978593498069023291564692465923579,36);
  (1038739842285164811155384355305149,35); (3597699229898186029879979160840402,36);
  (1429279492933886175981624456692542,35); (4212273746351236507549290638102254,36);
  (1881017696811465850505608144150540,35); (4821541661026602200385095132812183,36);
  (2393385326809894373898338016015184,35); (5424734887714635629700921821464904,36);
  (2965736834867822736899743426164471,35); (6021093219790606154869776470902073,36);
  (3597351080265397220974830975145157,35); (6609865156813955854090667475449514,36);
  (4287432244773640433001095207697640,35); (7190308800649972117967296060811256,36);
  (5035110838497147257766354675072477,35); (7761692768466776920082408173770113,36);
  (5839444797027470918813901729608498,35); (8323297104108828022556411667204821,36);
  (6699420669310933298854336272024782,35); (8874414180162037278247532575446616,36);
  (7613954895089545640149274082862774,35); (9414349586877725697355019716060284,36);
  (8581895170477187757458090495316294,35); (9942423005637056621800499654045549,36);
  (9602021900038175408773343693279454,35); (1045796906528831211612713970095166,35);
  (1067304973358564212600105133092649,34); (1096033817999492679781719403447601,35);
  (1179362918578965790162013051136269,34); (1144889736739057116362389754825458,35);
  (1296234833656961132091162830426559,34); (1192303104592983063178930983150109,35);
  (1417773461013747571700290550986649,34); (1238214181038436651266074766257030,35);
  (1543825663045597809898284632769785,34); (1282565118448097394238967751203791,35);
  (1674232615077734138890031649731895,34); (1325300034971736886070445094683447,35);
  (1808830005483367748582296298553286,34); (1366365084942766541781190439897069,35);
  (1947448242715905068802063644841911,34); (1405708526720430674578946991201672,35);
  (2089912668993563212096208382270339,34); (1443280787881771462323849272724648,35);
  (2236043780367222636014120888799022,34); (1479034527680967455667619780094388,35);
  (2385657452894281231364774104619046,34); (1512924696697176266756871623020370,35);
  (2538565174633566385570562557588568,34); (1544908593595609881685143978172861,35);
  (2694574283169017446936243613475286,34); (1574945918930244616002087582139708,35);
  (2853488208362878148944877072606173,34); (1602998825920319403463348208846923,35);
  (3015106720032544748770080980896559,34); (1629031968136605434311971487735845,35);
  (3179226180239008560923494286919756,34); (1653012544037335007264037338051642,35);
  (3345639799869018624454372111764877,34); (1674910338297654626403258107513262,35);
  (3514137899187678472062288649160153,34); (1694697759880512961994626875273980,35);
  (3684508172033186998857509948264471,34); (1712349876801003936868479879429893,35);
  (3856535953320843430517994478639537,34); (1727844447540354206743265698947852,35);
  (4030004489519266057110199711475989,34); (1741161949069967749656452315932702,35);
  (4204695211758028920279544686346316,34); (1752285601450213069829310485088447,35);
  (4380388011222604691761890451237321,34); (1761201388972955426643933592620549,35);
  (4556861516489619705976932297857649,34); (1767898077821192189683451357162661,35);
  (4733893372452982117390178992918012,34); (1772367230223538485307157630900469,35);
  (4911260520489439508555489543210239,34); (1774603215085727264803372647950977,35);
  (5088739479510560491444510456789762,34); (1774603215085727264803372647950977,35);
  (5266106627547017882609821007081988,34); (1772367230223538485307157630900469,35);
  (5443138483510380294023067702142351,34); (1767898077821192189683451357162661,35);
  (5619611988777395308238109548762679,34); (1761201388972955426643933592620549,35);
  (5795304788241971079720455313653684,34); (1752285601450213069829310485088447,35);
  (5969995510480733942889800288524011,34); (1741161949069967749656452315932702,35);
  (6143464046679156569482005521360463,34); (1727844447540354206743265698947852,35);
  (6315491827966813001142490051735529,34); (1712349876801003936868479879429893,35);
  (6485862100812321527937711350839847,34); (1694697759880512961994626875273980,35);
  (6654360200130981375545627888235123,34); (1674910338297654626403258107513262,35);
  (6820773819760991439076505713080244,34); (1653012544037335007264037338051642,35);
  (6984893279967455251229919019103441,34); (1629031968136605434311971487735845,35);
  (7146511791637121851055122927393827,34); (1602998825920319403463348208846923,35);
  (7305425716830982553063756386524714,34); (1574945918930244616002087582139708,35);
  (7461434825366433614429437442411432,34); (1544908593595609881685143978172861,35);
  (7614342547105718768635225895380954,34); (1512924696697176266756871623020370,35);
  (7763956219632777363985879111200978,34); (1479034527680967455667619780094388,35);
  (7910087331006436787903791617729661,34); (1443280787881771462323849272724648,35);
  (8052551757284094931197936355158089,34); (1405708526720430674578946991201672,35);
  (8191169994516632251417703701446714,34); (1366365084942766541781190439897069,35);
  (8325767384922265861109968350268105,34); (1325300034971736886070445094683447,35);
  (8456174336954402190101715367230215,34); (1282565118448097394238967751203791,35);
  (8582226538986252428299709449013351,34); (1238214181038436651266074766257030,35);
  (8703765166343038867908837169573441,34); (1192303104592983063178930983150109,35);
  (8820637081421034209837986948863731,34); (1144889736739057116362389754825458,35);
  (8932695026641435787399894866907351,34); (1096033817999492679781719403447601,35);
  (9039797809996182459122665630672055,34); (1045796906528831211612713970095166,35);
  (9141810482952281224254190950468371,34); (9942423005637056621800499654045549,36);
  (9238604510491045435985072591713722,34); (9414349586877725697355019716060284,36);
  (9330057933068906670114566372797521,34); (8874414180162037278247532575446616,36);
  (9416055520297252908118609827039150,34); (8323297104108828022556411667204821,36);
  (9496488916150285274223364532492752,34); (7761692768466776920082408173770113,36);
  (9571256775522635956699890479230236,34); (7190308800649972117967296060811256,36);
  (9640264891973460277902516902485484,34); (6609865156813955854090667475449514,36);
  (9703426316513217726310025657383553,34); (6021093219790606154869776470902073,36);
  (9760661467319010562610166198398481,34); (5424734887714635629700921821464904,36);
  (9811898230318853414949439185584946,34); (4821541661026602200385095132812183,36);
  (9857072050706611382401837554330745,34); (4212273746351236507549290638102254,36);
  (9896126015771483518884461564469486,34); (3597699229898186029879979160840402,36);
  (9929010930438817761419678759207138,34); (2978593498069023291564692465923579,36);
  (9955685390770077775558060994996362,34); (2355739639799330871510907344550191,36);
  (9976115879439944353905505898430687,34); (1729933833931398211987683072686057,36);
  (9990277040266248388030012236379354,34); (1102029281571848314270025224317840,36);
  (9998154180281353278906616526071527,34); (4736677990809636333856231819272877,37)].
Definition gauss_89 : list (Z * Z) := [
  (1804805677332702092729356542607340,37); (4631435525967364077652137160007517,37);
  (9506971448630352578674596754123052,37); (1077556291109556882317819562930560,36);
  (2335379796625119836385888435639755,36); (1691552396203727566317099483585300,36);
  (4333130595667349663412648088322110,36); (2303543671731620716527408184520570,36);
  (6941526069448162997924341977460306,36); (2912712894385053729822326875651250,36);
  (1015736170806167943519173757790189,35); (3518298435494557068695099394083598,36);
  (1397667862554532014791769069886437,35); (4119551262694539365286425443800839,36);
  (1839477267173227907307732182536445,35); (4715729630398945269855469805391822,36);
  (2340620135357952971060880511723217,35); (5306098644986094016340362688863142,36);
  (2900479091489254046606065506743324,35); (5889930790437446088309577694443665,36);
  (3518364408814069831346296940123941,35); (6466506696301338645793248733825037,36);
  (4193514865558828439446878748679424,35); (7035115974322241406943613047435174,36);
  (4925098685800112395623439736079448,35); (7595058072333061698736571188769969,36);
  (5712214565776502585960966391241893,35); (8145643127396192288770482381299854,36);
  (6553892785145814037232735796136011,35); (8686192810751200834820422273681707,36);
  (7449096402166127656221656266802863,35); (9216041160892057837922980314173836,36);
  (8396722531496043644576342990731807,35); (9734535402575936569337262893937308,36);
  (9395603703125698488175329150488174,35); (1024103675020013510612250563803090,35);
  (1044450930081033142717561906259155,34); (1073492119428057042170634282768080,35);
  (1154214707825994498359417055664715,34); (1121558026991818356417941806402594,35);
  (1268716475123199953095550031930890,34); (1168242180622772291358437713069209,35);
  (1387815166357458783148000195932180,34); (1213487065576116963683081018573770,35);
  (1511364052517300470527018852647435,34); (1257236940300128431140775804682273,35);
  (1639210921966202245886650163171051,34); (1299437905103691812574070473858346,35);
  (1771198267967900756417065873702030,34); (1340037968556458885628281766592053,35);
  (1907163482734904396506593789413264,34); (1378987111539229126673868101483107,35);
  (2046939057761238034784527130004944,34); (1416237348865260361401742010081230,35);
  (2190352790192678475333561105725891,34); (1451742788396340591500966192760151,35);
  (2337227994980280215154375894012777,34); (1485459687580622981365101400458239,35);
  (2487383722555852242771199791258440,34); (1517346507342456467170385677161260,35);
  (2640634981761234181049621945994290,34); (1547363963257742239473947989290076,35);
  (2796792967756740907025748528860656,34); (1575475073951714182939928457955681,35);
  (2955665294628005906517922725118340,34); (1601645206659479275351578179323471,35);
  (3117056232404661980597969237625072,34); (1625842119893160348379283335676044,35);
  (3280766948198860237610446147594003,34); (1648036003163055853714614111496484,35);
  (3446595751166551001283664040524922,34); (1668199513703866046985962950015488,35);
  (3614338340989739410264635580320656,34); (1686307810160728535315475194934922,35);
  (3783788059573589752054994857121154,34); (1702338583193554358367792987420616,35);
  (3954736145648291220635448070863955,34); (1716272082961954390898270992100454,35);
  (4126971991962018629622524515296012,34); (1728091143456890406821691286617080,35);
  (4300283404748129016662480999456261,34); (1737781203649071046040575593770890,35);
  (4474456865146932941506545418630065,34); (1745330325428035494550574579042700,35);
  (4649277792259971039337213908342971,34); (1750729208309822168457652179838324,35);
  (4824530807512714993076264209545537,34); (1753971200895101265858379765385289,35);
  (5000000000000000000000000000000000,34); (1755052309063653851581194434399226,35);
  (5175469192487285006923735790454463,34); (1753971200895101265858379765385289,35);
  (5350722207740028960662786091657028,34); (1750729208309822168457652179838324,35);
  (5525543134853067058493454581369935,34); (1745330325428035494550574579042700,35);
  (5699716595251870983337519000543739,34); (1737781203649071046040575593770890,35);
  (5873028008037981370377475484703988,34); (1728091143456890406821691286617080,35);
  (6045263854351708779364551929136045,34); (1716272082961954390898270992100454,35);
  (6216211940426410247945005142878845,34); (1702338583193554358367792987420616,35);
  (6385661659010260589735364419679344,34); (1686307810160728535315475194934922,35);
  (6553404248833448998716335959475078,34); (1668199513703866046985962950015488,35);
  (6719233051801139762389553852405997,34); (1648036003163055853714614111496484,35);
  (6882943767595338019402030762374928,34); (1625842119893160348379283335676044,35);
  (7044334705371994093482077274881660,34); (1601645206659479275351578179323471,35);
  (7203207032243259092974251471139344,34); (1575475073951714182939928457955681,35);
  (7359365018238765818950378054005710,34); (1547363963257742239473947989290076,35);
  (7512616277444147757228800208741560,34); (1517346507342456467170385677161260,35);
  (7662772005019719784845624105987223,34); (1485459687580622981365101400458239,35);
  (7809647209807321524666438894274108,34); (1451742788396340591500966192760151,35);
  (7953060942238761965215472869995055,34); (1416237348865260361401742010081230,35);
  (8092836517265095603493406210586736,34); (1378987111539229126673868101483107,35);
  (8228801732032099243582934126297970,34); (1340037968556458885628281766592053,35);
  (8360789078033797754113349836828949,34); (1299437905103691812574070473858346,35);
  (8488635947482699529472981147352565,34); (1257236940300128431140775804682273,35);
  (8612184833642541216851999804067820,34); (1213487065576116963683081018573770,35);
  (8731283524876800046904449968069110,34); (1168242180622772291358437713069209,35);
  (8845785292174005501640582944335286,34); (1121558026991818356417941806402594,35);
  (8955549069918966857282438093740846,34); (1073492119428057042170634282768080,35);
  (9060439629687430151182467084951182,34); (1024103675020013510612250563803090,35);
  (9160327746850395635542365700926819,34); (9734535402575936569337262893937308,36);
  (9255090359783387234377834373319714,34); (9216041160892057837922980314173836,36);
  (9344610721485418596276726420386399,34); (8686192810751200834820422273681707,36);
  (9428778543422349741403903360875811,34); (8145643127396192288770482381299854,36);
  (9507490131419988760437656026392056,34); (7595058072333061698736571188769969,36);
  (9580648513444117156055312125132058,34); (7035115974322241406943613047435174,36);
  (9648163559118593016865370305987606,34); (6466506696301338645793248733825037,36);
  (9709952090851074595339393449325668,34); (5889930790437446088309577694443665,36);
  (9765937986464204702893911948827678,34); (5306098644986094016340362688863142,36);
  (9816052273282677209269226781746355,34); (4715729630398945269855469805391822,36);
  (9860233213744546798520823093011356,34); (4119551262694539365286425443800839,36);
  (9898426382919383205648082624220981,34); (3518298435494557068695099394083598,36);
  (9930584739305518370020756580225396,34); (2912712894385053729822326875651250,36);
  (9956668694043326503365873519116779,34); (2303543671731620716527408184520570,36);
  (9976646202033748801636141115643603,34); (1691552396203727566317099483585300,36);
  (9990493028551369647421325403245877,34); (1077556291109556882317819562930560,36);
  (9998195194322667297907270643457392,34); (4631435525967364077652137160007517,37)].
Definition gauss_90 : list (Z * Z) := [
  (1765143566807812683757749817350585,37); (4529661856074165468622571043384717,37);
  (9298100307159232193471905234660885,37); (1053889387263164945737852838933412,36);
  (2284093970827668036622296514606763,36); (1654433621668009097715891847413084,36);
  (4238035594468606935426537848910250,36); (2253061806837488932068998187321325,36);
  (6789317471083575632872971443788499,36); (2848990780373676300423911022679581,36);
  (9934874327425807270523388593853672,36); (3441491604231642157365035243484509,36);
  (1367091895490343000126758477738568,35); (4029847472310007829335893882840801,36);
  (1799295091424725830316670401491883,35); (4613348478870995470159849191178268,36);
  (2289576305924983191963986831525990,35); (5191291154946607306903853332621911,36);
  (2837344817732111592321239178589961,35); (5762978944574029425296881589744185,36);
  (3441940624978399649707669388527126,35); (6327722918584064434438011970808734,36);
  (4102635246670680831382184201455782,35); (6884842556168546715375701814702732,36);
  (4818632603434865306500720869233640,35); (7433666544021662025192289894800147,36);
  (5589069978262700935081213722028300,35); (7973533575503319506603400668607018,36);
  (6413019056854828276298605618071829,35); (8503793142611337854698667060691797,36);
  (7289487046646405885698924570142229,35); (9023806317230118082024853695957068,36);
  (8217417873331147721790042399277616,35); (9532946519568659212661765063132437,36);
  (9195693453525947177812319131479806,35); (1003060027231979798226623630712005,35);
  (1022313504208759325681997062582700,34); (1051616793936128155853115981071224,35);
  (1129850465248328765965210041500217,34); (1098906444796706691934590941992551,35);
  (1242050654851807659107923987610107,34); (1144871999358159231749431949441648,35);
  (1358778880563048181871002511570731,34); (1189458072626436160505044222356608,35);
  (1479894493988044282222653178964405,34); (1232610941795242646798303103148525,35);
  (1605251560267014269093656773598555,34); (1274278610972161424223366037381853,35);
  (1734699033915789040193689418566617,34); (1314410873825729368079794414866191,35);
  (1868080940824774366186953341516229,34); (1352959374077397926080711772482605,35);
  (2005236566196289070556153084805931,34); (1389877663765113757901932488868006,35);
  (2146000648193895106473191642938763,34); (1425121259208070815937766696547789,35);
  (2290203577070432869053477475795440,34); (1458647694605037124327899531508080,35);
  (2437671599534860145057687558608848,34); (1490416573201563774357391772913992,35);
  (2588227028111671537399393890245129,34); (1520389615964347634519716546948054,35);
  (2741688455240653162118106835227586,34); (1548530707704046047296830245901840,35);
  (2897870971859011219493022770648217,34); (1574805940590931803847896522647886,35);
  (3056586390202508966117454570966988,34); (1599183655010928801972798771772245,35);
  (3217643470557160769344057424771957,34); (1621634477712780845589477202577509,35);
  (3380848151688270167443023757502950,34); (1642131357200375228931514239976900,35);
  (3546003784669166742251989398862788,34); (1660649596327565825702041454328976,35);
  (3712911369827899350395562166034100,34); (1677166882056213834146655346932403,35);
  (3881369796526385703655207963002759,34); (1691663312341584362896375412324419,35);
  (4051176085483104904895628734094161,34); (1704121420112699773180251087999415,35);
  (4222125633347354402442974368140401,34); (1714526194318752096584865251407204,35);
  (4394012459230379585156253613012354,34); (1722865098016212808729781935228474,35);
  (4566629452896326149573817267614577,34); (1729128083474844570902689865420269,35);
  (4739768624313965254703606348078576,34); (1733307604284412009413615426097406,35);
  (4913221354268501737693508136459091,34); (1735398624447502896023006706220389,35);
  (5086778645731498262306491863540909,34); (1735398624447502896023006706220389,35);
  (5260231375686034745296393651921425,34); (1733307604284412009413615426097406,35);
  (5433370547103673850426182732385423,34); (1729128083474844570902689865420269,35);
  (5605987540769620414843746386987646,34); (1722865098016212808729781935228474,35);
  (5777874366652645597557025631859598,34); (1714526194318752096584865251407204,35);
  (5948823914516895095104371265905839,34); (1704121420112699773180251087999415,35);
  (6118630203473614296344792036997241,34); (1691663312341584362896375412324419,35);
  (6287088630172100649604437833965900,34); (1677166882056213834146655346932403,35);
  (6453996215330833257748010601137212,34); (1660649596327565825702041454328976,35);
  (6619151848311729832556976242497050,34); (1642131357200375228931514239976900,35);
  (6782356529442839230655942575228043,34); (1621634477712780845589477202577509,35);
  (6943413609797491033882545429033011,34); (1599183655010928801972798771772245,35);
  (7102129028140988780506977229351783,34); (1574805940590931803847896522647886,35);
  (7258311544759346837881893164772414,34); (1548530707704046047296830245901840,35);
  (7411772971888328462600606109754871,34); (1520389615964347634519716546948054,35);
  (7562328400465139854942312441391152,34); (1490416573201563774357391772913992,35);
  (7709796422929567130946522524204560,34); (1458647694605037124327899531508080,35);
  (7853999351806104893526808357061237,34); (1425121259208070815937766696547789,35);
  (7994763433803710929443846915194068,34); (1389877663765113757901932488868006,35);
  (8131919059175225633813046658483771,34); (1352959374077397926080711772482605,35);
  (8265300966084210959806310581433383,34); (1314410873825729368079794414866191,35);
  (8394748439732985730906343226401445,34); (1274278610972161424223366037381853,35);
  (8520105506011955717777346821035596,34); (1232610941795242646798303103148525,35);
  (8641221119436951818128997488429270,34); (1189458072626436160505044222356608,35);
  (8757949345148192340892076012389894,34); (1144871999358159231749431949441648,35);
  (8870149534751671234034789958499784,34); (1098906444796706691934590941992551,35);
  (8977686495791240674318002937417301,34); (1051616793936128155853115981071224,35);
  (9080430654647405282218768086852020,34); (1003060027231979798226623630712005,35);
  (9178258212666885227820995760072238,34); (9532946519568659212661765063132437,36);
  (9271051295335359411430107542985777,34); (9023806317230118082024853695957068,36);
  (9358698094314517172370139438192818,34); (8503793142611337854698667060691797,36);
  (9441093002173729906491878627797170,34); (7973533575503319506603400668607018,36);
  (9518136739656513469349927913076636,34); (7433666544021662025192289894800147,36);
  (9589736475332931916861781579854421,34); (6884842556168546715375701814702732,36);
  (9655805937502160035029233061147288,34); (6327722918584064434438011970808734,36);
  (9716265518226788840767876082141003,34); (5762978944574029425296881589744185,36);
  (9771042369407501680803601316847401,34); (5191291154946607306903853332621911,36);
  (9820070490857527416968332959850812,34); (4613348478870995470159849191178268,36);
  (9863290810450965699987324152226143,34); (4029847472310007829335893882840801,36);
  (9900651256725741927294766114061463,34); (3441491604231642157365035243484509,36);
  (9932106825289164243671270285562115,34); (2848990780373676300423911022679581,36);
  (9957619644055313930645734621510897,34); (2253061806837488932068998187321325,36);
  (9977159060291723319633777034853932,34); (1654433621668009097715891847413084,36);
  (9990701899692840767806528094765339,34); (1053889387263164945737852838933412,36);
  (9998234856433192187316242250182649,34); (4529661856074165468622571043384717,37)].
Definition gauss_91 : list (Z * Z) := [
  (1726774617119348085053862422011975,37); (4431206203347070882917144986363109,37);
  (9096037047326226633899299898970578,37); (1030993561016114830341039759786297,36);
  (2234478747323773155308440896756260,36); (1618522753986052488549728448559959,36);
  (4146035591361449216189872483880831,36); (2204219873651338409531499169270695,36);
  (6642057138265106546031807031288919,36); (2787334023739894498915903243400439,36);
  (9719609879393280481568600021122714,36); (3367167216134442332630566772953622,36);
  (1337506908465463283876623812269316,35); (3943033157314450799815305444620298,36);
  (1760412712636196211175244814860639,35); (4514252094617243874456690966395711,36);
  (2240179963386181806298905136389728,35); (5080150327207738364446096747177527,36);
  (2776243172714066596860425935866910,35); (5640060636884841491704358999031518,36);
  (3367970482186779669389275607324653,35); (6193322951778371527267530211302234,36);
  (4014664413827475592933469760527038,35); (6739285076915489597159311156124255,36);
  (4715562695171406749870973362403698,35); (7277303442604348042420535238127521,36);
  (5469839159280129810425066700716248,35); (7806743853525029875475296662140558,36);
  (6276604719388480705319767815314941,35); (8326982231530620086129011790180512,36);
  (7134908417367871046090779492054265,35); (8837405348760952530186022716727753,36);
  (8043738544930648410194076927163681,35); (9337411549084062710892809697096277,36);
  (9002023836335983301184091790657765,35); (9826411456484573302370832399985969,36);
  (1000863473123538796747548740927582,34); (1030382866929923037022948682956319,35);
  (1106238470619388276526735446419850,34); (1076910043934283314811217017344464,35);
  (1216203167333153557036966341735135,34); (1122167833504868668666061101461045,35);
  (1330627944444526088727660993431155,34); (1166102888779940141799799879475371,35);
  (1449377925889030641284272521021235,34); (1208663422066143971110892915736003,35);
  (1572313137342376724268278985294258,34); (1249799265876747871628074839535796,35);
  (1699288671213826049048677237799072,34); (1289461932061800809439500451558498,35);
  (1830154857454233592505981511340035,34); (1327604668959945405153960756636128,35);
  (1964757439977519736108822025083854,34); (1364182516504149013949491879148019,35);
  (2102937758487684338371040199615183,34); (1399152359216158319059294159353848,35);
  (2244532935497082200788960774426293,34); (1432472977027051219824813365569373,35);
  (2389376068315547057633714751499774,34); (1464105093863873985913199904038973,35);
  (2537296425784082912190891221990134,34); (1494011423945018746638560205035917,35);
  (2688119649521242741808767419629238,34); (1522156715729719745172358601463686,35);
  (2841667959444990984069136184565099,34); (1548507793469827210780941825689237,35);
  (2997760363327803474848373967967920,34); (1573033596314854427259516727171031,35);
  (3156212870138002185688057683395481,34); (1595705214924184864429938319238708,35);
  (3316838706915857544935287795851905,34); (1616495925543269724204694759479450,35);
  (3479448538928823407687018436095493,34); (1635381221503639147421021301240943,35);
  (3643850692846403653049574340239926,34); (1652338842109589560008452516192404,35);
  (3809851382671589405037247520134190,34); (1667348798877491931848917611334518,35);
  (3977254938162556131715744696903755,34); (1680393399096787655491212364525635,35);
  (4145864035475374163908221998841331,34); (1691457266684896789682809978264892,35);
  (4315479929755867919896890961423203,34); (1700527360311453933274433276550106,35);
  (4485902689406461390396875792671522,34); (1707592988770506309283725031664934,35);
  (4656931431751872921248173885930946,34); (1712645823582553003359612322499643,35);
  (4828364559825873345765042920931115,34); (1715679908811569928621009797255851,35);
  (5000000000000000000000000000000000,34); (1716691668085448158170230034854936,35);
  (5171635440174126654234957079068885,34); (1715679908811569928621009797255851,35);
  (5343068568248127078751826114069054,34); (1712645823582553003359612322499643,35);
  (5514097310593538609603124207328478,34); (1707592988770506309283725031664934,35);
  (5684520070244132080103109038576797,34); (1700527360311453933274433276550106,35);
  (5854135964524625836091778001158669,34); (1691457266684896789682809978264892,35);
  (6022745061837443868284255303096246,34); (1680393399096787655491212364525635,35);
  (6190148617328410594962752479865810,34); (1667348798877491931848917611334518,35);
  (6356149307153596346950425659760074,34); (1652338842109589560008452516192404,35);
  (6520551461071176592312981563904507,34); (1635381221503639147421021301240943,35);
  (6683161293084142455064712204148095,34); (1616495925543269724204694759479450,35);
  (6843787129861997814311942316604519,34); (1595705214924184864429938319238708,35);
  (7002239636672196525151626032032080,34); (1573033596314854427259516727171031,35);
  (7158332040555009015930863815434901,34); (1548507793469827210780941825689237,35);
  (7311880350478757258191232580370762,34); (1522156715729719745172358601463686,35);
  (7462703574215917087809108778009865,34); (1494011423945018746638560205035917,35);
  (7610623931684452942366285248500226,34); (1464105093863873985913199904038973,35);
  (7755467064502917799211039225573707,34); (1432472977027051219824813365569373,35);
  (7897062241512315661628959800384817,34); (1399152359216158319059294159353848,35);
  (8035242560022480263891177974916145,34); (1364182516504149013949491879148019,35);
  (8169845142545766407494018488659964,34); (1327604668959945405153960756636128,35);
  (8300711328786173950951322762200928,34); (1289461932061800809439500451558498,35);
  (8427686862657623275731721014705742,34); (1249799265876747871628074839535796,35);
  (8550622074110969358715727478978765,34); (1208663422066143971110892915736003,35);
  (8669372055555473911272339006568845,34); (1166102888779940141799799879475371,35);
  (8783796832666846442963033658264865,34); (1122167833504868668666061101461045,35);
  (8893761529380611723473264553580149,34); (1076910043934283314811217017344464,35);
  (8999136526876461203252451259072418,34); (1030382866929923037022948682956319,35);
  (9099797616366401669881590820934223,34); (9826411456484573302370832399985969,36);
  (9195626145506935158980592307283632,34); (9337411549084062710892809697096277,36);
  (9286509158263212895390922050794574,34); (8837405348760952530186022716727753,36);
  (9372339528061151929468023218468506,34); (8326982231530620086129011790180512,36);
  (9453016084071987018957493329928375,34); (7806743853525029875475296662140558,36);
  (9528443730482859325012902663759630,34); (7277303442604348042420535238127521,36);
  (9598533558617252440706653023947296,34); (6739285076915489597159311156124255,36);
  (9663202951781322033061072439267535,34); (6193322951778371527267530211302234,36);
  (9722375682728593340313957406413309,34); (5640060636884841491704358999031518,36);
  (9775982003661381819370109486361028,34); (5080150327207738364446096747177527,36);
  (9823958728736380378882475518513937,34); (4514252094617243874456690966395711,36);
  (9866249309153453671612337618773069,34); (3943033157314450799815305444620298,36);
  (9902803901206067195184313999788772,34); (3367167216134442332630566772953622,36);
  (9933579428617348934539681929687111,34); (2787334023739894498915903243400439,36);
  (9958539644086385507838101275161192,34); (2204219873651338409531499169270695,36);
  (9977655212526762268446915591032437,34); (1618522753986052488549728448559959,36);
  (9990903962952673773366100700101029,34); (1030993561016114830341039759786297,36);
  (9998273225382880651914946137577988,34); (4431206203347070882917144986363109,37)].
Definition gauss_92 : list (Z * Z) := [
  (1689643217377227756093002026715065,37); (4335925893835710676769871629972704,37);
  (8900489022749231088927170285285814,37); (1008835683131419295939832357808303,36);
  (2186462365392415437856019321804456,36); (1583767971698048937129528104143208,36);
  (4056997781373260688881400168736091,36); (2156947665930850236169557436655052,36);
  (6499533037993979549979774804385475,36); (2727654454000435493578480921510903,36);
  (9511259394922986313418470556232186,36); (3295219667107447611588915172843008,36);
  (1308870598652903263299910642867041,35); (3858985918686784252266389080377359,36);
  (1722774778920204931791309693069892,35); (4418302028233938687274040053826458,36);
  (2192361143299652670090253977710113,35); (4972522509863041020885255597725249,36);
  (2717088105781852172844916501760703,35); (5521007961317697111992602435490358,36);
  (3296350469645225088352400061137200,35); (6063125681318855264648365737696199,36);
  (3929480131446197268213854707174207,35); (6598250352855569014555845310306730,36);
  (4615746854453747819621599585444911,35); (7125764744476962632903592748878824,36);
  (5354359112361189788392380952537098,35); (7645060412898250753453010074235274,36);
  (6144465003021516518991662380845033,35); (8155538400127979002407041574878964,36);
  (6985153231477655851023121743868447,35); (8656609921844888180570080342197349,36);
  (7875454161310952979668914367112107,35); (9147697045133778645593646193382063,36);
  (8814340933175561781834424480417110,35); (9628233354279737356186090414578423,36);
  (9800730649271678116478099109303382,35); (1009766460359374187478221534790775,35);
  (1083348562241550103990411011123613,34); (1055544935638123090498804709619165,35);
  (1191141468827918621454350074520629,34); (1100105960924292869937185427657934,35);
  (1303327457929559811134353622669386,34); (1143398140094627120217044665468059,35);
  (1419777135864833987994875035446124,34); (1185371540514095619676857670577274,35);
  (1540356191269634804483616147696623,34); (1225977750622048712858545219056984,35);
  (1664925550011379611969628802995168,34); (1265169935765661284877416245785376,35);
  (1793341535595992535793061164395756,34); (1302902892215708961122884670501851,35);
  (1925456034882961399254411228178419,34); (1339133099302016165024408012478970,35);
  (2061116668917398136532341619805251,34); (1373818769608208669758963878227042,35);
  (2200166968682111168829474756594626,34); (1406919897167720225722565940106358,35);
  (2342446555567010607841201099597252,34); (1438398303605358791118975173664419,35);
  (2487791326347717430556995850437487,34); (1468217682171140630637331023962947,35);
  (2636033642460040824517849444249217,34); (1496343639615553665393383073649105,35);
  (2787002523352028841595837295036841,34); (1522743735857916049031770796305540,35);
  (2940523843690591456985271985772339,34); (1547387521402051583402048500830417,35);
  (3096420534195247150484525412712683,34); (1570246572456108895807016637261052,35);
  (3254512785867359081026237638365119,34); (1591294523716004291298626881719928,35);
  (3414618257379309464257452691442847,34); (1610507098774666476787221905662004,35);
  (3576552285384415284530576206422355,34); (1627862138122002262158094779461991,35);
  (3740128097505019097777013569034830,34); (1643339624703283016323400861501143,35);
  (3905157027753099237734865253710470,34); (1656921707006469091131026039066101,35);
  (4071448734134937746488043076411280,34); (1668592719651840515390056188087623,35);
  (4238811418188865017807296348610428,34); (1678339201460183815503776127700147,35);
  (4407052046202870352647255566385670,34); (1686149910978693584690036745725642,35);
  (4575976571856929936608738348651334,34); (1692015839446680094570919963188259,35);
  (4745390160033260382848118900552836,34); (1695930221186127474751361571872410,35);
  (4915097411536358828079717328874271,34); (1697888541405117398350129684118380,35);
  (5084902588463641171920282671125729,34); (1697888541405117398350129684118380,35);
  (5254609839966739617151881099447165,34); (1695930221186127474751361571872410,35);
  (5424023428143070063391261651348666,34); (1692015839446680094570919963188259,35);
  (5592947953797129647352744433614330,34); (1686149910978693584690036745725642,35);
  (5761188581811134982192703651389573,34); (1678339201460183815503776127700147,35);
  (5928551265865062253511956923588720,34); (1668592719651840515390056188087623,35);
  (6094842972246900762265134746289530,34); (1656921707006469091131026039066101,35);
  (6259871902494980902222986430965170,34); (1643339624703283016323400861501143,35);
  (6423447714615584715469423793577645,34); (1627862138122002262158094779461991,35);
  (6585381742620690535742547308557152,34); (1610507098774666476787221905662004,35);
  (6745487214132640918973762361634881,34); (1591294523716004291298626881719928,35);
  (6903579465804752849515474587287317,34); (1570246572456108895807016637261052,35);
  (7059476156309408543014728014227661,34); (1547387521402051583402048500830417,35);
  (7212997476647971158404162704963159,34); (1522743735857916049031770796305540,35);
  (7363966357539959175482150555750783,34); (1496343639615553665393383073649105,35);
  (7512208673652282569443004149562513,34); (1468217682171140630637331023962947,35);
  (7657553444432989392158798900402748,34); (1438398303605358791118975173664419,35);
  (7799833031317888831170525243405375,34); (1406919897167720225722565940106358,35);
  (7938883331082601863467658380194749,34); (1373818769608208669758963878227042,35);
  (8074543965117038600745588771821581,34); (1339133099302016165024408012478970,35);
  (8206658464404007464206938835604244,34); (1302902892215708961122884670501851,35);
  (8335074449988620388030371197004831,34); (1265169935765661284877416245785376,35);
  (8459643808730365195516383852303378,34); (1225977750622048712858545219056984,35);
  (8580222864135166012005124964553877,34); (1185371540514095619676857670577274,35);
  (8696672542070440188865646377330614,34); (1143398140094627120217044665468059,35);
  (8808858531172081378545649925479371,34); (1100105960924292869937185427657934,35);
  (8916651437758449896009588988876388,34); (1055544935638123090498804709619165,35);
  (9019926935072832188352190089069662,34); (1009766460359374187478221534790775,35);
  (9118565906682443821816557551958288,34); (9628233354279737356186090414578423,36);
  (9212454583868904702033108563288789,34); (9147697045133778645593646193382063,36);
  (9301484676852234414897687825613156,34); (8656609921844888180570080342197349,36);
  (9385553499697848348100833761915497,34); (8155538400127979002407041574878964,36);
  (9464564088763881021160761904746291,34); (7645060412898250753453010074235274,36);
  (9538425314554625218037840041455509,34); (7125764744476962632903592748878824,36);
  (9607051986855380273178614529282579,34); (6598250352855569014555845310306730,36);
  (9670364953035477491164759993886281,34); (6063125681318855264648365737696199,36);
  (9728291189421814782715508349823930,34); (5521007961317697111992602435490358,36);
  (9780763885670034732990974602228989,34); (4972522509863041020885255597725249,36);
  (9827722522107979506820869030693011,34); (4418302028233938687274040053826458,36);
  (9869112940134709673670008935713296,34); (3858985918686784252266389080377359,36);
  (9904887406050770136865815294437678,34); (3295219667107447611588915172843008,36);
  (9935004669620060204500202251956145,34); (2727654454000435493578480921510903,36);
  (9959430022186267393111185998312639,34); (2156947665930850236169557436655052,36);
  (9978135376346075845621439806781956,34); (1583767971698048937129528104143208,36);
  (9991099510977250768911072829714714,34); (1008835683131419295939832357808303,36);
  (9998310356782622772243906997973284,34); (4335925893835710676769871629972704,37)].
Definition gauss_93 : list (Z * Z) := [
  (1653696714156558365895711274063686,37); (4243685840339555024398168378848702,37);
  (8711179142936121237534018531593265,37); (9873843843434041944698357673208938,37);
  (2139976875524910309867697938906897,36); (1550120201549658387732372291629209,36);
  (3970796403968629419389207971185656,36); (2111178691203303999316667008721641,36);
  (6361544365713867034151838499644763,36); (2669868549084607306879200217931704,36);
  (9309530233249196616066920272639937,36); (3225548897155637944529010990177079,36);
  (1281142893329477151213394538155428,35); (3777589750384910375809442595687624,36);
  (1686328847997043718924433437088481,35); (4325367017714324157070290527894458,36);
  (2146053546743832388467785834485844,35); (4868261970943843913473363682841783,36);
  (2659798057576227277392264071104425,35); (5405661595271244691013054143839521,36);
  (3226982456240537431625757574335993,35); (5936959163723562549306888800880578,36);
  (3846966486707325780537514181743840,35); (6461554876592675228013463441354780,36);
  (4519050286716177715003073874147272,35); (6978856519003985362035149043733198,36);
  (5242475179250048625712011747326306,35); (7488280120335940476959435946180570,36);
  (6016424529749851892996622920990257,35); (7989250608891058394158714994413003,36);
  (6840024668419914243773317467697589,35); (8481202458664505450613520432783127,36);
  (7712345876736934852674013121428937,35); (8963580326406856589426609533785007,36);
  (8632403437127404182426168350849645,35); (9435839677754017307215007221104741,36);
  (9599158744670671067694176531049642,35); (9897447401463964334027721652672227,36);
  (1061152047959623994002339849499137,34); (1034788241093436724429467889403352,35);
  (1166834583926535203019793674701969,34); (1078663623224990900752877655471868,35);
  (1276844182825427699073918852495521,34); (1121321357805478594455337885682541,35);
  (1391056660508801745458911356461181,34); (1162713290657887584495998754433264,35);
  (1509343088410732954270046122197830,34); (1202792696517232807653270932295182,35);
  (1631569939088860422142725543384509,34); (1241514331772629094591764251212452,35);
  (1757599236957500533083007218104624,34); (1278834485537891946108785588652572,35);
  (1887288714041821836378692338096702,34); (1314711028992663737614901799262264,35);
  (2020491970577319778293508731833062,34); (1349103462938136652439386249058251,35);
  (2157058640273341583340371560347388,34); (1381972963513535985655808516468467,35);
  (2296834560054133913646016260076134,34); (1413282426021653217871444079016197,35);
  (2439661944085822863224166443781477,34); (1442996506813885318145338642879810,35);
  (2585379561892891712765078186720844,34); (1471081663187448874275787532917694,35);
  (2733822920363101270353672678929454,34); (1497506191249696208293881938198557,35);
  (2884824449435405198964355878398591,34); (1522240261706765474823794083394036,35);
  (3038213691261253063506763337927224,34); (1545255953536146795438403975094085,35);
  (3193817492625751361276852996699828,34); (1566527285505140096295749308133659,35);
  (3351460200411471786038148598207121,34); (1586030245499615441629377807858164,35);
  (3510963859884260454909862691786545,34); (1603742817629960979085795682452778,35);
  (3672148415577215594932621077676659,34); (1619645007083614635315171637926158,35);
  (3834831914546067781783746756430778,34); (1633718862696120787743199385726864,35);
  (3998830711766519517138299122903296,34); (1645948497215229556623858954585439,35);
  (4163959677441682716668001942957858,34); (1656320105235161298646982006958784,35);
  (4330032405985596266372984953589096,34); (1664821978780789467262108517855740,35);
  (4496861426446913609845545250641094,34); (1671444520524148314712761708334780,35);
  (4664258414135224478061928301724850,34); (1676180254618344986623356457319841,35);
  (4832034403211117193644061313334702,34); (1679023835136645410211661347085994,35);
  (5000000000000000000000000000000000,34); (1679972052107206984709541798475221,35);
  (5167965596788882806355938686665298,34); (1679023835136645410211661347085994,35);
  (5335741585864775521938071698275150,34); (1676180254618344986623356457319841,35);
  (5503138573553086390154454749358906,34); (1671444520524148314712761708334780,35);
  (5669967594014403733627015046410905,34); (1664821978780789467262108517855740,35);
  (5836040322558317283331998057042142,34); (1656320105235161298646982006958784,35);
  (6001169288233480482861700877096704,34); (1645948497215229556623858954585439,35);
  (6165168085453932218216253243569222,34); (1633718862696120787743199385726864,35);
  (6327851584422784405067378922323341,34); (1619645007083614635315171637926158,35);
  (6489036140115739545090137308213455,34); (1603742817629960979085795682452778,35);
  (6648539799588528213961851401792879,34); (1586030245499615441629377807858164,35);
  (6806182507374248638723147003300172,34); (1566527285505140096295749308133659,35);
  (6961786308738746936493236662072776,34); (1545255953536146795438403975094085,35);
  (7115175550564594801035644121601409,34); (1522240261706765474823794083394036,35);
  (7266177079636898729646327321070546,34); (1497506191249696208293881938198557,35);
  (7414620438107108287234921813279156,34); (1471081663187448874275787532917694,35);
  (7560338055914177136775833556218523,34); (1442996506813885318145338642879810,35);
  (7703165439945866086353983739923866,34); (1413282426021653217871444079016197,35);
  (7842941359726658416659628439652613,34); (1381972963513535985655808516468467,35);
  (7979508029422680221706491268166938,34); (1349103462938136652439386249058251,35);
  (8112711285958178163621307661903298,34); (1314711028992663737614901799262264,35);
  (8242400763042499466916992781895375,34); (1278834485537891946108785588652572,35);
  (8368430060911139577857274456615491,34); (1241514331772629094591764251212452,35);
  (8490656911589267045729953877802171,34); (1202792696517232807653270932295182,35);
  (8608943339491198254541088643538819,34); (1162713290657887584495998754433264,35);
  (8723155817174572300926081147504479,34); (1121321357805478594455337885682541,35);
  (8833165416073464796980206325298030,34); (1078663623224990900752877655471868,35);
  (8938847952040376005997660150500862,34); (1034788241093436724429467889403352,35);
  (9040084125532932893230582346895035,34); (9897447401463964334027721652672227,36);
  (9136759656287259581757383164915035,34); (9435839677754017307215007221104741,36);
  (9228765412326306514732598687857106,34); (8963580326406856589426609533785007,36);
  (9315997533158008575622668253230241,34); (8481202458664505450613520432783127,36);
  (9398357547025014810700337707900975,34); (7989250608891058394158714994413003,36);
  (9475752482074995137428798825267369,34); (7488280120335940476959435946180570,36);
  (9548094971328382228499692612585272,34); (6978856519003985362035149043733198,36);
  (9615303351329267421946248581825616,34); (6461554876592675228013463441354780,36);
  (9677301754375946256837424242566401,34); (5936959163723562549306888800880578,36);
  (9734020194242377272260773592889558,34); (5405661595271244691013054143839521,36);
  (9785394645325616761153221416551416,34); (4868261970943843913473363682841783,36);
  (9831367115200295628107556656291152,34); (4325367017714324157070290527894458,36);
  (9871885710667052284878660546184457,34); (3777589750384910375809442595687624,36);
  (9906904697667508033839330797273600,34); (3225548897155637944529010990177079,36);
  (9936384556342861329658481615003552,34); (2669868549084607306879200217931704,36);
  (9960292035960313705806107920288143,34); (2111178691203303999316667008721641,36);
  (9978600231244750896901323020610931,34); (1550120201549658387732372291629209,36);
  (9991288820857063878762465981468407,34); (9873843843434041944698357673208938,37);
  (9998346303285843441634104288725936,34); (4243685840339555024398168378848702,37)].
Definition gauss_94 : list (Z * Z) := [
  (1618885224751027607678166262950869,37); (4154358063410812473207731621875989,37);
  (8527844891561968782266159709459657,37); (9666099443627094715588136380038237,37);
  (2094957899140560288404532835446202,36); (1517532945519314013695978035747155,36);
  (3887312299561670773106886547264171,36); (2066849937703888241648569893753134,36);
  (6227900839760105660575118863222120,36); (2613897144753883772652760863907971,36);
  (9114145058310885137824252291484852,36); (3158060045518224111553824650530170,36);
  (1254285810476747870084233885454393,35); (3698734644071178100431439200086773,36);
  (1651025205932830552768401564497923,35); (4235322547267317999954828399676243,36);
  (2101194312852248800602051789448606,35); (4767230416432579125031585104956752,36);
  (2604295682561913854902275119293938,35); (5293870282477061118362175548105434,36);
  (3159773359858731089453998763626350,35); (5814660080561207298037064185609960,36);
  (3767013503102426265613282614713235,35); (6329024248819497222412556895009307,36);
  (4425345065297125702196210653250991,35); (6836394345303439253220096657998615,36);
  (5134040537061600371243313171050600,35); (7336209667249732102132272511925068,36);
  (5892316751356386961427782640835528,35); (7827917866257778930011217089215458,36);
  (6699335749390066336113539939646904,35); (8310975556332748319164376213906588,36);
  (7554205706898329992490479843143142,35); (8784848913071625999362788500096389,36);
  (8455981919849131101035566677592653,35); (9249014262832955476904627795747284,36);
  (9403667848525855842725235522105060,35); (9702958660991002443025900013043515,36);
  (1039621621885774171492797647729319,34); (1014618045850556608994421445920979,35);
  (1143253017979381503062730456211004,34); (1057818985611069490752264014527307,35);
  (1251146451544932413906041845850407,34); (1099850944547003858669861304382155,35);
  (1363182691069004703026816396055186,34); (1140667473667761820500603548762316,35);
  (1479237926875898792772010578324615,34); (1180223467150719114025393344452484,35);
  (1599183907949136894838728992834740,34); (1218475212183449415317328308424250,35);
  (1722888083660723722820053034988394,34); (1255380437267620256429017242092834,35);
  (1850213750251634049352266872581832,34); (1290898358930836408220135896491502,35);
  (1981020201901713886363396625263310,34); (1324989726794584959834696643794050,35);
  (2115162886222091897037093056477932,34); (1357616866948328236194128087420117,35);
  (2252493563998298001224558799433670,34); (1388743723581711031032552393911632,35);
  (2392860473007580295107240158761112,34); (1418335898828805340636474716329309,35);
  (2536108495729403229799160423339331,34); (1446360690780312792113760537657962,35);
  (2682079330763803605052765297760449,34); (1472787129621683819859579059748791,35);
  (2830611667768180533005386035977156,34); (1497586011857193460004399488270417,35);
  (2981541365719205274757656258319083,34); (1520729932582135610164071234893069,35);
  (3134701634302860800969304322977219,34); (1542193315767459370555341399894588,35);
  (3289923218232162970849264935027969,34); (1561952442523370894109555889308518,35);
  (3447034584288879067728910803621452,34); (1579985477310660023238699590625715,35);
  (3605862110882548569779182025534457,34); (1596272492070780696292037505658973,35);
  (3766230279917328742223523393111087,34); (1610795488248015355640907245736969,35);
  (3927961870754636947275229627019282,34); (1623538416679383974225422239205071,35);
  (4090878156057245270092108288731680,34); (1634487195330315357626422598248040,35);
  (4254799099298403692351972962787221,34); (1643629724856479536307385669908396,35);
  (4419543553717727892497787148826984,34); (1650955901974582753833537095091191,35);
  (4584929462503988835876156384464874,34); (1656457630627348160800258696984277,35);
  (4750774059983585397851793734806554,34); (1660128830930343189938317892606093,35);
  (4916894073592369831117984657887223,34); (1661965445890766040035262073702283,35);
  (5083105926407630168882015342112777,34); (1661965445890766040035262073702283,35);
  (5249225940016414602148206265193446,34); (1660128830930343189938317892606093,35);
  (5415070537496011164123843615535126,34); (1656457630627348160800258696984277,35);
  (5580456446282272107502212851173016,34); (1650955901974582753833537095091191,35);
  (5745200900701596307648027037212780,34); (1643629724856479536307385669908396,35);
  (5909121843942754729907891711268321,34); (1634487195330315357626422598248040,35);
  (6072038129245363052724770372980718,34); (1623538416679383974225422239205071,35);
  (6233769720082671257776476606888913,34); (1610795488248015355640907245736969,35);
  (6394137889117451430220817974465543,34); (1596272492070780696292037505658973,35);
  (6552965415711120932271089196378548,34); (1579985477310660023238699590625715,35);
  (6710076781767837029150735064972031,34); (1561952442523370894109555889308518,35);
  (6865298365697139199030695677022781,34); (1542193315767459370555341399894588,35);
  (7018458634280794725242343741680917,34); (1520729932582135610164071234893069,35);
  (7169388332231819466994613964022844,34); (1497586011857193460004399488270417,35);
  (7317920669236196394947234702239551,34); (1472787129621683819859579059748791,35);
  (7463891504270596770200839576660669,34); (1446360690780312792113760537657962,35);
  (7607139526992419704892759841238888,34); (1418335898828805340636474716329309,35);
  (7747506436001701998775441200566330,34); (1388743723581711031032552393911632,35);
  (7884837113777908102962906943522069,34); (1357616866948328236194128087420117,35);
  (8018979798098286113636603374736690,34); (1324989726794584959834696643794050,35);
  (8149786249748365950647733127418168,34); (1290898358930836408220135896491502,35);
  (8277111916339276277179946965011606,34); (1255380437267620256429017242092834,35);
  (8400816092050863105161271007165261,34); (1218475212183449415317328308424250,35);
  (8520762073124101207227989421675385,34); (1180223467150719114025393344452484,35);
  (8636817308930995296973183603944814,34); (1140667473667761820500603548762316,35);
  (8748853548455067586093958154149592,34); (1099850944547003858669861304382155,35);
  (8856746982020618496937269543788996,34); (1057818985611069490752264014527307,35);
  (8960378378114225828507202352270681,34); (1014618045850556608994421445920979,35);
  (9059633215147414415727476447789494,34); (9702958660991002443025900013043515,36);
  (9154401808015086889896443332240734,34); (9249014262832955476904627795747284,36);
  (9244579429310167000750952015685685,34); (8784848913071625999362788500096389,36);
  (9330066425060993366388646006035309,34); (8310975556332748319164376213906588,36);
  (9410768324864361303857221735916447,34); (7827917866257778930011217089215458,36);
  (9486595946293839962875668682894940,34); (7336209667249732102132272511925068,36);
  (9557465493470287429780378934674900,34); (6836394345303439253220096657998615,36);
  (9623298649689757373438671738528676,34); (6329024248819497222412556895009307,36);
  (9684022664014126891054600123637366,34); (5814660080561207298037064185609960,36);
  (9739570431743808614509772488070606,34); (5293870282477061118362175548105434,36);
  (9789880568714775119939794821055139,34); (4767230416432579125031585104956752,36);
  (9834897479406716944723159843550208,34); (4235322547267317999954828399676243,36);
  (9874571418952325212991576611454561,34); (3698734644071178100431439200086773,36);
  (9908858549416891148621757477085151,34); (3158060045518224111553824650530170,36);
  (9937720991602398943394248811367779,34); (2613897144753883772652760863907971,36);
  (9961126877004383292268931134527358,34); (2066849937703888241648569893753134,36);
  (9979050421008594397115954671645538,34); (1517532945519314013695978035747155,36);
  (9991472155108438031217733840290540,34); (9666099443627094715588136380038237,37);
  (9998381114775248972392321833737049,34); (4154358063410812473207731621875989,37)].
Definition gauss_95 : list (Z * Z) := [
  (1585161464039902582132501883862372,37); (4067821247270582505272020196886297,37);
  (8350237416268341924074884891338761,37); (9464841889614678813893064406488419,37);
  (2051344405788298969242132273578928,36); (1485962120409095359219525120538166,36);
  (3806432498249297755496302171588367,36); (2023901658185879953439845800251622,36);
  (6098422046959356114195394866371388,36); (2559665164963859140016222759399305,36);
  (8924840889187176948514565234174533,36); (3092663130516661884655878661455606,36);
  (1228263329427954415692881271008367,35); (3622316221966599836312951919488844,36);
  (1616816698890173794219552906254885,35); (4148050437265495119073047774304415,36);
  (2057723807604527528616644942857865,35); (4669296541938198543370311059976564,36);
  (2550507591285225897895253893246286,35); (5185490351558048420419922264008259,36);
  (3094634840076098143187300963700142,35); (5696073229542922019621213325716594,36);
  (3689516781114011218333101529551903,35); (6200492648058030520090751079584983,36);
  (4334509718296632630106433635215942,35); (6698202767184142720682871873121473,36);
  (5028915730180339812959013061003926,35); (7188665016829541041787541068421236,36);
  (5771983425927972125922891712494830,35); (7671348675144178317296006617818340,36);
  (6562908758793504762857110323780636,35); (8145731440495521632957792835663294,36);
  (7400835896410785957902391567642070,35); (8611299995358492206669854929353024,36);
  (8284858147019933889616631702618657,35); (9067550561022572053798504047731491,36);
  (9214018940669517306988518955054715,35); (9513989442272853196535061944656390,36);
  (1018731286435534056660686056232869,34); (9950133561328605622435825486434407,36);
  (1120368674998880218865810747039210,34); (1037551098039245090895423340262079,35);
  (1226204081402538038731717423372914,34); (1078966141220570060338433487281199,35);
  (1336122984752489408286445153501446,34); (1119213671803469592020952122221731,35);
  (1450006445535884470991285086576327,34); (1158250139253569587460009670317336,35);
  (1567731234322588953782557225715633,34); (1196033303496530503853759662483238,35);
  (1689169965108409868686495319713060,34); (1232522280622130998806484245380117,35);
  (1814191233155799864101375697442677,34); (1267677587121600646829993025112762,35);
  (1942659757182946519625208657099695,34); (1301461182610113576645030528654906,35);
  (2074436525747429553538207482012582,34); (1333836510988067715948423794109800,35);
  (2209378947666077980251587963769896,34); (1364768539996511133289190923169077,35);
  (2347341006308283553715453162735080,34); (1394223799123845712154668891581437,35);
  (2488173417595829783376015136264889,34); (1422170415822743130655941860879849,35);
  (2631723791538281112147096165255673,34); (1448578149998050576742091961962308,35);
  (2777836797129148297697341596504004,34); (1473418426728344118757573213540163,35);
  (2926354330424407420139259062348385,34); (1496664367185705612620005906732106,35);
  (3077115685621504945758382767243658,34); (1518290817720253338862183612649251,35);
  (3229957728953733470883153717076878,34); (1538274377077945737647888384555618,35);
  (3384715075211815553613387919599120,34); (1556593421722199912841130198757365,35);
  (3541220266701689632574728282701070,34); (1573228129231920100660871492784121,35);
  (3699303954444855452678072010254128,34); (1588160499750614014548950099176922,35);
  (3858795081425209481808948294998925,34); (1601374375463384764647866654956878,35);
  (4019521067684086107508645226670308,34); (1612855458080720717367417441512016,35);
  (4181307997063220325240274057769711,34); (1622591324310162963342972971490983,35);
  (4343980805393564319264914467424189,34); (1630571439299107712835326686916444,35);
  (4507363469926325712398965741715177,34); (1636787168034196613459829335971820,35);
  (4671279199801251007137334590655947,34); (1641231784684959334654444215252990,35);
  (4835550627346055306615070021638908,34); (1643900479881597411778822911216068,35);
  (5000000000000000000000000000000000,34); (1644790365919033896608699316490532,35);
  (5164449372653944693384929978361092,34); (1643900479881597411778822911216068,35);
  (5328720800198748992862665409344053,34); (1641231784684959334654444215252990,35);
  (5492636530073674287601034258284823,34); (1636787168034196613459829335971820,35);
  (5656019194606435680735085532575811,34); (1630571439299107712835326686916444,35);
  (5818692002936779674759725942230289,34); (1622591324310162963342972971490983,35);
  (5980478932315913892491354773329692,34); (1612855458080720717367417441512016,35);
  (6141204918574790518191051705001075,34); (1601374375463384764647866654956878,35);
  (6300696045555144547321927989745872,34); (1588160499750614014548950099176922,35);
  (6458779733298310367425271717298930,34); (1573228129231920100660871492784121,35);
  (6615284924788184446386612080400880,34); (1556593421722199912841130198757365,35);
  (6770042271046266529116846282923122,34); (1538274377077945737647888384555618,35);
  (6922884314378495054241617232756342,34); (1518290817720253338862183612649251,35);
  (7073645669575592579860740937651615,34); (1496664367185705612620005906732106,35);
  (7222163202870851702302658403495996,34); (1473418426728344118757573213540163,35);
  (7368276208461718887852903834744327,34); (1448578149998050576742091961962308,35);
  (7511826582404170216623984863735111,34); (1422170415822743130655941860879849,35);
  (7652658993691716446284546837264920,34); (1394223799123845712154668891581437,35);
  (7790621052333922019748412036230104,34); (1364768539996511133289190923169077,35);
  (7925563474252570446461792517987418,34); (1333836510988067715948423794109800,35);
  (8057340242817053480374791342900305,34); (1301461182610113576645030528654906,35);
  (8185808766844200135898624302557324,34); (1267677587121600646829993025112762,35);
  (8310830034891590131313504680286940,34); (1232522280622130998806484245380117,35);
  (8432268765677411046217442774284367,34); (1196033303496530503853759662483238,35);
  (8549993554464115529008714913423673,34); (1158250139253569587460009670317336,35);
  (8663877015247510591713554846498554,34); (1119213671803469592020952122221731,35);
  (8773795918597461961268282576627086,34); (1078966141220570060338433487281199,35);
  (8879631325001119781134189252960791,34); (1037551098039245090895423340262079,35);
  (8981268713564465943339313943767130,34); (9950133561328605622435825486434407,36);
  (9078598105933048269301148104494528,34); (9513989442272853196535061944656390,36);
  (9171514185298006611038336829738134,34); (9067550561022572053798504047731491,36);
  (9259916410358921404209760843235793,34); (8611299995358492206669854929353024,36);
  (9343709124120649523714288967621936,34); (8145731440495521632957792835663294,36);
  (9422801657407202787407710828750517,34); (7671348675144178317296006617818340,36);
  (9497108426981966018704098693899607,34); (7188665016829541041787541068421236,36);
  (9566549028170336736989356636478405,34); (6698202767184142720682871873121473,36);
  (9631048321888598878166689847044810,34); (6200492648058030520090751079584983,36);
  (9690536515992390185681269903629985,34); (5696073229542922019621213325716594,36);
  (9744949240871477410210474610675371,34); (5185490351558048420419922264008259,36);
  (9794227619239547247138335505714214,34); (4669296541938198543370311059976564,36);
  (9838318330110982620578044709374512,34); (4148050437265495119073047774304415,36);
  (9877173667057204558430711872899164,34); (3622316221966599836312951919488844,36);
  (9910751591108128230514854347658255,34); (3092663130516661884655878661455606,36);
  (9939015779530406438858046051336286,34); (2559665164963859140016222759399305,36);
  (9961935675017507022445036978284116,34); (2023901658185879953439845800251622,36);
  (9979486555942117010307578677264210,34); (1485962120409095359219525120538166,36);
  (9991649762583731658075925115108662,34); (9464841889614678813893064406488419,37);
  (9998414838535960097417867498116138,34); (4067821247270582505272020196886297,37)].
Definition gauss_96 : list (Z * Z) := [
  (1552480583846165861549471078172522,37); (3983960327760062147190717484717880,37);
  (8178120684091611379252802366403022,37); (9269803944734608661679626754469349,37);
  (2009078506395354674800457560321714,36); (1455365908967473204205308994700317,36);
  (3728049838118687714053851149199413,36); (1982277169222343336866707883709807,36);
  (5972936835188100259618613790774414,36); (2507101371463758846235097484515492,36);
  (8741368218492661276477084058725922,36); (3029272752117980841658371015864509,36);
  (1203041270743176677369948287906004,35); (3548235395576932634572080406071706,36);
  (1583658576836789391317031677817449,35); (4063438462849379608691213853927952,36);
  (2015585427562873034996598705763264,35); (4574335615391693316292301332603942,36);
  (2498364110778118212195052577806824,35); (5080385267504207878793818476912681,36);
  (3031483012362239153407131028419237,35); (5581051049919249295606631914281041,36);
  (3614377163884565451765476365172680,35); (6075802335544159817590676368333650,36);
  (4246428843955096289705776692478923,35); (6564114783480786318531833451299558,36);
  (4926968234207382934038365134515658,35); (7045470886157430457930812362318362,36);
  (5655274129878979197156128330310693,35); (7519360513497469002938137611048808,36);
  (6430574704535174856311261775347864,35); (7985281451281145690308228395746535,36);
  (7252048328269927226860651505321539,35); (8442739932122586225238770303431004,36);
  (8118824438590643925284859161765356,35); (8891251158022630418807113243035507,36);
  (9029984463103416223050018788776099,35); (9330339813705733692578379311066117,36);
  (9984562793042959138560192801433617,35); (9759540570072511205042610140602355,36);
  (1098154780662833911981977720553411,34); (1017839857716666229762260770863577,35);
  (1201988294116762506485147794401892,34); (1058646994609564949383693359550186,35);
  (1309846781277999335744171344517514,34); (1098332221937217459737819340078113,35);
  (1421615938255161868874279259711876,34); (1136853482916468700067392098874512,35);
  (1537177316789142193278771150908787,34); (1174169954296310992111796633380630,35);
  (1656408449780419230237213962136129,34); (1210242089618234564113366893633850,35);
  (1779182981075164466007938249683492,34); (1245031661124180514419109043416641,35);
  (1905370799372657148068153565060686,34); (1278501800267468074939858397180005,35);
  (2034838176112139596582221224781209,34); (1310617036783620695672898198223167,35);
  (2167447907193014157978749024582687,34); (1341343336279588109902836435707834,35);
  (2303059458378212818865987013372197,34); (1370648136301462141171054374454562,35);
  (2441529114226661632072451272855729,34); (1398500380842416721990928829451124,35);
  (2582710130397018201157971953180524,34); (1424870553254269282279975647290280,35);
  (2726452889161284956821619259568461,34); (1449730707527761827133939063984077,35);
  (2872605057963497273175903982150010,34); (1473054497908395298521816609142923,35);
  (3021011750855456983574998784324179,34); (1494817206816419299219403789720001,35);
  (3171515692638431824845522030022634,34); (1514995771041379689704438210325047,35);
  (3323957385536872886918371875971857,34); (1533568806183457450711441517810214,35);
  (3478175278227518234880351103523983,34); (1550516629315691871162488998531631,35);
  (3634005937044754292563639221377176,34); (1565821279843067790639213335753155,35);
  (3791284219180799938360340481296862,34); (1579466538536358427901037308498214,35);
  (3949843447697163981985764071438521,34); (1591437944720550326737686994276611,35);
  (4109515588161906986202986874117542,34); (1601722811599633160906948873510558,35);
  (4270131426725515290054463333283368,34); (1610310239701512533433355727861627,35);
  (4431520749446670395443959522928360,34); (1617191128428796421438741941447165,35);
  (4593512522677872205027643685126236,34); (1622358185703213468200639422442297,35);
  (4755935074319751344440208978693625,34); (1625805935693441799360274572388918,35);
  (4918616275751985152104327181523808,34); (1627530724618158312098070914864288,35);
  (5081383724248014847895672818476193,34); (1627530724618158312098070914864288,35);
  (5244064925680248655559791021306376,34); (1625805935693441799360274572388918,35);
  (5406487477322127794972356314873764,34); (1622358185703213468200639422442297,35);
  (5568479250553329604556040477071640,34); (1617191128428796421438741941447165,35);
  (5729868573274484709945536666716632,34); (1610310239701512533433355727861627,35);
  (5890484411838093013797013125882458,34); (1601722811599633160906948873510558,35);
  (6050156552302836018014235928561479,34); (1591437944720550326737686994276611,35);
  (6208715780819200061639659518703139,34); (1579466538536358427901037308498214,35);
  (6365994062955245707436360778622824,34); (1565821279843067790639213335753155,35);
  (6521824721772481765119648896476017,34); (1550516629315691871162488998531631,35);
  (6676042614463127113081628124028143,34); (1533568806183457450711441517810214,35);
  (6828484307361568175154477969977366,34); (1514995771041379689704438210325047,35);
  (6978988249144543016425001215675821,34); (1494817206816419299219403789720001,35);
  (7127394942036502726824096017849990,34); (1473054497908395298521816609142923,35);
  (7273547110838715043178380740431539,34); (1449730707527761827133939063984077,35);
  (7417289869602981798842028046819476,34); (1424870553254269282279975647290280,35);
  (7558470885773338367927548727144271,34); (1398500380842416721990928829451124,35);
  (7696940541621787181134012986627803,34); (1370648136301462141171054374454562,35);
  (7832552092806985842021250975417313,34); (1341343336279588109902836435707834,35);
  (7965161823887860403417778775218791,34); (1310617036783620695672898198223167,35);
  (8094629200627342851931846434939314,34); (1278501800267468074939858397180005,35);
  (8220817018924835533992061750316508,34); (1245031661124180514419109043416641,35);
  (8343591550219580769762786037863871,34); (1210242089618234564113366893633850,35);
  (8462822683210857806721228849091213,34); (1174169954296310992111796633380630,35);
  (8578384061744838131125720740288125,34); (1136853482916468700067392098874512,35);
  (8690153218722000664255828655482486,34); (1098332221937217459737819340078113,35);
  (8798011705883237493514852205598108,34); (1058646994609564949383693359550186,35);
  (8901845219337166088018022279446589,34); (1017839857716666229762260770863577,35);
  (9001543720695704086143980719856638,34); (9759540570072511205042610140602355,36);
  (9097001553689658377694998121122391,34); (9330339813705733692578379311066117,36);
  (9188117556140935607471514083823465,34); (8891251158022630418807113243035507,36);
  (9274795167173007277313934849467847,34); (8442739932122586225238770303431004,36);
  (9356942529546482514368873822465214,34); (7985281451281145690308228395746535,36);
  (9434472587012102080284387166968931,34); (7519360513497469002938137611048808,36);
  (9507303176579261706596163486548434,34); (7045470886157430457930812362318362,36);
  (9575357115604490371029422330752108,34); (6564114783480786318531833451299558,36);
  (9638562283611543454823452363482732,34); (6075802335544159817590676368333650,36);
  (9696851698763776084659286897158077,34); (5581051049919249295606631914281041,36);
  (9750163588922188178780494742219317,34); (5080385267504207878793818476912681,36);
  (9798441457243712696500340129423673,34); (4574335615391693316292301332603942,36);
  (9841634142316321060868296832218255,34); (4063438462849379608691213853927952,36);
  (9879695872925682332263005171209400,34); (3548235395576932634572080406071706,36);
  (9912586317815073387235229159412740,34); (3029272752117980841658371015864509,36);
  (9940270631648118997403813862092256,34); (2507101371463758846235097484515492,36);
  (9962719501618813122859461488508006,34); (1982277169222343336866707883709807,36);
  (9979909214936046453251995424396782,34); (1455365908967473204205308994700317,36);
  (9991821879315908388620747197633597,34); (9269803944734608661679626754469349,37);
  (9998447519416153834138450528921827,34); (3983960327760062147190717484717880,37)].
Definition gauss_97 : list (Z * Z) := [
  (1520800023766375440160557282373237,37); (3902666109712806228617861664331347,37);
  (8011270697167816333778784417707958,37); (9080731991050198047538475396920710,37);
  (1968105261255793487844097261567973,36); (1425704621606527885709754027872275,36);
  (3652062610724195370924853692122294,36); (1941922664744647210866326174616958,36);
  (5851282749080606341053227916219733,36); (2456138131083014065417641121096198,36);
  (8563490193235824482038105714905098,36); (2967807815394111477091648476668685,36);
  (1178587184569011753787758455847704,35); (3476398048234702763232565499496720,36);
  (1551508348252453894994493898387271,35); (3981379998932747797799329431872077,36);
  (1974725417360637692125677477545818,35); (4482229088348999716282592206302217,36);
  (2447799061668040239454629041599934,35); (4978425213542022474118926791038047,36);
  (2970238182098600781415756457654999,35); (5469453179597974476983580100242766,36);
  (3541500425919042958886990999377329,35); (5954803192665378416368115445541450,36);
  (4160992752340555597510200025884803,35); (6433971371246693337855675982158755,36);
  (4828072049493919179254383290363283,35); (6906460260926521635574502379217064,36);
  (5542045802784981898048570042094360,35); (7371779346618475088179912309817126,36);
  (6302172814229289232039834380598631,35); (7829445559578460260103503455130505,36);
  (7107663972160484936972094714996594,35); (8278983777671228314514036305307071,36);
  (7957683070585661627124253308980662,35); (8719927317903902319702745512489143,36);
  (8851347677375777912479007998617115,35); (9151818420482070411145799519849130,36);
  (9787730050411471726055601993006455,35); (9574208723764064667628345174276422,36);
  (1076585810074571355847928447751082,34); (9986659729554023444094582986555698,36);
  (1178471640179089715489971703441337,34); (1038874325821328424899488761389727,35);
  (1284324724348730309784689212315074,34); (1078004189309585913921735549084672,35);
  (1394035173036147375268814545472276,34); (1116014941383356618931157731317698,35);
  (1507489092233644416816103496943046,34); (1152867121801299789819808299844698,35);
  (1624568701711075170877173619783796,34); (1188522473080153441052092397681350,35);
  (1745152457287958724451879006495769,34); (1222943980209392364529979953301198,35);
  (1869115177012930727435057298399386,34); (1256095909076502336782606370661412,35);
  (1996328171119578958115403668276002,34); (1287943843562839244767612829255755,35);
  (2126659375623779478363112425318934,34); (1318454721271467487853926485549172,35);
  (2259973489423861326720070738929113,34); (1347596867849822033681678993425695,35);
  (2396132114761285817263899442051061,34); (1375340029871517128004810001342507,35);
  (2534993900896034013773397039781514,34); (1401655406243133876340265478163393,35);
  (2676414690847555932963621613003080,34); (1426515678103359375911900082084578,35);
  (2820247671048950617808072314363655,34); (1449895037183421593602617216017452,35);
  (2966343523759020485578970096133218,34); (1471769212599366043212144463998727,35);
  (3114550582073979278495134902672909,34); (1492115496048351451728909566669198,35);
  (3264714987377893392590433148242327,34); (1510912765382800726726037562401194,35);
  (3416680849068404059694012097337095,34); (1528141506537929193067549588469293,35);
  (3570290406391915384131152911355064,34); (1543783833789882691216322847486364,35);
  (3725384192220243004874663750847163,34); (1557823508323452072887554832697260,35);
  (3881801198598702412224073508483555,34); (1570245955090086181228899020845974,35);
  (4039379043893776768821399711240298,34); (1581038277938700802147452675016922,35);
  (4197954141366843363086097834704240,34); (1590189273003574522247684699687058,35);
  (4357361868998957272651583514238514,34); (1597689440335432097264190976490004,35);
  (4517436740390391965491715618906900,34); (1603530993763639967463976365665092,35);
  (4678012576557520759890576785710492,34); (1607707868979275076788999487426717,35);
  (4838922678448691455444740058741442,34); (1610215729830675266737874121273505,35);
  (5000000000000000000000000000000000,34); (1611051972824935316308403964372063,35);
  (5161077321551308544555259941258558,34); (1610215729830675266737874121273505,35);
  (5321987423442479240109423214289508,34); (1607707868979275076788999487426717,35);
  (5482563259609608034508284381093100,34); (1603530993763639967463976365665092,35);
  (5642638131001042727348416485761486,34); (1597689440335432097264190976490004,35);
  (5802045858633156636913902165295760,34); (1590189273003574522247684699687058,35);
  (5960620956106223231178600288759702,34); (1581038277938700802147452675016922,35);
  (6118198801401297587775926491516446,34); (1570245955090086181228899020845974,35);
  (6274615807779756995125336249152837,34); (1557823508323452072887554832697260,35);
  (6429709593608084615868847088644936,34); (1543783833789882691216322847486364,35);
  (6583319150931595940305987902662905,34); (1528141506537929193067549588469293,35);
  (6735285012622106607409566851757673,34); (1510912765382800726726037562401194,35);
  (6885449417926020721504865097327091,34); (1492115496048351451728909566669198,35);
  (7033656476240979514421029903866782,34); (1471769212599366043212144463998727,35);
  (7179752328951049382191927685636346,34); (1449895037183421593602617216017452,35);
  (7323585309152444067036378386996920,34); (1426515678103359375911900082084578,35);
  (7465006099103965986226602960218486,34); (1401655406243133876340265478163393,35);
  (7603867885238714182736100557948939,34); (1375340029871517128004810001342507,35);
  (7740026510576138673279929261070887,34); (1347596867849822033681678993425695,35);
  (7873340624376220521636887574681066,34); (1318454721271467487853926485549172,35);
  (8003671828880421041884596331723997,34); (1287943843562839244767612829255755,35);
  (8130884822987069272564942701600613,34); (1256095909076502336782606370661412,35);
  (8254847542712041275548120993504231,34); (1222943980209392364529979953301198,35);
  (8375431298288924829122826380216204,34); (1188522473080153441052092397681350,35);
  (8492510907766355583183896503056955,34); (1152867121801299789819808299844698,35);
  (8605964826963852624731185454527724,34); (1116014941383356618931157731317698,35);
  (8715675275651269690215310787684926,34); (1078004189309585913921735549084672,35);
  (8821528359820910284510028296558663,34); (1038874325821328424899488761389727,35);
  (8923414189925428644152071552248918,34); (9986659729554023444094582986555698,36);
  (9021226994958852827394439800699354,34); (9574208723764064667628345174276422,36);
  (9114865232262422208752099200138289,34); (9151818420482070411145799519849130,36);
  (9204231692941433837287574669101933,34); (8719927317903902319702745512489143,36);
  (9289233602783951506302790528500341,34); (8278983777671228314514036305307071,36);
  (9369782718577071076796016561940136,34); (7829445559578460260103503455130505,36);
  (9445795419721501810195142995790564,34); (7371779346618475088179912309817126,36);
  (9517192795050608082074561670963671,34); (6906460260926521635574502379217064,36);
  (9583900724765944440248979997411519,34); (6433971371246693337855675982158755,36);
  (9645849957408095704111300900062267,34); (5954803192665378416368115445541450,36);
  (9702976181790139921858424354234500,34); (5469453179597974476983580100242766,36);
  (9755220093833195976054537095840007,34); (4978425213542022474118926791038047,36);
  (9802527458263936230787432252245419,34); (4482229088348999716282592206302217,36);
  (9844849165174754610500550610161273,34); (3981379998932747797799329431872077,36);
  (9882141281543098824621224154415230,34); (3476398048234702763232565499496720,36);
  (9914365098067641755179618942850949,34); (2967807815394111477091648476668685,36);
  (9941487172509193936589467720837803,34); (2456138131083014065417641121096198,36);
  (9963479373892758046290751463078777,34); (1941922664744647210866326174616958,36);
  (9980318947387442065121559027384321,34); (1425704621606527885709754027872275,36);
  (9991988729302832183666221215582292,34); (9080731991050198047538475396920710,37);
  (9998479199976233624559839442717627,34); (3902666109712806228617861664331347,37)].
Definition gauss_98 : list (Z * Z) := [
  (1490079372545481813525481501466295,37); (3823834911371567290196230227615280,37);
  (7849474763847731106533996149394201,37); (8897385205072643708477179042460829,37);
  (1928372501570351968510145444097226,36); (1396940567861065435314858589414752,36);
  (3578374231546634934059976301139193,36); (1902787042676179782757559524905240,36);
  (5733305505420915813913504532161523,36); (2406711199293385459238907338684066,36);
  (8390981853138504357331120367910697,36); (2908191273219819556381583369722045,36);
  (1154870246805695875046528406243891,35); (3406714739582607999386047854647689,36);
  (1520325644960276384006799134075618,35); (3901773689550377445489990051919777,36);
  (1935092699855447114479119995402975,35); (4392864233696131601349694355021544,36);
  (2398749550679924934561390400560746,35); (4879486701087048417673937464644399,36);
  (2910824596864408945060187683477769,35); (5361146041612158560122023850459827,36);
  (3470796983034647893775241497869930,35); (5837352288569062143714383640329184,36);
  (4078097131321594140139317475530408,35); (6307621039460976428890716229418078,36);
  (4732107322008043202333348688962344,35); (6771473940514732571823803120487482,36);
  (5432162322555446678402150157062437,35); (7228439169152200988784455400899408,36);
  (6177550064657794744354245747662879,35); (7678051911748877884249003141957189,36);
  (6967512368772412342049638279386743,35); (8119854835226847826363252465836212,36);
  (7801245715461476635702188026384756,35); (8553398551544950131177204464227688,36);
  (8677902062797607244610735851831094,35); (8978242074385314061221402235851190,36);
  (9596589709023282435254637413218487,35); (9393953267452343280743483082605971,36);
  (1055637419959888666495166333319799,34); (9800109283863165386618632294675561,36);
  (1155627927772411014417018789717200,34); (1019629699614595728974189026293256,35);
  (1259528787737037746797166753954058,34); (1058211341638742845564007923556109,35);
  (1367234315781707595437150813789074,34); (1095716610608932520950956123187601,35);
  (1478634957864112881715116257393410,34); (1132107357530921655563152136494545,35);
  (1593617401406768396019806086268566,34); (1167346567067463735634147026408338,35);
  (1712064690554925474198474019569597,34); (1201398395187274940162061332962086,35);
  (1833856345140150690590217926929109,34); (1234228205623049809098980813116520,35);
  (1958868483228602332427915334396319,34); (1265802605101304867157330148852488,35);
  (2086973947129380201733519202456043,34); (1296089477308122445923409017204140,35);
  (2218042432734797067713012335808581,34); (1325058015556181967624375654101927,35);
  (2351940622061025618757821707680782,34); (1352678754119806413883795753112006,35);
  (2488532318854315700882687877812240,34); (1378923598206119695004997363016474,35);
  (2627678587124855779364887232668055,34); (1403765852531806937662284920596832,35);
  (2769237892467372757014715233633869,34); (1427180248476394285174519526354588,35);
  (2913066246024728329092648139750129,34); (1449142969784417102372453087170018,35);
  (3059017350948080681398478706992728,34); (1469631676790324608388158077229789,35);
  (3206942751204640173757916466454761,34); (1488625529141473813308785796275903,35);
  (3356691982581659205911955550335063,34); (1506105206996094942426549074284634,35);
  (3508112725733062114205859480175315,34); (1522052930674662919745382473373627,35);
  (3661050961113042931336265355611270,34); (1536452478744683496000680304139818,35);
  (3815351125639039245038861098861112,34); (1549289204520496731552143278451026,35);
  (3970856270924731148461677260017730,34); (1560550050961313220842031366754896,35);
  (4127408222922117160625162987523888,34); (1570223563952328075874430603229480,35);
  (4284847742810285624169850071872392,34); (1578299903955402645072545377082711,35);
  (4443014688967231910008959558716357,34); (1584770856017462580453703967387789,35);
  (4601748179859970058935331861073713,34); (1589629838126431509915891919275587,35);
  (4760886757687253385186161559363748,34); (1592871907906200535654959442102433,35);
  (4920268552608453003562182162922766,34); (1594493767643823363897250527713891,35);
  (5079731447391546996437817837077234,34); (1594493767643823363897250527713891,35);
  (5239113242312746614813838440636252,34); (1592871907906200535654959442102433,35);
  (5398251820140029941064668138926287,34); (1589629838126431509915891919275587,35);
  (5556985311032768089991040441283643,34); (1584770856017462580453703967387789,35);
  (5715152257189714375830149928127608,34); (1578299903955402645072545377082711,35);
  (5872591777077882839374837012476112,34); (1570223563952328075874430603229480,35);
  (6029143729075268851538322739982270,34); (1560550050961313220842031366754896,35);
  (6184648874360960754961138901138888,34); (1549289204520496731552143278451026,35);
  (6338949038886957068663734644388729,34); (1536452478744683496000680304139818,35);
  (6491887274266937885794140519824685,34); (1522052930674662919745382473373627,35);
  (6643308017418340794088044449664937,34); (1506105206996094942426549074284634,35);
  (6793057248795359826242083533545239,34); (1488625529141473813308785796275903,35);
  (6940982649051919318601521293007272,34); (1469631676790324608388158077229789,35);
  (7086933753975271670907351860249871,34); (1449142969784417102372453087170018,35);
  (7230762107532627242985284766366131,34); (1427180248476394285174519526354588,35);
  (7372321412875144220635112767331945,34); (1403765852531806937662284920596832,35);
  (7511467681145684299117312122187759,34); (1378923598206119695004997363016474,35);
  (7648059377938974381242178292319218,34); (1352678754119806413883795753112006,35);
  (7781957567265202932286987664191419,34); (1325058015556181967624375654101927,35);
  (7913026052870619798266480797543957,34); (1296089477308122445923409017204140,35);
  (8041131516771397667572084665603681,34); (1265802605101304867157330148852488,35);
  (8166143654859849309409782073070891,34); (1234228205623049809098980813116520,35);
  (8287935309445074525801525980430403,34); (1201398395187274940162061332962086,35);
  (8406382598593231603980193913731434,34); (1167346567067463735634147026408338,35);
  (8521365042135887118284883742606590,34); (1132107357530921655563152136494545,35);
  (8632765684218292404562849186210926,34); (1095716610608932520950956123187601,35);
  (8740471212262962253202833246045943,34); (1058211341638742845564007923556109,35);
  (8844372072227588985582981210282800,34); (1019629699614595728974189026293256,35);
  (8944362580040111333504833666680201,34); (9800109283863165386618632294675561,36);
  (9040341029097671756474536258678151,34); (9393953267452343280743483082605971,36);
  (9132209793720239275538926414816891,34); (8978242074385314061221402235851190,36);
  (9219875428453852336429781197361525,34); (8553398551544950131177204464227688,36);
  (9303248763122758765795036172061326,34); (8119854835226847826363252465836212,36);
  (9382244993534220525564575425233712,34); (7678051911748877884249003141957189,36);
  (9456783767744455332159784984293756,34); (7228439169152200988784455400899408,36);
  (9526789267799195679766665131103765,34); (6771473940514732571823803120487482,36);
  (9592190286867840585986068252446959,34); (6307621039460976428890716229418078,36);
  (9652920301696535210622475850213007,34); (5837352288569062143714383640329184,36);
  (9708917540313559105493981231652223,34); (5361146041612158560122023850459827,36);
  (9760125044932007506543860959943925,34); (4879486701087048417673937464644399,36);
  (9806490730014455288552088000459702,34); (4392864233696131601349694355021544,36);
  (9847967435503972361599320086592439,34); (3901773689550377445489990051919777,36);
  (9884512975319430412495347159375611,34); (3406714739582607999386047854647689,36);
  (9916090181468614956426688796320893,34); (2908191273219819556381583369722045,36);
  (9942666944945790841860864954678385,34); (2406711199293385459238907338684066,36);
  (9964216257684533650659400236988608,34); (1902787042676179782757559524905240,36);
  (9980716274984296480314898545559028,34); (1396940567861065435314858589414752,36);
  (9992150525236152268893466003850606,34); (8897385205072643708477179042460829,37);
  (9998509920627454518186474518498533,34); (3823834911371567290196230227615280,37)].
Definition gauss_99 : list (Z * Z) := [
  (1460280239153220682080752898004620,37); (3747368233687026816876249729889293,37);
  (7692530820793305135593630034763498,37); (8719534791096224693183115999548275,37);
  (1889830663455695718552369030957678,36); (1369037936813439045662338140730527,36);
  (3506892933443861335182894854151193,36); (1864821743621517374599412107605364,36);
  (5618858505063193744829072588458113,36); (2358759518760415039843727682208697,36);
  (8223629421859993517218898972793541,36); (2850349886697963437576196739074986,36);
  (1131861162464702771510298455833384,35); (3339100430287549082592031444650057,36);
  (1490072096285489225963505605589142,35); (3824523139667628967695233645377423,36);
  (1896638717954902863046433570020022,35); (4306133807739444495866422023444019,36);
  (2351155777331324871216598216800417,35); (4783452205663068178449433170793001,36);
  (2853170215576029485267025500837140,35); (5256002457762372702874492093431497,36);
  (3402181621925151781917482117882889,35); (5723313475749126880566273331399728,36);
  (3997642734974989064243485906388685,35); (6184919411087581051716707944692457,36);
  (4638959989471321588105981237938251,35); (6640360111328641739976957533636766,36);
  (5325494108679289249887764361120648,35); (7089181574789723033071477579546385,36);
  (6056560742024307486496138341881924,35); (7530936400995116656476486982573052,36);
  (6831431147504147778255081102011389,35); (7965184235480424855518892206622317,36);
  (7649332918261292635043001551606364,35); (8391492208069353544751340512368655,36);
  (8509450752628471748547519141668803,35); (8809435363962190253378627210381598,36);
  (9410927266900543265849380853737100,35); (9218597087089249635492725951991367,36);
  (1035286385003455530457502486127609,34); (9618569515243592399336911555536509,36);
  (1133432155943319274007813062940014,34); (1000895394654328310397383964653426,35);
  (1235432205692309408727459263072676,34); (1038936123679710560371261495354438,35);
  (1341184858399782389095907858437522,34); (1075941218736511190912333004923149,35);
  (1450584697535515708967483778011820,34); (1111873792311968579217788704004402,35);
  (1563522670971954512496868962588145,34); (1146698026012552764204162345143418,35);
  (1679886199690307712208288384975342,34); (1180379206266894702330895644463812,35);
  (1799559290002187374485897867857265,34); (1212883758927853911582020134953684,35);
  (1922422649174964114746464091286943,34); (1244179282739097322299364151575489,35);
  (2048353804345607178916749935965304,34); (1274234581632737732529117462138302,35);
  (2177227224604492246284527977512032,34); (1303019695825774127046433784575054,35);
  (2308914446127494837275655120421950,34); (1330505931684292565089608682228454,35);
  (2443284200231644928904315921219040,34); (1356665890325627546319663293835830,35);
  (2580202544226701499113716401109219,34); (1381473494929950616103805407056063,35);
  (2719532994932216813535197243223306,34); (1404904016734045563296712526472744,35);
  (2861136664727001891224161983822462,34); (1426934099681347486331846605219889,35);
  (3004872399995379238103411046931038,34); (1447541783703665520186928228819353,35);
  (3150596921832219031356665371693443,34); (1466706526611375173821665449859117,35);
  (3298164968866502784793045050381221,34); (1484409224570254922400881780341981,35);
  (3447429442061046318380043918090945,34); (1500632231144551723595141284709873,35);
  (3598241551344043664111675778553420,34); (1515359374887290198980635281923706,35);
  (3750450963926267303205828026524482,34); (1528575975460288999609104970958200,35);
  (3903905954156079648052780849472377,34); (1540268858267813974958962213514713,35);
  (4058453554762877617891825265346192,34); (1550426367589279767916745932951706,35);
  (4213939709338208028081002827978578,34); (1559038378197907918516720706576955,35);
  (4370209425902557691408796235223153,34); (1566096305453759006408734640048240,35);
  (4527106931404739840617807247589304,34); (1571593113861077308076063759342031,35);
  (4684475826999868798967460358124799,34); (1575523324081417385661897456997701,35);
  (4842159243951138673982709367663695,34); (1577883018395561442904604411530753,35);
  (5000000000000000000000000000000000,34); (1578669844608782652568708465853412,35);
  (5157840756048861326017290632336305,34); (1577883018395561442904604411530753,35);
  (5315524173000131201032539641875201,34); (1575523324081417385661897456997701,35);
  (5472893068595260159382192752410696,34); (1571593113861077308076063759342031,35);
  (5629790574097442308591203764776847,34); (1566096305453759006408734640048240,35);
  (5786060290661791971918997172021422,34); (1559038378197907918516720706576955,35);
  (5941546445237122382108174734653808,34); (1550426367589279767916745932951706,35);
  (6096094045843920351947219150527624,34); (1540268858267813974958962213514713,35);
  (6249549036073732696794171973475518,34); (1528575975460288999609104970958200,35);
  (6401758448655956335888324221446580,34); (1515359374887290198980635281923706,35);
  (6552570557938953681619956081909055,34); (1500632231144551723595141284709873,35);
  (6701835031133497215206954949618779,34); (1484409224570254922400881780341981,35);
  (6849403078167780968643334628306557,34); (1466706526611375173821665449859117,35);
  (6995127600004620761896588953068962,34); (1447541783703665520186928228819353,35);
  (7138863335272998108775838016177538,34); (1426934099681347486331846605219889,35);
  (7280467005067783186464802756776694,34); (1404904016734045563296712526472744,35);
  (7419797455773298500886283598890781,34); (1381473494929950616103805407056063,35);
  (7556715799768355071095684078780960,34); (1356665890325627546319663293835830,35);
  (7691085553872505162724344879578051,34); (1330505931684292565089608682228454,35);
  (7822772775395507753715472022487968,34); (1303019695825774127046433784575054,35);
  (7951646195654392821083250064034696,34); (1274234581632737732529117462138302,35);
  (8077577350825035885253535908713057,34); (1244179282739097322299364151575489,35);
  (8200440709997812625514102132142735,34); (1212883758927853911582020134953684,35);
  (8320113800309692287791711615024658,34); (1180379206266894702330895644463812,35);
  (8436477329028045487503131037411856,34); (1146698026012552764204162345143418,35);
  (8549415302464484291032516221988181,34); (1111873792311968579217788704004402,35);
  (8658815141600217610904092141562478,34); (1075941218736511190912333004923149,35);
  (8764567794307690591272540736927323,34); (1038936123679710560371261495354438,35);
  (8866567844056680725992186937059986,34); (1000895394654328310397383964653426,35);
  (8964713614996544469542497513872390,34); (9618569515243592399336911555536509,36);
  (9058907273309945673415061914626290,34); (9218597087089249635492725951991367,36);
  (9149054924737152825145248085833120,34); (8809435363962190253378627210381598,36);
  (9235066708173870736495699844839364,34); (8391492208069353544751340512368655,36);
  (9316856885249585222174491889798862,34); (7965184235480424855518892206622317,36);
  (9394343925797569251350386165811808,34); (7530936400995116656476486982573052,36);
  (9467450589132071075011223563887935,34); (7089181574789723033071477579546385,36);
  (9536104001052867841189401876206174,34); (6640360111328641739976957533636766,36);
  (9600235726502501093575651409361132,34); (6184919411087581051716707944692457,36);
  (9659781837807484821808251788211711,34); (5723313475749126880566273331399728,36);
  (9714682978442397051473297449916286,34); (5256002457762372702874492093431497,36);
  (9764884422266867512878340178319958,34); (4783452205663068178449433170793001,36);
  (9810336128204509713695356642997998,34); (4306133807739444495866422023444019,36);
  (9850992790371451077403649439441086,34); (3824523139667628967695233645377423,36);
  (9886813883753529722848970154416662,34); (3339100430287549082592031444650057,36);
  (9917763705781400064827811010272065,34); (2850349886697963437576196739074986,36);
  (9943811414949368062551709274115419,34); (2358759518760415039843727682208697,36);
  (9964931070665561386648171051458489,34); (1864821743621517374599412107605364,36);
  (9981101693365443042814476309690423,34); (1369037936813439045662338140730527,36);
  (9992307469179206694864406369965237,34); (8719534791096224693183115999548275,37);
  (9998539719760846779317919247101995,34); (3747368233687026816876249729889293,37)].
Definition gauss_100 : list (Z * Z) := [
  (1431366132793831608857653288496481,37); (3673172452528358652031603291651627,37);
  (7540246802020907999183204068254366,37); (8546963267590526197646791857456139,37);
  (1852432633437425406934133879434463,36); (1341962685776741209719795214500510,36);
  (3437531481278270173995053575608261,36); (1827980600663187591171229363762648,36);
  (5507802378504125997790627096131664,36); (2312225031711059675547894541489230,36);
  (8061229646971492251949922244495907,36); (2794214001932757578605973174219573,36);
  (1109532075654085572310945578539905,35); (3273474225422661382076051665747621,36);
  (1460711211814683403455107105124730,35); (3749536627732355789414372008198870,36);
  (1859317287209223635317033698491680,35); (4221935734834485701310417451150524,36);
  (2304960853725412857533153455282119,35); (4690209826847228975709118830406035,36);
  (2797206493187201101861264679239065,35); (5153901287434484792891050863917682,36);
  (3335573247846022703783316593456877,35); (5612557011592988558610786683166783,36);
  (3919535092733302366652433575900626,35); (6065728831489748703872396224374074,36);
  (4548521450873515476643683110542695,35); (6512973946485771142779291879450872,36);
  (5221917751463650665073948878488614,35); (6953855351859386343977074554002292,36);
  (5939066030749079221334158728609723,35); (7387942263720650884439993760177086,36);
  (6699265575141768829463001516187853,35); (7814810538773001361968432976895982,36);
  (7501773606020435785331870428994768,35); (8234043088072606321552490044105413,36);
  (8345806005579958822854208307762218,35); (8645230284161791219672099183370833,36);
  (9230538083041187280300562067537102,35); (9047970361064058332195375710246494,36);
  (1015510538048427618052135589083770,34); (9441869806687452276470582940771611,36);
  (1111860451752522621862243065827549,34); (9826543747217652932690735122722008,36);
  (1212009407401464119821660177807996,34); (1020161632310471638341942582879189,35);
  (1315859550989896472437861425899495,34); (1056672105626382077133615022048481,35);
  (1423309412134717767700164386478170,34); (1092150120812369315697687065219900,35);
  (1534254003220990170256760291622813,34); (1126561012816813635089848546583698,35);
  (1648584921984294920987064928383867,34); (1159871159262706081124442709136364,35);
  (1766190457429353600836848477706848,34); (1192048013298410298128020595114170,35);
  (1886955698981461141979045774138439,34); (1223060135397852635998751167488642,35);
  (2010762648764106393675967274253297,34); (1252877224078979485188211281046164,35);
  (2137490336893094043415647782371373,34); (1281470145510405803782100493107545,35);
  (2267014939674529162660028714091251,34); (1308810961977283817115437087865095,35);
  (2399209900591184716765921252723957,34); (1334872959178548133019233209316820,35);
  (2533946053959045332153456032753330,34); (1359630672328844006824578390108536,35);
  (2671091751133209788753916883021227,34); (1383059911039619414710207793521324,35);
  (2810512989139842434455109781889020,34); (1405137782955058665882416509349730,35);
  (2952073541608492287355657999714212,34); (1425842716119754899546838143222895,35);
  (3095635091876850216183187255652063,34); (1445154480056260156743811406725764,35);
  (3241057368137891395138280852255147,34); (1463054205531913831005951174782047,35);
  (3388198280497354241387617088008373,34); (1479524402995632125587725533941826,35);
  (3536914059807640176312220558822528,34); (1494548979666641545841840333429792,35);
  (3687059398142482604155353318725089,34); (1508113255258457245953434080523957,35);
  (3838487590775130151752450183960179,34); (1520203976322741000825392990941257,35);
  (3991050679521320013819755702348018,34); (1530809329199022424822972163102659,35);
  (4144599597306983625562338126464551,34); (1539918951557629521385695151527989,35);
  (4298984313819430133962426976587973,34); (1547523942524549411703173173537399,35);
  (4454053982099694424982869967103076,34); (1553616871378325829390508512145901,35);
  (4609657085932816816525913143992237,34); (1558191784810495339190916060859332,35);
  (4765641587892041841925380435330759,34); (1561244212742467886618824932404904,35);
  (4921855077892284585638916500012853,34); (1562771172693167847382123719309902,35);
  (5078144922107715414361083499987147,34); (1562771172693167847382123719309902,35);
  (5234358412107958158074619564669241,34); (1561244212742467886618824932404904,35);
  (5390342914067183183474086856007763,34); (1558191784810495339190916060859332,35);
  (5545946017900305575017130032896924,34); (1553616871378325829390508512145901,35);
  (5701015686180569866037573023412028,34); (1547523942524549411703173173537399,35);
  (5855400402693016374437661873535449,34); (1539918951557629521385695151527989,35);
  (6008949320478679986180244297651983,34); (1530809329199022424822972163102659,35);
  (6161512409224869848247549816039821,34); (1520203976322741000825392990941257,35);
  (6312940601857517395844646681274910,34); (1508113255258457245953434080523957,35);
  (6463085940192359823687779441177472,34); (1494548979666641545841840333429792,35);
  (6611801719502645758612382911991627,34); (1479524402995632125587725533941826,35);
  (6758942631862108604861719147744852,34); (1463054205531913831005951174782047,35);
  (6904364908123149783816812744347937,34); (1445154480056260156743811406725764,35);
  (7047926458391507712644342000285788,34); (1425842716119754899546838143222895,35);
  (7189487010860157565544890218110980,34); (1405137782955058665882416509349730,35);
  (7328908248866790211246083116978773,34); (1383059911039619414710207793521324,35);
  (7466053946040954667846543967246669,34); (1359630672328844006824578390108536,35);
  (7600790099408815283234078747276043,34); (1334872959178548133019233209316820,35);
  (7732985060325470837339971285908749,34); (1308810961977283817115437087865095,35);
  (7862509663106905956584352217628627,34); (1281470145510405803782100493107545,35);
  (7989237351235893606324032725746703,34); (1252877224078979485188211281046164,35);
  (8113044301018538858020954225861562,34); (1223060135397852635998751167488642,35);
  (8233809542570646399163151522293153,34); (1192048013298410298128020595114170,35);
  (8351415078015705079012935071616134,34); (1159871159262706081124442709136364,35);
  (8465745996779009829743239708377187,34); (1126561012816813635089848546583698,35);
  (8576690587865282232299835613521830,34); (1092150120812369315697687065219900,35);
  (8684140449010103527562138574100505,34); (1056672105626382077133615022048481,35);
  (8787990592598535880178339822192003,34); (1020161632310471638341942582879189,35);
  (8888139548247477378137756934172450,34); (9826543747217652932690735122722008,36);
  (8984489461951572381947864410916229,34); (9441869806687452276470582940771611,36);
  (9076946191695881271969943793246290,34); (9047970361064058332195375710246494,36);
  (9165419399442004117714579169223778,34); (8645230284161791219672099183370833,36);
  (9249822639397956421466812957100523,34); (8234043088072606321552490044105413,36);
  (9330073442485823117053699848381215,34); (7814810538773001361968432976895982,36);
  (9406093396925092077866584127139028,34); (7387942263720650884439993760177086,36);
  (9477808224853634933492605112151139,34); (6953855351859386343977074554002292,36);
  (9545147854912648452335631688945730,34); (6512973946485771142779291879450872,36);
  (9608046490726669763334756642409937,34); (6065728831489748703872396224374074,36);
  (9666442675215397729621668340654312,34); (5612557011592988558610786683166783,36);
  (9720279350681279889813873532076093,34); (5153901287434484792891050863917682,36);
  (9769503914627458714246684654471788,34); (4690209826847228975709118830406035,36);
  (9814068271279077636468296630150832,34); (4221935734834485701310417451150524,36);
  (9853928878818531659654489289487527,34); (3749536627732355789414372008198870,36);
  (9889046792434591442768905442146009,34); (3273474225422661382076051665747621,36);
  (9919387703530285077480500777555040,34); (2794214001932757578605973174219573,36);
  (9944921976214958740022093729038683,34); (2312225031711059675547894541489230,36);
  (9965624685187217298260049464243917,34); (1827980600663187591171229363762648,36);
  (9981475673665625745930658661205655,34); (1341962685776741209719795214500510,36);
  (9992459753197979092000816795931746,34); (8546963267590526197646791857456139,37);
  (9998568633867206168391142346711503,34); (3673172452528358652031603291651627,37)].
Definition gauss_literals : list (Z * Z) := concat [
  gauss_1; gauss_2; gauss_3; gauss_4; gauss_5; gauss_6; gauss_7; gauss_8; gauss_9; gauss_10; gauss_11; gauss_12; gauss_13; gauss_14; gauss_15; gauss_16; gauss_17; gauss_18; gauss_19; gauss_20; gauss_21; gauss_22; gauss_23; gauss_24; gauss_25; gauss_26; gauss_27; gauss_28; gauss_29; gauss_30; gauss_31; gauss_32; gauss_33; gauss_34; gauss_35; gauss_36; gauss_37; gauss_38; gauss_39; gauss_40; gauss_41; gauss_42; gauss_43; gauss_44; gauss_45; gauss_46; gauss_47; gauss_48; gauss_49; gauss_50; gauss_51; gauss_52; gauss_53; gauss_54; gauss_55; gauss_56; gauss_57; gauss_58; gauss_59; gauss_60; gauss_61; gauss_62; gauss_63; gauss_64; gauss_65; gauss_66; gauss_67; gauss_68; gauss_69; gauss_70; gauss_71; gauss_72; gauss_73; gauss_74; gauss_75; gauss_76; gauss_77; gauss_78; gauss_79; gauss_80; gauss_81; gauss_82; gauss_83; gauss_84; gauss_85; gauss_86; gauss_87; gauss_88; gauss_89; gauss_90; gauss_91; gauss_92; gauss_93; gauss_94; gauss_95; gauss_96; gauss_97; gauss_98; gauss_99; gauss_100].
