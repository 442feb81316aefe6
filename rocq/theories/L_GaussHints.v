(** Generated by tools/gentables.py: approximations (verified in L_Gauss.v) of |2x - 1| and w in units of 2^-64 for the points of the Gauss rules up to
    the middle. *)
From Coq Require Import ZArith List.
Import ListNotations.
Local Open Scope Z_scope.
Definition hint_1 : list (Z * Z) := [(0,18446744073709551616)].
Definition hint_2 : list (Z * Z) := [(10650232656628343401,9223372036854775808)].
Definition hint_3 : list (Z * Z) := [(14288786517845491209,5124095576030431004); (0,8198552921648689607)].
Definition hint_4 : list (Z * Z) := [(15885161152553691185,3208394651525240390); (6271543300922536074,6014977385329535417)].
Definition hint_5 : list (Z * Z) := [(16716067702784084504,2185264806406360088); (9933005555066480332,4414570295520835045); (0,5247073869855161348)].
Definition hint_6 : list (Z * Z) := [(17201026485041819237,1580189532238378900); (12197160331277693520,3327438204823943180); (4401747056753609288,4315744299792453727)].
Definition hint_7 : list (Z * Z) := [(17507950757319625409,1194288016155039399); (13678836003426446987,2579826886419712214); (7486521641014757057,3521760610659760841); (0,3854993047240526705)].
Definition hint_8 : list (Z * Z) := [(17714221219389322240,933668450952395268); (14695902620952883414,2051103014704092565); (9694361868166340515,2893433105365609128); (3383771904369658314,3345167465832678845)].
Definition hint_9 : list (Z * Z) := [(17859404160538521673,749623920926620669); (15422051874514452936,1666185193862195787); (11314705841152352986,2403709409708084450); (5981419916554246387,2880893296164086573); (0,3045920432387576655)].
Definition hint_10 : list (Z * Z) := [(17965404483271179857,614934612756270972); (15957602532853257767,1378445394625684793); (12532894427641593314,2020715029686137110); (7994733918226706015,2483547129339444274); (2746246830336832423,2725729870447238657)].
Definition hint_11 : list (Z * Z) := [(18045133702388623725,513451905271089503); (16363416755281499833,1158274468100492660); (13468927181730237867,1718223922210642077); (9575633445131323553,2150832847506660330); (4972193614672889070,2423944086994165346); (0,2517289613543451781)].
Definition hint_12 : list (Z * Z) := [(18106597812777257091,435115678456570810); (16678019640890596414,986341189025317031); (14202197592526925722,1476461979193151280); (10834103992619877742,1873888762437267940); (6785293524268381361,2153588532322153756); (2310148636289386536,2297975895420314988)].
Definition hint_13 : list (Z * Z) := [(18154972932075479306,373399037492309973); (16926702832911840012,849670865596426333); (14786505894850101887,1280882050821051546); (11849253870572341114,1643106657437799170); (8273230997283269346,1916764721661420220); (4251205574082466166,2087093957247374905); (0,2144909493196787316)].
Definition hint_14 : list (Z * Z) := [(18193725003073608135,323919848373310681); (17126600688046241778,739327859637100177); (15259170956527934999,1120810986841366651); (12678316318737581918,1449943296071889299); (9504659729226706803,1711289667060858291); (5886584200367966499,1892621772292557053); (1993261984702181273,1985458606577693652)].
Definition hint_15 : list (Z * Z) := [(18225245126663766958,283648592269615960); (17289642396713368731,649012234745811715); (15646649765807724728,988369357548069590); (13363148492858334822,1287312287948955815); (10532577541319631162,1533562743522513275); (7270809025847678690,1717032161896457981); (3711375961112537745,1830207412997639660); (0,1868454491851423618)].
Definition hint_16 : list (Z * Z) := [(18251225834079907730,250437234870206993); (17424333709050216001,574187411891394360); (15968077252665808687,877682355721022455); (13934751793076722314,1149499368460268755); (11397804949720383079,1379779460076453596); (8448918278908004659,1560193510839548949); (5194668631472861143,1684219232159534894); (1752671452775708921,1747373462836345801)].
Definition hint_17 : list (Z * Z) := [(18272892278818250227,222728781415264964); (17536868047208752528,511523872405159600); (16237546392460388164,784320032510505757); (14416388819904344781,1031946347579374876); (12131891558730181341,1246413002094701295); (9457471126646936094,1420821365111863849); (6479082450991347993,1549564337906694479); (3292452017259431448,1628503519433348620); (0,1655101556795724727)].
Definition hint_18 : list (Z * Z) := [(18291148894265621378,199372534708440755); (17631839777265838858,458535780102713915); (16465609259042314923,704902943329149741); (14825739688937369106,931026026952890471); (12759373862435253977,1130372266553607175); (10325949260748812206,1297201926355031527); (7595468297557717292,1426714307089560347); (4646480741023845863,1515183126494141632); (1563822969426280617,1560063125269240240)].
Definition hint_19 : list (Z * Z) := [(18306675065380441008,179503313345248597); (17712714039920775414,413338286004022534); (16660285812642437133,636823504783784578); (15176406714830528625,843846507083744132); (13299478559103672190,1029020678786968750); (11078105539761961581,1187545697719561084); (8569817570295860360,1315314669096120399); (5839576934953286687,1409018040571230437); (2958094896131917478,1466228784890944583); (0,1485465109146301417)].
Definition hint_20 : list (Z * Z) := [(18319989101449118436,162460540904216035); (17782143436736231091,374482092277211096); (16827755033178967321,578047618097232472); (15478976027110619893,768092369578960072); (13767393672514138054,940139416835592259); (11733119465502988296,1090152141003007024); (9423832840690185714,1214613305443614370); (6893660577320341723,1310605281233024349); (4201907299622027446,1375877952085529138); (1411665150200950699,1408901319396388987)].
Definition hint_21 : list (Z * Z) := [(18331491964127673205,147732855220675924); (17842185952255835818,340838551228290944); (16972836939463010948,526972061823839262); (15741775588348151571,701899660041464686); (14175215342246545758,861872682304399226); (12306538782670292639,1003477966823599735); (10175571491849133708,1123696476040379782); (7827730491161917548,1219965629935185091); (5313055518826713731,1290233485424448558); (2685142270600665555,1333002346404192631); (0,1347360643216599925)].
Definition hint_22 : list (Z * Z) := [(18341497752268944316,134919442789326951); (17894457739585432195,311518482824896926); (17099334343928686916,482320885161133887); (15971423037005137109,643758795137939579); (14532654996865745811,792671407584887028); (12811028806455706225,926157011959164672); (10840052130863411039,1041616581727049625); (8658087022843190622,1136802525749968314); (6307602577630065367,1209862036029227143); (3834348094169684718,1259373037714888953); (1286462526815396532,1284371830176292724)].
Definition hint_23 : list (Z * Z) := [(18350255335074086293,123702569755928855); (17940242067373609327,285813906699156219); (17210278866850172060,443069318160095483); (16173226369036143411,592439519478869396); (14847570352559888251,731241956423758517); (13256962241358330298,856996678461068225); (11429784803754951272,967458783301264749); (9398643367002098170,1060656795759638149); (7199783360247953721,1134927483355274978); (4872443307594947135,1188945433420127127); (2458154533909084709,1221746670190034214); (0,1232745843699119780)].
Definition hint_24 : list (Z * Z) := [(18357963952711537553,113827753837600794); (17980568213339222465,263155612052743070); (17308110531668895017,408387291052138033); (16351480369612563792,546932909934098024); (15126366775194156592,676501885648646710); (13652881544810770548,794963925725814030); (11955217733077184949,900373146092538659); (10061250295016019469,990998476507868675); (8002077816014427343,1065351748824962707); (5811511684650778209,1122212037713197822); (3525520835943012836,1160645676058269637); (1181641108793518008,1180021573406897642)].
Definition hint_25 : list (Z * Z) := [(18364784632523109896,105089242487923724); (18016269405189285628,243081846576769317); (17394810583476887852,377597073131244449); (16509688332878547754,506406437555531246); (15374302872870824514,627542865519083583); (14005861310843458486,739167494483806553); (12425106415888016715,839587526137157592); (10656000235028973905,927280461323690897); (8725360333144673021,1000916869825904529); (6662453091777338956,1059380455606376127); (4498549992054159685,1101784949037093650); (2266453540284767742,1127487530393639740); (0,1136098569553108789)].
Definition hint_26 : list (Z * Z) := [(18370848655699990703,97319235149236678); (18048025927001208045,225214924967864981); (17472000899802247486,350141184529588400); (16650729631264876693,470169001601307422); (15595724934775510455,583600069574854101); (14321792900319224934,688839698544860257); (12846815438921625254,784409923460306346); (11191497460788004789,868968931688557081); (9379075743021599013,941329612543180306); (7434992575222404431,1000476140717443890); (5386538542282084227,1045578208780385849); (3262469396301726207,1076002672249361396); (1092602374952446455,1091322433047829095)].
Definition hint_27 : list (Z * Z) := [(18376263914049799309,90379786168758768); (18076397572881686944,209243554125823646); (17541019229555516444,325557858609544757); (16776987609101119023,437643584607827852); (15794248153099726769,544027104507782170); (14605608790755195714,643319350729101410); (13226564047472613340,734225311415542956); (11675091380707540388,815559687922864313); (9971416370440522449,886262081081683080); (8137748898597137691,945410739980012584); (6197993550746202197,992234552914728524); (4177437957357802199,1026123090141037474); (2102423118157951442,1046634557545883396); (0,1053501554208369741)].
Definition hint_28 : list (Z * Z) := [(18381119736914688513,84156652925508757); (18101848350317571062,194909336367833111); (17602976729724205617,303462108979903058); (16890448103291803801,408345748445695427); (15972897759268636009,508275551130695779); (14861460184501713591,602036461680971974); (13569625604554241791,688489805028192599); (12113074677456325699,766585968356491447); (10509487737057984320,835376894563857434); (8778330039021953798,894027520492040513); (6940615424640446709,941825889759744045); (5018651217262995978,978191785759997287); (3035767429908576938,1002683770768293513); (1016033564252439634,1015004542595550857)].
Definition hint_29 : list (Z * Z) := [(18385490594908801306,78554573075809612); (18124765476330930550,181996361535482165); (17658802390766957120,283530996175942608); (16992776003045221354,381866625702932479); (16134219744552237055,475878283698861859); (15092858294861817778,564498874935591513); (13880489650919555072,646723784866689531); (12510850002226021323,721621198714299888); (10999457707620485120,788342428518010320); (9363437336794564637,846131463922013851); (7621325591459879412,894333515972594062); (5792861254792190984,932402427567230651); (3898761532297645571,959906857953845441); (1960487311864340482,976535168294329205); (0,982098951842285228)].
Definition hint_30 : list (Z * Z) := [(18389438969473708679,73493603853419125); (18145474123607673472,170323107439981191); (17709277648235717999,265492069780077987); (17085375235985471797,357859387799241723); (16280368333311974418,446435859094731586); (15302787310986679020,530280769368110987); (14162993795607640243,608504867048332329); (12873069479163876483,680278794946717457); (11446687688638424527,744841665870208404); (9898968324548242070,801509067279099300); (8246317538974788003,849680295572528825); (6506253805456079826,888844715683621177); (4697222208735138670,918587170494964223); (2838398916981339232,938592380008960435); (949487906620217809,948648282614781052)].
Definition hint_31 : list (Z * Z) := [(18393017596223419005,68906259080094763); (18164248968580950477,159736082714242384); (17755063576130551363,249114232293613366); (17169436135013688135,336028416442529829); (16413175559471902033,419605389859236282); (15493795188046386369,499012857545627184); (14420431322776685472,573461187764403703); (13203751159176414142,642210327579299204); (11855846432236386362,704576955639682050); (10390113130209205354,759941216246648331); (8821118315021561821,807752860407118946); (7164455328804012054,847536706950013334); (5436588810850071197,878897361862586788); (3654691059719666251,901523146391182258); (1836471364452510445,915189193904690560); (0,919759684347613637)].
Definition hint_32 : list (Z * Z) := [(18396271233496625035,64735251298935522); (18181323309577591978,150104797277772066); (17796722420797494002,234200465131437894); (17245973115779551645,316120588786955855); (16534206968267917916,395091423991768362); (15668066995022108666,470374073734463117); (14655639254929910154,541265226798096475); (13506376159748541893,607102848959121383); (12231007901602041294,667272174367606287); (10841442161906753992,721211391855200725); (9350652891059513908,768416872251384637); (7772559155912754409,808447863588612225); (6121895172398110400,840930603254097991); (4414072731538200246,865561806297332857); (2665037301144645228,882111496419765105); (891119145740029036,890425152842225302)].
Definition hint_33 : list (Z * Z) := [(18399238067562359284,60931697198528736); (18196896321821956203,141317753291437203); (17834734779650499135,220581997607731471); (17315854854989575409,297918224589803638); (16644806487979941353,372638446564353772); (15827484475695892076,444084544751780797); (14871070668048210705,511628255683145621); (13783969732076006885,574675868684910841); (12575734992430250015,632673264815597005); (11256984376583839492,685110736069358467); (9839307065094060393,731527447625983509); (8335161628326138407,771515481059018657); (6757766531831427843,804723416287111615); (5120983967705683737,830859418535641746); (3439198030761817689,849693802329551460); (1727188309170911835,861061049634119533); (0,864861264253403457)].
Definition hint_34 : list (Z * Z) := [(18401950837341257105,57453680817006175); (18211138871694310745,133279227023391997); (17869513401040445107,208113602408379628); (17379828620804642674,281233347545739173); (16746132792506679882,352024693963595576); (15973674657917951036,419899652285210125); (15068854289938350832,484295419297180201); (14039169002680601052,544678265052213176); (12893150944605907141,600547787178935387); (11640296304404706023,651441009865713265); (10290986585847397875,696936204128867669); (8856402567238832249,736656376150543729); (7348431646201519199,770272388482621386); (5779569332926274945,797505686128772071); (4162815706209380471,818130604113687993); (2511567689392419210,831976237087338304); (839508038408971182,838927855325579944)].
Definition hint_35 : list (Z * Z) := [(18404437740839141038,54265095290811597); (18224198207960333180,125906668468181852); (17901414342576488240,196669776657993782); (17438540010312816540,265902991531588131); (16839188935890502344,333057032902654191); (16108049719608860060,397605017036124503); (15250843801519478830,459041419251711897); (14274279685549297189,516885297175692415); (13186000170391389066,570683895829469272); (11994522445482071901,620016146204370868); (10709171397782387029,664495945506171628); (9340006616676615248,703775173042850691); (7897743656726317201,737546412206560840); (6393670170135135737,765545355241079723); (4839557563472852463,787552871217298060); (3247568869233995884,803396720719521554); (1630163552856019955,812952903684150146); (0,816146629777089303)].
Definition hint_36 : list (Z * Z) := [(18406723170395171472,51334703116170502); (18236201771038776282,119128587009340806); (17930746049352594614,186141623858490233); (17492549055230485902,251785342174581892); (16924846634688436351,315566705533092461); (16231839839855359029,377012258054587103); (15418658774245361802,435666748222619910); (14491323667638371380,491095806012801457); (13456700052928730066,542889008517567471); (12322447852214612766,590662876170096300); (11096964632655232467,634063697531057601); (9789323419444453305,672770142476617106); (8409205515395055655,706495638818642746); (6966828820382918438,734990492865268744); (5472872179620999412,758043737506332443); (3938396320077841259,775484693845566370); (2374761960018226482,787184234686448164); (793545697756545528,793055740455494491)].
Definition hint_37 : list (Z * Z) := [(18408828312715006448,48635369060454811); (18247260304720416984,112882822142391405); (17957776782992032812,176434294032368004); (17542343437331733093,238756549723709621); (17003866267843837509,299405781240080356); (16346120394207813530,357955402477792222); (15573718790935985906,413994417291552466); (14692079036957487621,467129645559732840); (13707385077055821483,516988338713408376); (12626543766496848674,563220754144378976); (11457136393392134933,605502594799762401); (10207365487804902147,643537278621651061); (8885997280357708048,677058016589333172); (7502300210042488445,705829682992563621); (6065979910921152302,729650464139676407); (4587111132996561071,748353273656162231); (3076067074419765445,761806924321962960); (1543446620531256287,769917048169158004); (0,772626758357273730)].
Definition hint_38 : list (Z * Z) := [(18410771641375425256,46143430409942599); (18257470412504973841,107115121249436009); (17982740734697928451,167464871131827460); (17588349389629677201,226708084174780622); (17076913430755210428,284444186958935212); (16451834568087551945,340287840499766243); (15717271991423790040,393867118037391378); (14878113843958381288,444825357158223946); (13939944466659405259,492823398313626745); (12909007160074483694,537541803789148958); (11792162606798842413,578682970615168065); (10596843201870404721,615973106067847321); (9331003585213605761,649164047564569464); (8003067701622354647,678034913140024234); (6621872739039072584,702393570876787330); (5196610317508502349,722077917246173391); (3736765319843057769,736956955734158357); (2252052770895912567,746931668518491373); (752353185404146184,751935675368477091)].
Definition hint_39 : list (Z * Z) := [(18412569323269418862,43838177161544539); (18266916668955954309,101777963734085094); (18005843081752749359,159160620884622248); (17630940733748267791,215544530579610221); (17144572701899179121,270567212724300098); (16549812240945086883,323879737462902130); (15850419041867289629,375144764326485773); (15050814656821795073,424038083261923173); (14156054330195939555,470250536163826585); (13171794966202787428,513489935306882376); (12104259336203900020,553482898406555760); (10960196724107222750,589976572284885302); (9746840249344764566,622740229448617550); (8471861133727367988,651566725868677814); (7143320199844716310,676273810134326349); (5769616906986369567,696705275453097945); (4359436246471741729,712731947101085171); (2921693831967586842,724252499027537428); (1465479531859499669,731194094424565250); (0,733512846198489985)].
Definition hint_40 : list (Z * Z) := [(18414235555756653654,41701420761482931); (18275673372397763165,96829583979579911); (18027264190836880702,151457530695248952); (17670446407938715173,205181743393567861); (17207359142995040509,257673408972964526); (16640785821353538694,308615829516751899); (15974133333953215427,357702363624350028); (15211410782232804714,404637707791162143); (14357205162986798542,449139550453384516); (13416653713625559125,490940235453627722); (12395412989696134827,529788360114723064); (11299624834060548994,565450282693918798); (10135879433546781009,597711525591574617); (8911175681907007794,626378064337828785); (7632879086066157954,651277494025043961); (6308677468183746247,672260065931370729); (4946534729634824120,689199587994436508); (3554642954821185396,701994183669133190); (2141373142780844764,710566904580501313); (715224862853135472,714866193274124344)].
Definition hint_41 : list (Z * Z) := [(18415782847697970302,39717134566269833); (18283806006896154122,92233155657503928); (18047163128593778512,144299087428989248); (17707156766339720446,195545295027187441); (17265727947254554143,245672807923344777); (16725403578182248708,294393541552565205); (16089278066893055749,341428173111347532); (15360994868556116031,386507205568894518); (14544725422194283125,429372395208299969); (13645145192324651723,469778198081395791); (12667406863070685300,507493165379304586); (11617110812985686953,542301264856191213); (10500273031279620308,574003116395695715); (9323290656036078943,602417133179104086); (8092905330482035179,627380561366530469); (6816164586599214725,648750412107829436); (5500381476976083499,666404280443268196); (4153092685975647167,680241046355305267); (2782015360073603024,690181453931941913); (1395002904592945090,696168565311788837); (0,698168086804035678)].
Definition hint_42 : list (Z * Z) := [(18417222254798808163,37871152713485094); (18291372467326763443,87956107668433949); (18065680606756795757,137635249919746902); (17741328872887183205,186569166548345828); (17320082567304418466,234485413987241828); (16804240906763296524,281121376373288623); (16196620742777781179,326222101331059528); (15500540481956124401,369541181501625635); (14719801776935768059,410841989643416035); (13858668701376817281,449898939798106694); (12921844437007650179,486498708799435446); (11914445575931239255,520441397277985909); (10841974170513246235,551541619682431923); (9710287680469116443,579629515968736745); (8525566980020067718,604551678905488549); (7294282599277152719,626171991713377761); (6023159383952940149,644372371367188106); (4719139766274530575,659053413454826093); (3389345847622548924,670134935048523004); (2041040499944195974,677556412611317513); (681587698365283911,681277312540714633)].
Definition hint_43 : list (Z * Z) := [(18418563577557433619,36150916806030750); (18298424090392725109,83969548009028011); (18082941463454067282,131421581630957201); (17773190968715968267,178194638545996859); (17370781589357640350,224039918294515079); (16877809885007796362,268717532586276165); (16296845507942910219,311994321218836570); (15630917142819947606,353644580016235721); (14883496539898805092,393451131906419542); (14058480356072970384,431206429398402982); (13160169816547665335,466713626559041822); (12193248280183381294,499787601371978041); (11162756817805425668,530255919199231777); (10074067927905506663,557959730991039761); (8932857525559128417,582754601058879985); (7745075350047460175,604511259888653938); (6516913945199222047,623116277976914047); (5254776374038711400,638472657133346470); (3965242835987623534,650500336144898890); (2655036360621895424,659136608153859764); (1330987756816192995,664336447567715675); (0,666072744793033497)].
Definition hint_44 : list (Z * Z) := [(18419815528457161572,34545261927731959); (18305006525926009984,80247776552404646); (18099056762239272680,125618515634934098); (17802946256970285281,170369348130610844); (17418144568988463125,214272600549781787); (16946567407776676054,257108715779239998); (16390563694391098026,298664065004008755); (15752903225549065963,338731546069650438); (15036762705915594903,377111514327765870); (14245709865686159753,413612748802803072); (13383685664408078052,448053395216762640); (12454984647711531272,480261868248568083); (11464233547491528855,510077704760063456); (10416368229386117118,537352362466091793); (9316609101241305510,561949959590000234); (8170435104553034602,583747951621541605); (6983556418206100996,602637741717447005); (5761886010368825417,618525221661924309); (4511510180200659876,631331240671184057); (3238658236093215261,640991999695534019); (1949671461483191718,647459369248743518); (650971522833895983,650701129177983610)].
Definition hint_45 : list (Z * Z) := [(18420985873744645516,33044235163912276); (18311160476123751237,76767871412188311); (18114125574631594706,120190729388683341); (17830776121412318316,163046484378575949); (17462457003300009006,205126388001921059); (17010922134659890387,246229113398447722); (16478322852008210106,286158575603945030); (15867197055854717454,324724420362473703); (15180456955099650527,361742834727872806); (14421375135260736457,397037395806735476); (13593568942149351326,430439902286741749); (12700983234386683029,461791172426574548); (11747871579951809433,490941801096424199); (10738775983722471621,517752871045247686); (9678505241510772524,542096614546559934); (8572112023246254459,563857022080297161); (7424868794273206418,582930395065823651); (6242242689384140736,599225839972129760); (5029869459259418719,612665701430612303); (3793526613432666064,623185932276029261); (2539105887746103323,630736398746553541); (1272585167487598160,635281119385344146); (0,636798436503364371)].
Definition hint_46 : list (Z * Z) := [(18422081554114759091,31638941104897211); (18316922325101688022,73509336468620462); (18128236499494854423,115106610996534760); (17856842873406697493,156184099585565400); (17503974581987406902,196550046614312714); (17071240443749005965,236019508598357233); (16560614511145424581,274412192737056444); (15974426483238502837,311552852930282336); (15315350921364553658,347271996984395101); (14586394994257330871,381406633920313420); (13790884736963785930,413801008851215475); (12932449866120866060,444307310243433856); (12015007214177223604,472786342879499735); (11042742855612912794,499108162288618177); (10020093005653241877,523152667310760025); (8951723778152689099,544810147909347119); (7842509894777258035,563981785652324954); (6697512442511729458,580580104539830110); (5521955780915430866,594529370102335536); (4321203704457651477,605765934938294909); (3100734968677640682,614238529109249325); (1866118291825074931,619908494064346364); (622986946034800883,622749959025185131)].
Definition hint_47 : list (Z * Z) := [(18423108787813552894,30321409843623676); (18322324676969751377,70453799943395339); (18141468962695188692,110337802006869358); (17881292104485696732,149744517751832145); (17542926833978893826,188497483830135614); (17127851549749122889,226426512348526368); (16637880873653831972,263365555108451415); (16075157160018460339,299153020887517138); (15442140979681430217,333632393497704143); (14741600311235796475,366652891235213678); (13976598418143615531,398070117767233706); (13150480445446543034,427746690270775621); (12266858788262084619,455552838767453394); (11329597293618871711,481366972918096726); (10342794363698997797,505076213378112950); (9310765033913933800,526576885216440969); (8238022103960070092,545774971163231160); (7129256404249351749,562586522667709802); (5989316283943838503,576938026950485260); (4823186410253578626,588766728435701242); (3635965971683147078,598020903152290924); (2432846380526472728,604660084901519870); (1219088572103728082,608655242200160364); (0,609988905224589863)].
Definition hint_48 : list (Z * Z) := [(18424073159026611100,29084483801364069); (18327396817305935753,67584755751577596); (18153894332580935801,105858804478534540); (17904254707794802278,143693824992332240); (17579520265592755312,180927145832829365); (17181051917123082258,217401896412816083); (16710520596705059554,252964902712585508); (16169899720173591117,287466937659311769); (15561456765770724129,320763262123378593); (14887743716271384627,352714208072129513); (14151586336652486313,383185756289565068); (13356072313782323583,412050095364400963); (12504538301720234253,439186156428100129); (11600555924636305876,464480120330396821); (10647916795088142711,487825894721685759); (9650616610053464750,509125558874695661); (8612838391212517200,528289774305621967); (7538934939667459232,545238159437334915); (6433410578631238345,559899626715657464); (5300902260630686121,572212680755554551); (4146160118447726281,582125676261710772); (2974027541363319463,589597034638877196); (1789420860264133668,594595418381823819); (597308726815012509,597099862512491438)].
Definition hint_49 : list (Z * Z) := [(18424979693904632990,27921720374189521); (18332165110238322202,64887340835691872); (18165576880494196211,101646642215531283); (17925848620535717405,138001429210608706); (17613941069407024008,173801495065177925); (17231109076537086223,208902012578742474); (16778893806177726752,243161465602196008); (16259116019891449986,276441842501330566); (15673868608772332650,308609110373918944); (15025508120732816439,339533731781863434); (14316645253831992830,369091178581899031); (13550134336171947479,397162430347697051); (12729061828814180157,423634452330060569); (11856733895777748360,448400650004030704); (10936663090237948559,471361297985481167); (9972554210113500901,492423941430284902); (8968289379792624676,511503768228660714); (7927912417964141342,528523950462325797); (6855612554442722038,543415953732697194); (5755707561523455149,556119813105780734); (4632626367771549555,566584374557820141); (3490891224244317933,574767500946788828); (2335099494948936389,580636241678784909); (1169905144854977827,584166965385217687); (0,585345455075991273)].
Definition hint_50 : list (Z * Z) := [(18425832926163513918,26827307922536270); (18336653341199253518,62348142876791539); (18176574610418055939,97680567816723894); (17946180330489958980,132639678525250724); (17646357469470900547,167086556116742993); (17278264934622252756,200887285811226231); (16843326453821500170,233910927441454260); (16343224575773634380,266029660449890152); (15779894029706586100,297119200100188950); (15155514196690476308,327059256244206105); (14472500661049701379,355733991236798889); (13733495857499257649,383032465199223945); (12941358844513879022,408849063982076879); (12099154241349918808,433083907185919354); (11210140370624927993,455643234289191535); (10277756651923682606,476439767236048080); (9305610295006279487,495393048013048016); (8297462343999363454,512429749876334190); (7257213126508930657,527483961009061726); (6188887163919106202,540497439503202318); (5096617601238497945,551419838674643236); (3984630216721498597,560208901837284139); (2857227073121673868,566830625781081589); (1718769873823175132,571259392320681927); (573663088239286011,573478067405168856)].
Definition hint_51 : list (Z * Z) := [(18426636953861272986,25795993054305453); (18340883013680654631,59955033740162594); (18186939977729743868,93941808606345546); (17965346182376235005,127583529691393989); (17676921757445012753,160751520018136383); (17322738652149629934,193321770917069818); (16904114113865271117,225172953839546334); (16422605315180366902,256186524054708385); (15880003435315046896,286247086362252606); (15278326954913719889,315242803155749058); (14619814130836881887,343065803290092431); (13906914662550262612,369612580591210976); (13142280575656416780,394784377712103772); (12328756354420710256,418487552959193965); (11469368359138498646,440633928366914666); (10567313567322017076,461141117578104280); (9625947680402061184,479932832244834644); (8648772640091892203,496939165778750575); (7639423600801551915,512096853379815620); (6601655406537091150,525349507368010609); (5539328622574711262,536647826938107726); (4456395173862808365,545949781554721325); (3356883643571753528,553220767303942816); (2244884286477775165,558433735619057491); (1124533812929502545,561569293900952502); (0,562615777658584460)].
Definition hint_52 : list (Z * Z) := [(18427395488682366654,24823017499377806); (18344873606910467531,57697024795962692); (18196720513668559888,90413345667722422); (17983433513822414066,122810259195629688); (17705772065235726354,154768398571209109); (17364729153481651702,186172763901657466); (16961525299447191162,216910776890173461); (16497603735367029578,246872349325253440); (15974625117395171920,275950204734937958); (15394461540573828846,304040241997942698); (14759189821512102989,331041901095038590); (14071084057045520754,356858520415308110); (13332607480264874275,381397681631311518); (12546403641084035241,404571539996493203); (11715286942089887945,426297138538548126); (10842232563178843561,446496704882060352); (9930365810865865093,465097929574722033); (8982950930299980111,482034224890890715); (8003379419986586423,497244963171092054); (6995157891018957682,510675693836454712); (5961895514263579433,522278338296962499); (4907291100425433349,532011362053399761); (3835119859237243344,539839923375512301); (2749219885167528667,545735998023321112); (1653478418022612305,549678479564612275); (551817927624355718,551653254929181696)].
Definition hint_53 : list (Z * Z) := [(18428111898838397185,23904063156649707); (18348642800221022002,55564140893927388); (18205959369382591898,87079721149208187); (18000521645847024330,118299210882754992); (17733033912288878955,149111721660045002); (17404417320092691900,179410460532875947); (17015804366600175098,209090828559221480); (16568534553225775614,238050459275413279); (16064149651385877455,266189501831214906); (15504388348881280620,293410945544334249); (14891180241159095860,319620947669679628); (14226639172978478185,344729154321839546); (13513055948378561720,368649010838195491); (12752890432169093293,391298059634604009); (11948763069374319537,412598224195782034); (11103445851503620079,432476078084756028); (10219852760615548545,450863097983256365); (9301029724027316898,467695899861985076); (8350144114250016311,482916457452244525); (7370473830318670328,496472302258282864); (6365395998140482559,508316704416771797); (5338375328804192098,518408833777642820); (4292952174976093441,526713900649656680); (3232730326551135249,533203275724722868); (2161364587627620904,537854588767074788); (1082548177628634523,540651805726795559); (0,541585284011681161)].
Definition hint_54 : list (Z * Z) := [(18428789246512928757,23035204126516142); (18352206668939139504,53547310294820542); (18214695791167955343,83926869788955838); (18016682748732664762,114031574946073439); (17758821559616360052,143758271579487334); (17441967912633700493,173007655744391734); (17067174063037056009,201682416598786477); (16635684915061517535,229687249289677269); (16148933774199264227,256929104345327287); (15608537548509398116,283317477841351224); (15016291362844531057,308764705641836533); (14374162589250338412,333186252132016687); (13684284308498789483,356500989972138108); (12948948222635258297,378631469097096113); (12170597041315264645,399504173749256339); (11351816366875153460,419049766558959282); (10495326104925623810,437203318803336395); (9603971428915280529,453904526050807616); (8680713328632882375,469097908461054373); (7728618774019401131,482732995067840942); (6750850526949742889,494764491428565186); (5750656634819391676,505152430081394559); (4731359640831682374,513862303308886426); (3696345546824526415,520865177766289603); (2649052565298675967,526137790593269310); (1592959698010617257,529662626689487571); (531575179069788329,531427976897153465)].
Definition hint_55 : list (Z * Z) := [(18429430320629168314,22212864732218451); (18355579855854155300,51638268292029454); (18222965536662338840,80941971246380786); (18031982600866046476,109990193918450658); (17783239197595762143,138686849326644589); (17477531259122764343,166939478448343089); (17115837770251228390,194657437548148992); (16699317225470756535,221751889268115849); (16229303809694370507,248136022405507196); (15707303088410640200,273725311738921290); (15134987170859785797,298437782614002594); (14514189347617119543,322194271143253277); (13846898215066209711,344918676765200121); (13135251303808985570,366538205538123448); (12381528230682460817,386983603081460501); (11588143395983224244,406189376291767063); (10757638249130680573,424094003066559861); (9892673147461587318,440640129337496124); (8996018834190155922,455774752768376423); (8070547562807506725,469449392522541479); (7119223896337272627,481620244552039212); (6145095210911463412,492248321908975095); (5151281934081165584,501299579628335085); (4140967549128329510,508745023781495349); (3117388397395645759,514560804350629283); (2083823311299250813,518728291626221529); (1043583111231833336,521234135882784903); (0,522070310141508187)].
Definition hint_56 : list (Z * Z) := [(18430037665596418563,21433782690601323); (18358775721681664301,49829472612383724); (18230801240224867751,78113320358810822); (18046481255382949924,106159391970202552); (17806381990410480622,133878068559353819); (17511244741112237640,161183157116710081); (17161981480164114544,187990122134486637); (16759671645701347036,214216058148286317); (16305558700393499827,239779883476847826); (15801046253192245671,264602573227239111); (15247693707308686456,288607397599812507); (14647211434258262916,311720156750226557); (14001455484360355370,333869409146559781); (13312421848330812821,354986691928642448); (12582240286990197674,375006732291786764); (11813167747836602345,393867649119085490); (11007581388675761507,411511144184585111); (10167971229792092003,427882682310546070); (9296932457329491822,442931659909049966); (8397157401647720022,456611561380259669); (7471427215434885257,468880102880241635); (6522603277290185697,479699363011899436); (5553618347342793414,489035900033853226); (4567467502241102644,496860855224256743); (3567198877529655320,503150042079617448); (2555904246027116422,507884021072634702); (1536709461326026776,511048159737808646); (512764795952243452,512632677898987385)].
Definition hint_57 : list (Z * Z) := [(18430613606589521187,20694976722901387); (18361806477412100002,48114028980038069); (18238232734466149101,75430212882464713); (18060233627184663831,102524824377112246); (17828336996526508452,129314173560568145); (17543234104902915554,155717812156175796); (17205775541453677890,181656809027947619); (16816968304563691259,207053706960512239); (16377972695753692168,231832693466164192); (15890098823308966271,255919810034794618); (15354802679323499485,279243167104968868); (14773681788724249877,301733156385175457); (14148470438887719528,323322657636357872); (13481034502433522546,343947238538814939); (12773365867956247752,363545346760565485); (12027576495004564615,382058493535760977); (11245892110899014897,399431428152706409); (10430645568122520333,415612302805855255); (9584269882066374057,430552827307359176); (8709290969886670554,444208413189945498); (7808320112127855968,456538306767518095); (6884046159602836726,467505710754375790); (5939227508782422473,477077894078923514); (4976683869639557621,485226289563451279); (3999287850514293882,491926579178038253); (3009956385112220426,497158766613882932); (2011642027220634359,500907236959301855); (1007324139121791160,503160803300191196); (0,503912740105807840)].
Definition hint_58 : list (Z * Z) := [(18431160271831038254,19993718004253786); (18364683300993869324,46485625472380490); (18245287333837479924,72882844644035451); (18073290011000221225,99073344487532711); (17849183981705419269,124978878080692797); (17573614620876551803,150524271663817926); (17247376205580511737,175635743454000527); (16871409258803723195,200240847058775804); (16446797740279393481,224268622052489408); (15974765888718704682,247649782147442163); (15456674679381828645,270316909409737697); (14894017894506349589,292204646493021987); (14288417813699016184,313249884157284182); (13641620535120804111,333391942798108911); (12955490940289514540,352572747186314159); (12232007316716398848,370736993799975079); (11473255653735460076,387832310215595983); (10681423627897530237,403809406074821304); (9858794295230819168,418622215179398370); (9007739508532428766,432228028298411161); (8130713078657523711,444587616301444030); (7230243699516170709,455665343260718337); (6308927657172128293,465429269194973794); (5369421344062116415,473851242158183368); (4414433599917047576,480906979407172520); (3446717901467024181,486576137413856298); (2469064423448319207,490842370520065692); (1484291993801894211,493693378065739751); (495239966258254199,495120939854532109)].
Definition hint_59 : list (Z * Z) := [(18431679612275515250,19327504940682451); (18367416440434374236,44938474501446598); (18251990085307813347,70462222336025748); (18085696539587478253,95792885907860689); (17868996138628058172,120857222378609284); (17602492110662302886,145584907627479410); (17286926998220584158,169906897634964100); (16923180234642461669,193755360591827689); (16512265598793380339,217063809600768990); (16055328358134586094,239767272110368847); (15553642064448918888,261802465636678065); (15008604998881598950,283107972065256715); (14421736272121581035,303624407942102684); (13794671589050672382,323294589569444370); (13129158689021414240,342063692178838198); (12427052474181314831,359879402627572903); (11690309839280883388,376692065143715104); (10920984217303723154,392454819690342615); (10121219856082367790,407123732551712163); (9293245841830362532,420657918771321566); (8439369886235555617,433019656097301407); (7561971894423587679,444174490115682704); (6663497331714198686,454091330277427726); (5746450407655470785,462742536550927952); (4813387096331433520,470103996458053206); (3866908012395431645,476155192278787801); (2909651162684177708,480879258236982116); (1944284593614450059,484263027507729013); (973498954855037884,486297068915279701); (0,486975713219171955)].
Definition hint_60 : list (Z * Z) := [(18432173419036296228,18694040837672796); (18370015305095735958,43467261425512195); (18258363990419969083,68160084446282157); (18097495589840553611,92672357953814358); (17887840725167287976,116935446160853958); (17629963859028772101,140883490039206851); (17324559938178498984,164451810434332093); (16972452177777365925,187576830646215939); (16574589751102142251,210196193314697597); (16132045200427606990,232248913168986537); (15646011533836315424,253675536241304743); (15117799003914148899,274418298135136139); (14548831573067314287,294421278884894590); (13940643073498168303,313630553303480380); (13294873071569430653,331994336153811273); (12613262447424163524,349463121646253762); (11897648701641948156,365989816838439533); (11149961001514071642,381529868555375955); (10372214980254747562,396041383476472662); (9566507303147897802,409485241059878851); (8735010015266097556,421825198996508616); (7879964685991986733,433027990907663519); (7003676366123018256,443063416021825269); (6108507373847297983,451904420588235783); (5196870926340599469,459527170807401159); (4271224634151432286,465911117081669001); (3334063875911332844,471039049412515590); (2387915071230420582,474897143795100855); (1435328869912901131,477474999484953666); (478873275852892197,478765667036279967)].
Definition hint_61 : list (Z * Z) := [(18432643338845976194,18091214087624482); (18372488546704811464,42067098939274592); (18264430202398523853,65968831028557223); (18108726143456641919,89701552691605229); (17905779631633428197,113200875438904322); (17656119425010299240,136405056734339290); (17360396622779200089,159253443922098306); (17019382635396638452,181686388811995726); (16633967083958358495,203645350550284379); (16205155449946788913,225073033487861407); (15734066440621657313,245913531634316617); (15221929065442681070,266112472566265279); (14670079427331016612,285617158443864057); (14079957235697515531,304376703103761968); (13453102049732622651,322342164620598971); (12791149261486319386,339466672887956176); (12095825829086090745,355705551839998624); (11368945771157116730,371016435973209200); (10612405434163105954,385359380853362865); (9828178544994540972,398696967313760217); (9018311061699858288,410994399069784633); (8184915835786408210,422219593493371187); (7330167100012324596,432343265309549746); (6456294796047297477,441339002996098064); (5565578756798968198,449183337686612528); (4660342758581425202,455855804397001231); (3742948458642224442,461338995415515923); (2815789233863689264,465618605716936480); (1881283936712229429,468683470282363102); (941870584725414700,470525593227210739); (0,471140168661386465)].
Definition hint_62 : list (Z * Z) := [(18433090887800022997,17517080556662345); (18374844131380576461,40733486512082692); (18270208201460363756,63881461203432154); (18119424107875401160,86871062126988240); (17922869885867931400,109641821596418485); (17681041364759706329,132135797062314557); (17394549196126715852,154296054875327942); (17064116990571174250,176066578199264927); (16690579404519509676,197392357447578350); (16274880003409936774,218219514857125174); (15818068867105789088,238495435724377416); (15321299932464568033,258168899432719666); (14785828076076702730,277190208031903505); (14213005943146098930,295511311402145696); (13604280529939942306,313085928444442227); (12961189528177062272,329869663890996363); (12285357440461753132,345820120396238330); (11578491476510613984,360897005604240520); (10842377240503927467,375062233911555041); (10078874220436152928,388280022662912811); (9289911090848493607,400516982533790224); (8477480840802460010,411742201869838606); (7643635739397413713,421927324769142983); (6790482151546991550,431046622709477657); (5920175217108501387,439077059539259494); (5034913406805141578,445998349667798444); (4136932968692495235,451793009307705815); (3228502279197481998,456446400639922508); (2311916112999163636,459946768789739840); (1389489846225915118,462285271520366712); (463553607611989696,463456001569007069)].
Definition hint_63 : list (Z * Z) := [(18433517463598035611,16969847896165167); (18377089403799168723,39462274245912974); (18275715951038371658,61891517433293572); (18129622602409371060,84172204298443874); (17939164103834553783,106247491189509247); (17704805876908976331,128062947746041758); (17427121214399533076,149565079482951708); (17106789566670820064,170701230174935030); (16744594796330159114,191419661246957743); (16341423232477378848,211669664452703910); (15898261490997822815,231401681254982141); (15416194055462034529,250567422280839830); (14896400620969118155,269119984710883168); (14340153206080497268,287013966692968054); (13748813039346907583,304205578265619136); (13123827227792382477,320652748422902482); (12466725215384526487,336315228015693702); (11779115040094657843,351154688217142226); (11062679398673557365,365134814301189546); (10319171528754045636,378221394499323897); (9550410918346599765,390382403715223180); (8758278853221025258,401588081890785138); (7944713813066441846,411811006830816313); (7111706727693396190,421026161307594224); (6261296104885317484,429210994280735608); (5395563041821188142,436345476082334879); (4516626132276578063,442412147432184128); (3626636282065468593,447396162163033979); (2727771445409993367,451285323551278473); (1822231295118826064,454070114164116020); (912231839616993445,455743719150118243); (0,456302042916192888)].
Definition hint_64 : list (Z * Z) := [(18433924356467430852,16447861542357083); (18379231144462148681,38249630611378549); (18280970037255555695,59993035745972240); (18139352213809974924,81596957199255447); (17954710892316057383,103007905200267845); (17727483379764251748,124174699501431231); (17458208420460551081,145047029743292395); (17147524617127950452,165575353299131614); (16796168836134227621,185710964841286627); (16404974433068737930,205406098360137734); (15974869265735050136,224614035894089338); (15506873488833917793,243289216572818849); (15002097132094996870,261387343923979999); (14461737466290180507,278865490585490504); (13887076162828791012,295682199947631645); (13279476253424229383,311797584390042140); (12640378896923760128,327173419838878253); (11971299960908976656,341773236400109368); (11273826426142201352,355562404844111645); (10549612622368733808,368508218731267252); (9800376304392576666,380579971980965577); (9027894577726391330,391749031698434928); (8233999683475674132,401988906085743515); (7420574652452467303,411275307275338722); (6589548838824966991,419586208936750294); (5742893343895661316,426901898519606921); (4882616340861579130,433205024008914467); (4010758311645312530,438480635081608002); (3129387207094181135,442716218566699560); (2240593542026766009,445901728124874394); (1346485436760641482,448029608077112308); (449183616882117823,449094811325797345)].
Definition hint_65 : list (Z * Z) := [(18434312758929168574,15949592199543122); (18381275620902180266,37092013593594817); (18285985793669952352,58180501192973679); (18148641224940705100,79137899596822425); (17969555209438120042,99913826632207743); (17749139028420816570,120460113172937403); (17487899438443199695,140729400232338176); (17186437213880526414,160675033123521582); (16845445687484185062,180251122278685039); (16465709129847236495,199412635702158425); (16048100935492976085,218115498118533860); (15593581609637148619,236316690634378088); (15103196556887510249,253974348947529840); (14578073675695161263,271047859293083710); (14019420763559865654,287497951684891011); (13428522738717485476,303286790147141181); (12806738684583731173,318378059688038170); (12155498723692793093,332737049796380066); (11476300728289086974,346330734259432927); (10770706875120077071,359127847113512159); (10040340052343958186,371098954549857838); (9286880126810257088,382216522608880287); (8512060080294930678,392454980506181271); (7717662023574345922,401790779444162246); (6905513097504349043,410202446773621329); (6077481270531050041,417670635380558305); (5235471042298493206,424178168184463467); (4381419063234580707,429710077645655957); (3517289680190011333,434253640190745859); (2645070418375171827,437798405477001723); (1766767409986498995,440336220428288376); (884400780036489956,441861247987273931); (0,442369980540763567)].
Definition hint_66 : list (Z * Z) := [(18434683774543699151,15473624630001084); (18383228633548536010,35986144842339468); (18290777413040693830,56448807923134484); (18157515819740719184,76788157940185368); (17983738687985707304,96956695480577437); (17769833178823233919,116909044299403007); (17516276397590980774,136600584084625328); (17223634046117460820,155987341673319969); (16892559085099054737,175026044075050366); (16523790252016674003,193674202328213537); (16118150402961433210,211890202015194751); (15676544672250751072,229633394458912498); (15199958450675475129,246864186712444957); (14689455185655813079,263544129573434269); (14146174007700071562,279636003212988096); (13571327188229721113,295103900139756057); (12966197434330852244,309913305274819208); (12332135026410964998,324031172940139606); (11670554805117248264,337426000579501813); (10982933014222467809,350067899042593591); (10270804006513224729,361928659272751699); (9535756820025055302,372981815248074845); (8779431632260448813,383202703034588831); (8003516100299484377,392568515819172706); (7209741594968228381,401058354799126132); (6399879337466943556,408653275814622368); (5575736447078135195,415336331619862657); (4739151908773085537,421092609698524226); (3891992469714403291,425909265539064902); (3036148473810868365,429775551295596464); (2173529643619143813,432682839770347591); (1306060819004459167,434624643664184736); (435677662068885777,435596630052223740)].
Definition hint_67 : list (Z * Z) := [(18435038425757039585,15018647596943302); (18385095556879431611,34928986474394285); (18295358047635155203,54793223333645931); (18166000267244759394,74541358651734191); (17997299925830062009,94128570234338703); (17789621804887245667,113512075160988415); (17543415493439448168,132649797170488830); (17259214139478400293,151500255573879025); (16937633222184206797,170022611322991342); (16579369194601696720,188176743130592770); (16185197965804470856,205923330196523604); (15755973216304733760,223223935755365224); (15292624547187668729,240041089629537630); (14796155465781791113,256338369058270328); (14267641211728363406,272080477419815036); (13708226427932224637,287233320590760805); (13119122681329044897,301764080738997315); (12501605838782650500,315641287372482060); (11857013303765706302,328834885480933413); (11186741119791757167,341316300618161132); (10492240946862252663,353058500781515994); (9775016917471095296,364036054952994235); (9036622378972334588,374225188174366859); (8278656529364057783,383603833036548343); (7502760953773162713,392151677471379882); (6710616069141253814,399850208742125748); (5903937484811032821,406682753537283914); (5084472286894900183,412634514080794857); (4253995254472688143,417692600180387487); (3414305015813179123,421846057144615993); (2567220152944018916,425085889508100596); (1714575263006541588,427405080513571549); (858216984925645620,428798607308510960); (0,429263451823472064)].
Definition hint_68 : list (Z * Z) := [(18435377660951254159,14583444826975316); (18386881376406589060,33917720221695057); (18299739899399838714,53209355829870208); (18174117087067852090,72391585189173775); (18010274747229588552,91422075173147272); (17808556874019860143,110260453475795547); (17569387493407479961,128867009576523015); (17293269504592044579,147202581904318943); (16980783551422471806,165228597696456476); (16632586777668770409,182907142147611150); (16249411435840544554,200201034098815943); (15832063343225492041,217073902664505076); (15381420185317311110,233490263048839774); (14898429669038626165,249415590857114829); (14384107529157767809,264816394544430384); (13839535391872628159,279660285766115855); (13265858499948501053,293916047444989904); (12664283304139786576,307553699394810098); (12036074925931776808,320544561353165529); (11382554496922173455,332861313286681982); (10705096380428246406,344478052839227345); (10005125281157004571,355370349800897894); (9284113249013320833,365515297482418050); (8543576583344860214,374891560886422247); (7785072644132817965,383479421574012678); (7010196576833649830,391260819132048492); (6220577957758875504,398219389153838508); (5417877367047343744,404340497653283999); (4603782896436752093,409611271840045225); (3780006599178419606,414020627190975437); (2948280889561043763,417559290760866407); (2110354899615186370,420219820683465918); (1267990800660310693,421996621821744767); (422960097430147918,422885957534492689)].
Definition hint_69 : list (Z * Z) := [(18435702360790216646,14166886875635916); (18388590721967452098,32949728658149641); (18303934301148421893,51693125785039200); (18181887198456345659,70333339341316093); (18022696438291018507,88830352814519380); (17826686685702632873,107146037016701142); (17594258192983538484,125242883603032234); (17325885722741731528,143083890966964216); (17022117509043863469,160632598549812213); (16683574114456389037,177853149700336087); (16310947153337755504,194710360997308722); (15904997875002352131,211169792606617270); (15466555606661340408,227197817986956592); (14996516058192361964,242761692282270174); (14495839491730330954,257829619065455659); (13965548759605714187,272370815216214010); (13406727214535718772,286355573764593500); (12820516496285114999,299755324554845637); (12208114199290195948,312542692597171841); (11570771425995010092,324691553983711879); (10909790230889119617,336177089252123056); (10226520960463099883,346975834086367020); (9522359494512732286,357065727250330711); (8798744394425622668,366426155655879730); (8057153964274759304,375037996472980128); (7299103230722122150,382883656195676121); (6526140847901618150,389947106583996106); (5739845933604072396,396213917408282525); (4941824843227477594,401671285928999430); (4133707888082931046,406308063051757544); (3317146004760424141,410114776104099926); (2493807382358670741,413083648187500248); (1665374054469269559,415208614065027346); (833538462877519351,416485332552210686); (0,416911195385787613)].
Definition hint_70 : list (Z * Z) := [(18436013343940018058,13767923794346327); (18390227897740335780,32022578271715848); (18307951789774875907,50240739342274700); (18189330054742754015,68361506288065515); (18034595959466470893,86347020945710120); (17844056177224076224,104161243507216134); (17618088827931435474,121768717585310485); (17357142475498875385,139134455254421757); (17061735170251199910,156223966398014093); (16732453398087065142,173003315886495343); (16369950907384162363,189439187132795163); (15974947407245430964,205498946761744089); (15548227136765846315,221150708766181362); (15090637307063292302,236363397517644292); (14603086418708993285,251106809316307754); (14086542457691103532,265351672279488288); (13542030973393158580,279069704414918658); (12970633042352245063,292233669746977849); (12373483121812236318,304817432376195230); (11751766797318339109,316796008360384938); (11106718428816013017,328145615312056074); (10439618699922402073,338843719612301998); (9751792075232703235,348869081146657845); (9044604170707690075,358201795473644817); (8319459042361910211,366823333341995297); (7577796398634735474,374716577477922266); (6821088741978252638,381865856569280622); (6050838445336702629,388256976379072939); (5268574769321565998,393877247926476785); (4475850826004218236,398715512679409065); (3674240495354120385,402762164708586827); (2865335300444566857,406009169759083765); (2050741247629902281,408450081201506523); (1232075637967683664,410080052831113516); (410963856216367568,410895848489459506)].
Definition hint_71 : list (Z * Z) := [(18436311372233469048,13385578509794034); (18391796909345984645,31134004177397148); (18311802172374148545,48848664745658416); (18196463764814117639,66471323012663003); (18046002137607433056,83966133743508243); (17860707200146666348,101299005231843790); (17640936447281259119,118436394926698842); (17387114024342594868,135345193977719314); (17099729843296637074,151992752142199923); (16779338615403773505,168346929824314652); (16426558772037733119,184376156400086672); (16042071267255911282,200049489720749946); (15626618261608395785,215336675222677579); (15181001688659789380,230208204039063322); (14706081706545863050,244635369816255563); (14202775037352740787,258590324048777276); (13672053197426812119,272046129792302724); (13114940621981640519,284976813634855649); (12532512687595225594,297357415817893164); (11925893636399834306,309164038406334973); (11296254405962641001,320373891412273373); (10644810369040926046,330965336782044344); (9972818987571535027,340917930161002436); (9281577385421023157,350212460354932640); (8572419844580433670,358830986411651866); (7846715229636872633,366756872251048883); (7105864345492767812,373974818776605929); (6351297233432730593,380470893406345192); (5584470410757065318,386232556966148969); (4806864059309982110,391248687893509364); (4019979168329270788,395509603704965353); (3225334637132402826,399007079685773733); (2424464343231580937,401734364765727031); (1618914181537005474,403686194550466195); (810239080363447123,404858801483128849); (0,405249922116714799)].
Definition hint_72 : list (Z * Z) := [(18436597155339588433,13018940837736661); (18393301488354288355,30281896291914976); (18315494586044589045,47513610925362359); (18203305203006754285,64658349704197712); (18056941839789959494,81682146544717021); (17876678770660497911,98552727863075324); (17662854251299701747,115238337802175933); (17415869645569458760,131707622590519305); (17136188608648779445,147929651473739208); (16824336195486923979,163873964100899255); (16480897866860458690,179510624099533326); (16106518386642553241,194810273881119178); (15701900609608273920,209744189157117654); (15267804161014445629,224284332585989880); (14805044010000306961,238403406270627718); (14314488939291576508,252074902933440960); (13797059913986331738,265273155640040829); (13253728352436795657,277973385962555959); (12685514302447350851,290151750484362780); (12093484526198293543,301785385554844953); (11478750497482290191,312852450207939025); (10842466315008495032,323332167162638282); (10185826535688792183,333204861827750970); (9510063931971990432,342451999237248374); (8816447177435081680,351056218846591913); (8106278464975792820,359001367124543892); (7380891062077467334,366272527879165770); (6641646807735629380,372856050260999140); (5889933555745223658,378739574390809160); (5127162569148304545,383912054563745125); (4354765870733692241,388363779986332940); (3574193554562658058,392086393007352800); (2786911063567896014,395072904808364919); (1994396438336749598,397317708524418532); (1198137542243773693,398816589770306189); (399629268142122031,399566734552597769)].
Definition hint_73 : list (Z * Z) := [(18436871354991567594,12667162062691596); (18394745114476209543,29464286812538596); (18319037552052541979,46232508095008515); (18209870108669796702,62918443831710696); (18067440130859514821,79489883881850206); (17892007296599539904,95916253065242481); (17683891898137496519,112167465053144466); (17443474025175433290,128213806807332366); (17171192808943940164,144025955950574308); (16867545599545118892,159575023935126785); (16533087049475987722,174832605299206329); (16168428096972292787,189770828195202244); (15774234848357718221,204362404718722392); (15351227360430989732,218580680482226387); (14900178324694055171,232399683167718327); (14421911655634455758,245794169897623734); (13917300985548623552,258739673305230516); (13387268068608534722,271212546205349888); (12832781097061740825,283190004776014271); (12254852932626426559,294650170168366994); (11654539256303978927,305572108466576465); (11032936639983857052,315935868923562614); (10391180543360289474,325722520401981953); (9730443239817864336,334914185953480569); (9051931675073499843,343494075472789068); (8356885262485531208,351446516366847090); (7646573619056603292,358756982182829725); (6922294246265562275,365412119142713015); (6185370159964431876,371399770535862842); (5437147473669676579,376708998925059085); (4678992939662139002,381330106125370765); (3912291452387143606,385254650919372716); (3138443518715148751,388475464476333664); (2358862699683881222,390986663447202709); (1574973028394993504,392783660711468913); (788206408781850436,393863173756259458); (0,394223230672368084)].
Definition hint_74 : list (Z * Z) := [(18437134588820284979,12329450023194412); (18396131035687433238,28679338861390512); (18322439024958228976,45002490148205068); (18216173176491974731,61247736608857788); (18077520416412973579,77384510443632875); (17906726783569457084,93383824486135408); (17704095782419407707,109217153848287310); (17469987617849878016,124856320668998480); (17204818494763240205,140273508293533411); (16909059858117223618,155441300614532522); (16583237546942195714,170332727397544360); (16227930856020314077,184921310910424302); (15843771504294173484,199181112431912354); (15431442510856988968,213086778104797649); (14991676980113042819,226613583881849825); (14525256798083073546,239737479414350656); (14033011242082994405,252435130773963389); (13515815506202119283,264683961917199992); (12974589145178005252,276462194811382698); (12410294439420934010,287748888146897107); (11823934684087014589,298523974564805872); (11216552405237120834,308768296332447566); (10589227506250343633,318463639402900127); (9943075347785721366,327592765797338634); (9279244764704814519,336139444252458529); (8598916023480177838,344088479078314441); (7903298723720855093,351425737175163799); (7193629647545546441,358138173161213152); (6471170560626933469,364213852566546272); (5737205968816647790,369641973051965856); (4993040834339395371,374412883615001801); (4239998255616668020,378518101748924048); (3479417114845162963,381950328524241814); (2712649697512379433,384703461565867723); (1941059288081767969,386772605902868823); (1166017746122186381,388154082671510453); (388903067191191649,388845435656116761)].
Definition hint_75 : list (Z * Z) := [(18437387433834873168,12005064649446254); (18397462286501107056,27925336172913088); (18325706437231378610,43820878666232287); (18222228138557462550,59642611600872749); (18087204572734349859,75361504659197380); (17920869022351133138,90950056791606877); (17723509288665217631,106381204732908811); (17495466973747789879,121628208257451255); (17237136830706733518,136664661498015691); (16948966060860355526,151464528809954920); (16631453531984145709,166002186514579043); (16285148911370562019,180252465970678319); (15910651712670592726,194190696593206952); (15508610257211015766,207792748304670859); (15079720551186605726,221035073179927261); (14624725080490708825,233894746143901706); (14144411525183389872,246349504621362021); (13639611395778091762,258377787055716991); (13111198593683759455,269958770222970636); (12560087898281219819,281072405272476702); (11987233383245232691,291699452430053887); (11393626764849224979,301821514302229715); (10780295685109249395,311421067723284931); (10148301932737564598,320481494089562549); (9498739604984532916,328987108128279816); (8832733213550260256,336923185050883378); (8151435737844479374,344275986043840340); (7456026628964490098,351032782052670578); (6747709767846393407,357181875818002303); (6027711381124262721,362712622125472959); (5297277918305159991,367615446234398981); (4557673893934907422,371881860453296973); (3810179698490156690,375504478833551177); (3056089381786454696,378477029955782813); (2296708412739596609,380794367786780763); (1533351419358502189,382452480588194713); (767339912882080252,383448497861565658); (0,383780695317668912)].
Definition hint_76 : list (Z * Z) := [(18437630429586992411,11693313906381328); (18398741704581678384,27200673716431829); (18328846739823542181,42685168370655482); (18228047838984545698,58099685254160147); (18096513065025644102,73416634639201999); (17934463759495472042,88609907437186943); (17742173022100764498,103653809730933178); (17519965036292056969,118522948704771670); (17268214465735659155,133192241398776109); (16987345803616016607,147636947411324053); (16677832649475798015,161832707374590845); (16340196907397836953,175755582775733189); (15975007904414806811,189382095784193248); (15582881429701922651,202689268589434215); (15164478695784304906,215654662021291884); (14720505223334982249,228256413321202252); (14251709651359125849,240473272971001754); (13758882474727426034,252284640503182745); (13242854711164153714,263670599225221615); (12704496499924667700,274611949795766587); (12144715634517783750,285090242594075320); (11564456031942662906,295087808826995746); (10964696141018660280,304587790320381951); (10346447292490300917,313574167944317823); (9710751993688349361,322031788623976131); (9058682170621815482,329946390890415076); (8391337360464626788,337304628928130644); (7709842857484501592,344094095078751501); (7015347815540168830,350303340762887723); (6309023310346385920,355921895784825751); (5592060364774094420,360940285987497817); (4865667940515417239,365350049227941885); (4131070899499940714,369143749646304281); (3389507938499747273,372314990204317403); (2642229500405885822,374858423472104943); (1890495665698312526,376769760645122128); (1135574027664738844,378045778776023899); (378737554951230947,378684326209264692)].
Definition hint_77 : list (Z * Z) := [(18437864081051237213,11393550100601050); (18399971945869717398,26503849158180048); (18331866439110364119,41593013873675177); (18233644301903050411,56615789153829698); (18105465055121182402,71545936237153044); (17947538852807756701,86358650904765757); (17760125019129796387,101029523200460126); (17543531413894248443,115534424179498117); (17298113871314869399,129849512363112593); (17024275596934224469,143951263563418074); (16722466497979239178,157816506374505241); (16393182441025693347,171422459021036245); (16036964435788516254,184746766264056506); (15654397745471590156,197767535885866441); (15246110924760246591,210463374536676637); (14812774786865891566,222813422819246616); (14355101301237199057,234797389525012742); (13873842423706661615,246395584951800630); (13369788860971902574,257588953241563056); (12843768771429041010,268359103681447041); (12296646404485300661,278688340914821153); (11729320680582080720,288559694011531018); (11142723714258807008,297956944348982855); (10537819282682461762,306864652257864415); (9915601242157893787,315268182388489710); (9277091895219853061,323153727755943120); (8623340310989126053,330508332424422006); (7955420601552089184,337319912793445530); (7274430157195352965,343577277450915212); (6581487843394838616,349270145560380779); (5877732162521512776,354389163752281918); (5164319383284008475,358925921491400341); (4442421640981391197,362872964895264096); (3713225011687303578,366223808980793873); (2977927563529564295,368972948319065322); (2237737388266936905,371115866080678210); (1493870616397161964,372649041456868433); (747549419057408013,373569955444168257); (0,373877094983109400)].
Definition hint_78 : list (Z * Z) := [(18438088861250410125,11105166514351831); (18401155498368292002,25833455078011084); (18334771630570171870,40542217595668163); (18239028793440951837,55187953836353395); (18114078499739940131,69745693020559033); (17960120413229545481,84191855162300259); (17777400939484661952,98503235176130394); (17566212628163590466,112656890566719362); (17326893650501419735,126630145821144865); (17059827239784070234,140400619612132075); (16765441070638317432,153946257560806037); (16444206571090171522,167245366363852773); (16096638166151451775,180276648022131172); (15723292453261591383,193019233708992767); (15324767310536233619,205452717070733430); (14901700939083888733,217557186842593543); (14454770840843694976,229313258699957579); (13984692733539991442,240702106280438636); (13492219404469220713,251705491320524228); (12978139504942378189,262305792855047459); (12443276287306450807,272486035430831331); (11888486286563115542,282229916288257147); (11314657948693335519,291521831466606613); (10722710207882807814,300346900790999975); (10113591014925635929,308690991700687106); (9488275819162149012,316540741880388862); (8847766006381432674,323883580658354353); (8193087295189805108,330707749136806632); (7525288094413084330,337002319022499510); (6845437824162959775,342757210127202847); (6154625203256015419,347963206510072181); (5453956505727866073,352611971236039177); (4744553789234381793,356696059726579501); (4027553098177011112,360208931681471578); (3304102644429701942,363144961552449952); (2575360968580795952,365499447551977259); (1842495084634481508,367268619182705667); (1106678611142882399,368449643275568270); (369089891761592670,369040628526829743)].
Definition hint_79 : list (Z * Z) := [(18438305213651165743,10827594333863117); (18402294694724549060,25188171865532464); (18337568029524185329,39530718733953037); (18244211878315662510,53813394003704333); (18122370240212991840,68012417964683285); (17972232934459149547,82105360130806255); (17794034241851909146,96070146960092368); (17588052340893396884,109884950588182695); (17354608820785322567,123528191371565779); (17094068161780837666,136978562700201815); (16806837159270902145,150215061263487989); (16493364285639063019,163217018683358247); (16154138988597860350,175964133287074358); (15789690926240297711,188436501573363239); (15400589139641110521,200614649173273834); (14987441164137112921,212479561195742092); (14550892080595677581,224012711883070975); (14091623508112522461,235196093517048398); (13610352539690058547,246012244524091886); (13107830622546081182,256444276732149689); (12584842384794101303,266475901734955605); (12042204410323148046,276091456321432275); (11480763963787358071,285275926929932054); (10901397667694510717,294014973088770136); (10305010133658033310,302294949806227320); (9692532549948925418,310102928874922926); (9064921227552509433,317426719057203594); (8423156106999851116,324254885119972003); (7768239228305036069,330576765689195683); (7101193166397158729,336382489896191690); (6423059434489800588,341662992789677738); (5734896857880866605,346410029489513049); (5037779920721839677,350616188060020582); (4332797088337733121,354274901082784160); (3621049107717206672,357380455910846371); (2903647288826403925,359928003588293234); (2181711769430016310,361913566421296372); (1456369766128834253,363334044188789680); (728753814344570482,364187218983082002); (0,364471758672846914)].
Definition hint_80 : list (Z * Z) := [(18438513554352695495,10560299842991222); (18403391723725328872,24566761228734695); (18340260999227630694,38556583179607908); (18249203471559768668,52489495002181294); (18130356084520196975,66342836702012607); (17983899411505046277,80095257966077918); (17810056344573642584,93725748748570463); (17609091561867306495,107213529134975414); (17381311073188617353,120538050227676204); (17127061736907912691,133679016776761267); (16846730725103168874,146616415158845448); (16540744931052221373,159330542722190173); (16209570317752931333,171802037304514515); (15853711207622608279,184011906491625616); (15473709514107624322,195941556426516335); (15070143916214777436,207572820064915987); (14643628977144829221,218887984807532672); (14194814208331232008,229869819454255893); (13724383080288365818,240501600432955584); (13233051981763869951,250767137259632099); (12721569128773313134,260650797189346994); (12190713425174498371,270137529019380629); (11641293276514059429,279212886007777442); (11074145358951087019,287863047872023844); (10490133345131492175,296074841834140951); (9890146588952718514,303835762680007252); (9275098771221238775,311133991802276425); (8645926508264967656,317958415197833663); (8003587925619230760,324298640392345116); (7349061198958179861,330145012266101306); (6683343064493467571,335488627757036594); (6007447301108520552,340321349418522069); (5322403186539813273,344635817811276882); (4629253929956081199,348425462710520992); (3929055083322364887,351684513111298206); (3222872933968091286,354408006016729851); (2511782880807027202,356591793995813666); (1796867796681839426,358232551499256909); (1079216379327128884,359327779923724485); (359921493462140446,359875811416789198)].
Definition hint_81 : list (Z * Z) := [(18438714274088636627,10302781856301261); (18404448640812617605,23968060255511949); (18342855576569403502,37617994290413811); (18254012885853207632,51213800443943642); (18138050882379619893,64733872178488564); (17995141449237481304,78157874983033754); (17825496772853508450,91465799103335225); (17629368839309900925,104637850608696638); (17407049009864072607,117654450792063578); (17158867571400367727,130496256807908464); (16885193239233962869,143144187553930201); (16586432606473642115,155579450915190457); (16263029538589256738,167783571209353695); (15915464513263130875,179738416414789643); (15544253906164040344,191426224998853631); (15149949223550196822,202829632247814425); (14733136282766608081,213931696033232454); (14294434341816147342,224715921964165182); (13834495179277047872,235166287881668710); (13354002125922346007,245267267655981844); (12853669049473366003,255003854249282731); (12334239293991633015,264361582008763990); (11796484575482519440,273326548156329210); (11241203835349885847,281885433442638400); (10669222053404143867,290025521934604635); (10081389022186598599,297734719906810297); (9478578084430615420,305001573808690384); (8861684835535063032,311815287280733054); (8231625792977557613,318165737194379170); (7589337034644212142,324043488691765177); (6935772808098817668,329439809202947434); (6271904112857587541,334346681419770603); (5598717257775721590,338756815207096319); (4917212395689037931,342663658433689612); (4228402037487722512,346061406706667279); (3533309547829811636,348945011995042601); (2832967624729305923,351310190129552113); (2128416765277775562,353153427167620255); (1420703719778921076,354471984614004260); (710879936592770739,355263903489362085); (0,355528007240698102)].
Definition hint_82 : list (Z * Z) := [(18438907740060201162,10054569368522507); (18405467377713186530,23390975974916824); (18345356495610083187,36713244437898343); (18258648874883017676,49984000862341195); (18145468594053366836,63182630583366710); (18005979361889706447,76289755068667987); (17840383293744433419,89286306097126910); (17648920434613913442,102153418087787252); (17431868362200588176,114872426169286418); (17189541768181275152,127424884995894702); (16922291995601863031,139792592704523464); (16630506526694765287,151957616227742617); (16314608419741921931,163902316832297187); (15975055694999427282,175609375477740806); (15612340670240248711,187061817819621788); (15226989246727484258,198243038763715524); (14819560146580488334,209136826510253637); (14390644102602335852,219727386041244384); (13940863001723314703,229999362010816781); (13470868983291206946,239937861002255345); (12981343493509284119,249528473117742965); (12472996297389123366,258757292868543055); (11946564449648438778,267610939334769882); (11402811226044526159,276076575565180517); (10842525016691816193,284141927188653642); (10266518182967480854,291795300210240257); (9675625879662041567,299025597965900216); (9070704844082454972,305822337211287206); (8452632153863157513,312175663321218580); (7822303955285980730,318076364577767669); (7180634163952649407,323515885526245290); (6528553139693689186,328486339379693801); (5867006337634944812,332980519453900072); (5196952937377493422,336991909616341796); (4519364452278480840,340514693733912918); (3835223320849267853,343543764105726787); (3145521482313206958,346074728868768022); (2451258938388340944,348103918365653948); (1753442303380290097,349628390465271742); (1053083344687545972,350645934828575996); (351197515835292316,351155076113361047)].
Definition hint_83 : list (Z * Z) := [(18439094297616593259,9815219399782151); (18406449751266672676,22834480370671269); (18347768209163561469,35840727255185013); (18263119673106944186,48797923303650278); (18152622353463105577,61686388433547467); (18016432264359825443,74487644445588180); (17854742040061157673,87183509979602787); (17667780482806076093,99755994154141585); (17455812191234886468,112187293444675641); (17219137169997114651,124459808832892248); (16958090398947227708,136556167995649571); (16673041356315558695,148459248841346248); (16364393494460073091,160152203292663776); (16032583668159677151,171618480922452159); (15678081515932342048,182841852273820071); (15301388795106373778,193806431775535399); (14903038671514763660,204496700195461489); (14483594964781593547,214897526588492936); (14043651350249204088,224994189702056691); (13583830518664811714,234772398805812323); (13104783294809631587,244218313914398384); (12607187716314213460,253318565373659227); (12091748073961501937,262060272782081265); (11559193914834499400,270431063220328799); (11010279009718518594,278419088762875553); (10445780286218928008,286013043246819235); (9866496729104023877,293202178274063214); (9273248249429184410,299976318424162709); (8666874524042735974,306325875656267898); (8048233807115941020,312241862879755583); (7418201715379154291,317715906674325207); (6777669988783437445,322740259141543871); (6127545228341724137,327307808871057707); (5468747612935941072,331412091005942417); (4802209596906271744,335047296392942423); (4128874590265957392,338208279804644480); (3449695623409626497,340890567221945971); (2765633998205095633,343090362166508750); (2077657927377859947,344804551074234433); (1386741164114064016,346030707702154727); (693861623821589944,346767096562498689); (0,347012675379075924)].
Definition hint_84 : list (Z * Z) := [(18439274271797082717,9584315018201689); (18407397471527446949,22297605804469502); (18350094908605883498,34998930520064814); (18267433032257579734,47653521768015870); (18159524526146313008,60242580705592338); (18026518156075379231,72748477662302409); (17868597624241943114,85153867225936428); (17685981140062913632,97441583231558156); (17478921071985058497,109594634574116638); (17247703583181292306,121596220831761952); (16992648230012048244,133429752829190168); (16714107517730922896,145078874537985656); (16412466412028165536,156527485241120993); (16088141806324214280,167759761579888618); (15741581945231304516,178760179320503359); (15373265804836111196,189513534755723699); (14983702430590414656,200004965687658604); (14573430233689360624,210219971951281577); (14143016246890740000,220144435444555901); (13693055340793173888,229764639634491100); (13224169401650215100,239067288510540125); (12737006471853015533,248039524958221616); (12232239854267222404,256668948527037398); (11710567181660559688,264943632567807393); (11172709452506306005,272852140715539471); (10619410034494666611,280383542694929451); (10051433637128867676,287527429426567106); (9469565254825658181,294273927412917946); (8874609081980755764,300613712384163422); (8267387401498577132,306538022185016312); (7648739448322307428,312038668884684443); (7019520249534941722,317108050093234494); (6380599442634331726,321739159468707738); (5732860073615449709,325925596400460300); (5077197376520999416,329661574855340648); (4414517536147123192,332941931374475131); (3745736435614240693,335762132209607140); (3071778390533976121,338118279589125221); (2393574871521658990,340007117105118762); (1712063216819993026,341426034214014978); (1028185336813156467,342373069844576274); (342886412221806351,342846915108270949)].
Definition hint_85 : list (Z * Z) := [(18439447968747599351,9361463523366198); (18408312149207741572,21779440811041092); (18352340542075747530,34186429614527191); (18271596254888685352,46548868421419049); (18166186762529235852,58848789919601639); (18036253998104134539,71069364699006597); (17881973243078680404,83194035844031900); (17703552719454074202,95206415302236935); (17501233263158093653,107090278744660340); (17275287983781483402,118829579791036016); (17026021889998198408,130408469077199413); (16753771475240880960,141811314647547345); (16458904262217477861,153022722626729335); (16141818306138771867,164027557799751025); (15802941657016644988,174810963943500480); (15442731781618436243,185358383828954273); (15061674945789835887,195655578843372899); (14660285557945457119,205688648194786120); (14239105474594744428,215444047667246214); (13798703268830335693,224908607898603900); (13339673462760365889,234069552154539568); (12862635724917293631,242914513573956873); (12368234033724496864,251431551861934947); (11857135808148521480,259609169407391074); (11330031006709659653,267436326803503210); (10787631196066556981,274902457749819478); (10230668590431816345,281997483315859773); (9659895063115069659,288711825546903472); (9076081131527698670,295036420393562220); (8480014917019267484,300962729947660575); (7872501080949743617,306482753967890927); (7254359738433691307,311589040679672649); (6626425351222781064,316274696834628458); (5989545601221134799,320533397016092668); (5344580246154180055,324359392178085361); (4692399958935785514,327747517406222386); (4033885152300461529,330693198890082200); (3369924790287304506,333192460097615619); (2701415188180116219,335241927143262166); (2029258802523714738,336838833342525439); (1354363012849851830,337981022946858420); (677638896757344423,338666954053816315); (0,338895700688548058)].
Definition hint_86 : list (Z * Z) := [(18439615677023382653,9146294775881585); (18409195302522538157,21279126230866764); (18354508831214149700,33401881508029530); (18275616225234311182,45482145508484789); (18172620046943754565,57502736088858712); (18045655784124778929,69447579088809018); (17894890774141295310,81300861828633403); (17720523815972004976,93046930880605503); (17522784863538177238,104670286079226884); (17301934707614371271,116155593464631910); (17058264626106445286,127487702972219155); (16792095997360425451,138651667434122966); (16503779875084283063,149632761872610283); (16193696524715325216,160416502724938740); (15862254921541057388,170988666848089321); (15509892211098189530,181335310226239521); (15137073132495152672,191442786333161031); (14744289405384826954,201297764114371577); (14332059081377849507,210887245559856129); (13900925860741788781,220198582841321462); (13451458375281528003,229219494989824903); (12984249438343168363,237938084090902705); (12499915262928477077,246342850975326721); (11999094648949763403,254422710384488263); (11482448140696250839,262167005590219112); (10950657155622602893,269565522449648984); (10404423085608274393,276608502876486277); (9844466371872792736,283286657710904865); (9271525554766900728,289591178971029449); (8686356299692684228,295513751469838343); (8089730400437329045,301046563782146507); (7482434761234967041,306182318547193519); (6865270358899145432,310914242093240618); (6239051186394751396,315236093371477331); (5604603179242713237,319142172187450647); (4962763126173448211,322627326719157316); (4314377565465806719,325686960311881378); (3660301668427145861,328317037540813539); (3001398111487127878,330514089533455114); (2338535938392858608,332275218544785838); (1672589414006038132,333598101779160628); (1004436871213873168,334480994453894036); (334959552474584021,334922732100491412)].
Definition hint_87 : list (Z * Z) := [(18439777668788041892,8938459659746089); (18410048363490538230,20795851649919082); (18356603286575622014,32644019217144188); (18279499437623810056,44451637903043595); (18178834742772035773,56202267457791323); (18054738605809276870,67880546964283641); (17907370864639420341,79471366661591430); (17736921421801126394,90959767135438737); (17543609956233117614,102330932570687629); (17327685625657874770,113570202518780352); (17089426739801580052,124663088317380809); (16829140399205763077,135595290807595160); (16547162098212128255,146352718353720745); (16243855291920936173,156921504814905736); (15919610927384390407,167288027322198946); (15574846939505160073,177438923787194002); (15210007712224988437,187361110097085329); (14825563505664770745,197041796963270287); (14422009849936737626,206468506396437478); (13999866906400173542,215629087784111950); (13559678797178236700,224511733548413220); (13102012903796666345,233104994362986042); (12627459135846285762,241397793908990518); (12136629170610627170,249379443150832617); (11630155664637901871,257039654113050576); (11108691438272994978,264368553140483912); (10572908634200203590,271356693624559169); (10023497851081056880,277995068179240291); (9461167253403737444,284275120250917104); (8886641658691338770,290188755147245464); (8300661603245413489,295728350470708384); (7703982387628959197,300886765943439357); (7097373103119121183,305657352610636750); (6481615640384433007,310033961410701262); (5857503681664336563,314010951101046148); (5225841677749994544,317583195529361463); (4587443811085003361,320746090240957978); (3943132946322508882,323495558413672720); (3293739569691398036,325828056112685200); (2640100718538665845,327740576858470299); (1983058902427721332,329230655501999303); (1323461017183280833,330296371402193671); (662157253282589538,330936350901535634); (0,331149769096644397)].
Definition hint_88 : list (Z * Z) := [(18439934200918335089,8737628665603812); (18410872683740051786,20328852118889887); (18358627221830157426,31911646698983663); (18283252022671387137,43455726239670980); (18184840634064372900,54945351958494558); (18063516713113554450,66365836948113780); (17919433013390496460,77702735767347003); (17752771032685557659,88941745061686181); (17563740741840875266,100068696141395404); (17352580306053948972,111069565669425126); (17119555779290784221,121930490909477096); (16864960766655363788,132637786256531506); (16589116053299191967,143177960078668800); (16292369199643140122,153537731528943396); (15975094103131576884,163704047185548070); (15637690526939853479,173664097449566652); (15280583596165617907,183405332657548882); (14904223262106380798,192915478878144990); (14509083735280986563,202182553367673948); (14095662887899684088,211194879662420905); (13664481626530064776,219941102287161099); (13216083235745946007,228410201060539071); (12751032693584131511,236591504978790297); (12269915959670264192,244474705660019489); (11773339236909885662,252049870331916268); (11261928207674411156,259307454346430894); (10736327245444046822,266238313205569201); (10197198602900718335,272833714083106921); (9645221577493830395,279085346827674571); (9081091655530112877,284985334433327747); (8505519635865904459,290526242964395337); (7919230734305949876,295701090922090211); (7322963669837113804,300503358041073334); (6717469733848314422,304926993504882587); (6103511843509425693,308966423569871207); (5481863580501863297,312616558588047052); (4853308216312030544,315872799419962001); (4218637725315734708,318731043229569832); (3578651786897070024,321187688653749997); (2934156777859081980,323239640339982952); (2285964756395761221,324884312846458963); (1634892438905549109,326119633899705847); (981760170935557408,326944047005630710); (327390893553100385,327356513410685561)].
Definition hint_89 : list (Z * Z) := [(18440085516023044740,8543490584140635); (18411669539863762042,19877405127113662); (18360583766863040721,31203634140040302); (18286879771437079172,42492880575046415); (18190646963941365099,53730069322914885); (18072003569924129388,64901150814500807); (17931095646497709424,75992307841453194); (17768096746170527947,86989857612778277); (17583207661495160265,97880243733915511); (17376656163872594386,108650045903061373); (17148696717560720560,119285994077599849); (16899610163824347104,129774983907188204); (16629703373815193129,140104092485289796); (16339308869929650040,150260594086848648); (16028784415827224961,160231975754823226); (15698512575486568454,170005952667748864); (15348900241780389476,179570483247783482); (14980378135118401696,188913783980396068); (14593400272759006139,198024343922334174); (14188443409434038488,206890938877327025); (13766006449970239515,215502645220606483); (13326609834627813955,223848853354394296); (12870794897911318817,231919280777301234); (12399123201641549307,239703984751250816); (11912175843109252490,247193374550146444); (11410552739162478328,254378223275081273); (10894871887109205359,261249679221463683); (10365768603345557105,267799276784007754); (9823894740647443273,274018946886122990); (9269917885089797433,279901026920833454); (8704520533582716306,285438270190964810); (8128399253037709735,290623854836959011); (7542263822199918859,295451392241310593); (6946836357203527372,299914934899265299); (6342850421927652295,304008983746080764); (5731050124248732595,307728494931819469); (5112189199302814009,311068886035325507); (4487030080887135496,314026041709728133); (3856342962145037568,316596318752515800); (3220904846691417527,318776550593933557); (2581498591347735208,320564051198173527); (1938911941665910893,321956618372551768); (1293936561429341892,322952536480594271); (647367057326685055,323550578555689346); (0,323750007812702210)].
Definition hint_90 : list (Z * Z) := [(18440231843383499904,8355751299944431); (18412440138361982310,19440827808842178); (18362475879869229610,30518913605850177); (18290388157736683792,41561654532980783); (18196262470061064278,52554603793911264); (18080211905464569260,63484314855081222); (17942376187282494767,74337564977788053); (17782921352417676674,85101258712570510); (17602039510657001795,95762419347412141); (17399948599678144867,106308197692733903); (17176892117191942735,116725885248466698); (16933138825247265494,127002928621425459); (16668982425293637024,137126944266864557); (16384741203728242597,147085733230439990); (16080757648077087184,156867295757517620); (15757398034147409023,166459845704667494); (15415051984588225693,175851824714843260); (15054131999359961891,185031916129164648); (14675072958662316447,193989058613547107); (14278331598910033943,202712459481148817); (13864385962382621480,211191607693161293); (13433734821207930075,219416286521476966); (12986897076371681310,227376585857509413); (12524411132475840295,235062914152055579); (12046834248998398423,242466009971641664); (11554741868835717591,249576953157320245); (11048726924936134333,256387175572403890); (10529399125860033428,262888471426139740); (9997384221127066840,269073007160855684); (9453323247235598663,274933330890644446); (8897871755262779218,280462381380198708); (8331699020975868819,285653496552968693); (7755487238406520808,290500421518383674); (7169930697859670945,294997316108460309); (6575734949347443705,299138761914713240); (5973615952456053831,302919768816886445); (5364299213670033099,306335780995636840); (4748518912193228489,309382682421923890); (4127017015319880880,312056801816489915); (3500542384421686559,314354917073454496); (2869849872628052208,316274259142692313); (2235699415286764136,317812515366315994); (1598855114300992337,318967832265243439); (960084317445929067,319738817772491778); (320156693774411249,320124542910506818)].
Definition hint_91 : list (Z * Z) := [(18440373399822555933,8174132677097758); (18413185620210150096,19018474361706723); (18364306358529502105,29856475020256276); (18293782358760880236,40660679891430643); (18201695417404487459,51417237383872897); (18088153761826618003,62113271889417113); (17953291120963934245,72736123527130607); (17797266418227457449,83273253073611573); (17620263544436813024,93712232941972987); (17422491127840755393,104040755128817969); (17204182283055398039,114246643457287022); (16965594334035459290,124317867053630027); (16707008509682371849,134242554152447875); (16428729611797648201,144009005914981312); (16131085655501614422,153605710131372203); (15814427482418728190,163021354744225194); (15479128347026181007,172244841156853557); (15125583476623093164,181265297300738446); (14754209605422751937,190072090441914153); (14365444483308007891,198654839708630336); (13959746359823624312,207003428324134229); (13537593444010674793,215108015529369492); (13099483340717768078,222959048181081477); (12645932464052319588,230547272011384470); (12177475428662466734,237863742535350925); (11694664419566625070,244899835593660040); (11198068541273139163,251647257517810934); (10688273146957003736,258098054905874062); (10165879148484210742,264244623997228357); (9631502308096902330,270079719635213842); (9085772512594159892,275596463807121430); (8529333030863915320,280788353751444023); (7962839755641111236,285649269622825894); (7386960430385841412,290173481705670640); (6802373862192750325,294355657167901335); (6209769121659442107,298190866346909473); (5609844730657025356,301674588560281429); (5003307838960183569,304802717434451737); (4390873390707295022,307571565745001133); (3773263281673115315,309977869762893170); (3151205508347366691,312018793101525764); (2525433309822237886,313691930060062602); (1896684303500275407,314995308459103181); (1265699615641431808,315927391965348738); (633223007774120230,316487081902523715); (0,316673718546418054)].
Definition hint_92 : list (Z * Z) := [(18440510390508184232,7998371528615768); (18413907065082848356,18609733659151235); (18366077850347168600,29215362446051981); (18297067274148351624,39788661573811561); (18206953628608561855,50316343634459996); (18095840537955931828,60786073865785470); (17963856054530489289,71185725626064047); (17811152364841900150,81503286755183300); (17637905575157672317,91726850140203397); (17444315495447989758,101844620891340482); (17230605403893596553,111844927730024780); (16997021787159260228,121716235593390425); (16743834055046788078,131447158570828867); (16471334229220321357,141026472864782304); (16179836606097493575,150443129650471474); (15869677394175280178,159686267774207495); (15541214326150870635,168745226255411907); (15194826246255315351,177609556568352382); (14830912673260033729,186269034684649566); (14449893339651336076,194713672860166772); (14052207707499331927,202933731151327510); (13638314461576543135,210919728646810864); (13208690980308962164,218662454401223550); (12763832785168561136,226152978057870436); (12304252969141545105,233382660148207063); (11830481604931039172,240343162055991639); (11343065133576439639,247026455634577711); (10842565734194354403,253424832466211711); (10329560675567903045,259530912752626948); (9804641650332130651,265337653826660246); (9268414092523395294,270838358275060624); (8721496479279799386,276026681663111956); (8164519617498030761,280896639852153557); (7598125916269341645,285442615901554070); (7022968645933803737,289659366547174628); (6439711184607417796,293542028248846656); (5849026253051108960,297086122799887423); (5251595138764088489,300287562492182047); (4648106910196493402,303142654830873646); (4039257621987613545,305648106793222977); (3425749512146367878,307801028626724923); (2808290192099986485,309598937182100670); (2187591830545081269,311039758777321039); (1564370332042437119,312121831589357382); (939344511302918274,312843907570901260); (313235264116854746,313205153889842040)].
Definition hint_93 : list (Z * Z) := [(18440643009697235525,7828218662596882); (18414605495263555786,18214027040360045); (18367792862216622371,28594670641473616); (18300247543643920589,38944373010496435); (18212044512053806285,49250381835409998); (18103283030391132581,59500875003066144); (17974085772207538798,69684231340818789); (17824598540047253185,79788938400640466); (17654990062804348529,89803582661773934); (17465451792592382670,99716855997049153); (17256197683697155089,109517566269273243); (17027463948900999287,119194649126734984); (16779508791804009589,128737180133206037); (16512612114821546539,138134386932084058); (16227075202927874489,147375661322941558); (15923220383385507737,156450571192300344); (15601390661787644634,165348872265365210); (15261949334795553474,174060519656082364); (14905279579992533206,182575679197807385); (14531784023308762054,190884738539346846); (14141884284500318878,198978317992516735); (13736020501192456885,206847281118221599); (13314650832022563963,214482745038667191); (12878250939442519627,221876090463803955); (12427313452763533596,229018971420522198); (11962347412049111037,235903324673515115); (11483877693483572097,242521378827110062); (10992444416864570145,248865663097751060); (10488602335888302136,254929015747201463); (9972920211915575615,260704592166927892); (9445980171925576339,266185872604526236); (8908377051382052194,271366669523458631); (8360717722753676048,276241134587786959); (7803620410446555435,280803765264013529); (7237713992922203360,285049411032573181); (6663637292788755917,288973279201962538); (6082038355666802949,292570940318941363); (5493573718643872797,295838333168697409); (4898907669143367317,298771769359329330); (4298711495044565711,301367937485471748); (3693662726900193204,303623906866361782); (3084444373106972261,305537130854126925); (2471744148892529787,307105449708559369); (1856253699989014741,308327093035131359); (1238667821869778884,309200681783499226); (619683675430482400,309725229804239969); (0,309900144962062944)].
Definition hint_94 : list (Z * Z) := [(18440771441424413221,7663437998629089); (18415281879266564611,17830806262761530); (18369453769288267329,27993541869417405); (18303327563460356616,38126651839586156); (18216975087894560678,48217891664275023); (18110491471026900583,58255925429082217); (17983994286886553003,68229611375744212); (17837623285047820935,78127911099051840); (17671540198943162933,87939879432335596); (17485928554739824494,97654670260270837); (17280993463704764293,107261546381727954); (17056961393430780829,116749890554275107); (16814079916561760370,126109216874767708); (16552617436685038011,135329182202829717); (16272862891439492640,144399597508875801); (15975125433052516734,153310439090526068); (15659734086603358758,162051859625637812); (15327037386362110099,170614199040568938); (14977402990591004000,178987995177084540); (14611217275225208219,187163994243725212); (14228884906877208575,195133161038784455); (13830828395633708278,202886688932862961); (13417487628137431411,210416009599540313); (12989319381468673791,217712802483154674); (12546796818363067190,224769003993070339); (12090408964322899315,231576816414173794); (11620660167199500653,238128716523687921); (11138069539843683606,244417463904740479); (10643170386439998754,250436108947472027); (10136509613158649559,256178000528822636); (9618647123776268354,261636793362497750); (9090155200933388671,266806455010981883); (8551617873712336728,271681272551844972); (8003630272234392722,276255858890970057); (7446797969989425060,280525158715722360); (6881736314624762900,284484454081478643); (6309069747932829984,288129369625341510); (5729431115789002051,291455877401275750); (5143460968802258232,294460301331322510); (4551806854451461678,297139321267971609); (3955122601489515048,299489976663202149); (3354067597406182127,301509669840136411); (2749306059748038346,303196168863691247); (2141506302100801938,304547610007054418); (1531339995545196434,305562499811260001); (919481426402497650,306239716735586744); (306606751090018788,306578512396955409)].
Definition hint_95 : list (Z * Z) := [(18440895860141021450,7503805748599841); (18415937135195028457,17459551603584749); (18371062823188326524,27411162938413358); (18306311501451440262,37334395918911315); (18221752012202097265,47217488212477850); (18117475562146723133,57049565274838262); (17993594887847953999,66819940300664348); (17850243996539012535,76518024821075586); (17687577984644354180,86133318313390966); (17505772857819712334,95655413411881489); (17305025335780174227,105074005090486523); (17085552637372215068,114378901009644119); (16847592244541054295,123560032200059004); (16591401644851773097,132607463797083510); (16317258052593820125,141511405710575491); (16025458108658139753,150262223175990332); (15716317559457299957,158850447156314355); (15390170915208266364,167266784574604851); (15047371087932692034,175502128361581996); (14688289009558112498,183547567305056971); (14313313230528468343,191394395689262823); (13922849499355404979,199034122712938139); (13517320323563531298,206458481675553597); (13097164512503605897,213659438921490476); (12662836702527635979,220629202532338816); (12214806865039205650,227360230757812759); (11753559797951036706,233845240176098105); (11279594601099840564,240077213574761371); (10793424136185946055,246049407543665633); (10295574471821977702,251755359771658789); (9786584314291002644,257188896039126172); (9267004424630048728,262344136898832355); (8737397022669707910,267215504037816854); (8198335178674663943,271797726313455330); (7650402193243407496,276085845457151713); (7094190966138111598,280075221439487123); (6530303354727622591,283761537491018476); (5959349522737764049,287140804773292640); (5381947280013641405,290209366695020867); (4798721414008362330,292963902868742389); (4210303013721541678,295401432703695273); (3617328786819130634,297519318631006390); (3020440370673488658,299315268957710317); (2420283638069196088,300787340346508690); (1817507998325877692,301933939918586564); (1212765694594266916,302753826977210244); (606711098085881574,303246114350241450); (0,303410269350115033)].
Definition hint_96 : list (Z * Z) := [(18441016431307628935,7349109656600188); (18416572133856881928,17099770098198256); (18372622159646620123,26846762456324651); (18309203311193932104,36566559623802007); (18226381599375256469,46247857366238182); (18124244508948366575,55880219187782186); (18002900185079357564,65453390255485248); (17862477184368684670,74957209383450243); (17703124302890536398,84381598404385253); (17525010406620253899,93716566825494561); (17328324247852665325,102952220380168382); (17113274263148776724,112078770726229882); (16880088351476392119,121086545481323451); (16629013632195146510,129965998315717763); (16360316182898591603,138707718990445047); (16074280757280935862,147302443288323281); (15771210483274180795,155741062808753299); (15451426541748346849,164014634607117145); (15115267826100706206,172114390664172524); (14763090583086629720,180031747173113035); (14395268035267962820,187758313633202860); (14012189985476223161,195285901739644198); (13614262403708058513,202606534059846101); (13201906996889661405,209712452486654319); (12775560761965379857,216596126459432898); (12335675522783676840,223250260944190325); (11882717451270914927,229667804164232356); (11417166573400192757,235841955073109095); (10939516260478638815,241766170561910284); (10450272706292170785,247434172393252901); (9949954390661746202,252839953854600384); (9439091529979551342,257977786123854016); (8918225515307387858,262842224340464419); (8387908338632707961,267428113375624957); (7848702007890306348,271730593295428900); (7301177951369588103,275745104511198478); (6745916412138584399,279467392611526035); (6183505833126470579,282893512870905257); (5614542233516243049,286019834430173486); (5039628577108422182,288843044144334161); (4459374133325158411,291360150093681089); (3874393831531919019,293568484754503207); (3285307609361015598,295465707826009336); (2692739755727589290,297049808710476838); (2097318249234296044,298319108643995627); (1499674092665821332,299272262475549332); (900440644278497808,299908260092548098); (300252946593696046,300226427491302240)].
Definition hint_97 : list (Z * Z) := [(18441133311944409669,7199148293101181); (18417187701658378935,16750993904084997); (18374133805580537821,26299608279480537); (18312006745067166047,35822150407480581); (18230869842959148399,45307751513767643); (18130807049764865999,54746391230530216); (18011922150463582754,64128225094128955); (17874338525140814634,73443497900498406); (17718198985911532330,82682532872510476); (17543665617020417164,91835735804312512); (17350919602046887696,100893603027180799); (17140161033832312443,109846730504406786); (16911608705809820816,118685823262961857); (16665499884380657964,127401704888556836); (16402090062334536430,135985326974928825); (16121652693461999853,144427778476585525); (15824478908582145276,152720294937094246); (15510877213253853993,160854267574721835); (15181173167470062907,168821252211693541); (14835709047659617477,176612978035553049); (14474843491342972406,184221356182304515); (14098951124807871951,191638488131735959); (13708422174189832753,198856673905806735); (13303662060360107432,205868420061347463); (12885090978040997256,212666447468627147); (12453143459584992373,219243698867619405); (12008267923870288815,225593346194063797); (11550926210780779728,231708797667677812); (11081593101753647456,237583704635135066); (10600755826892189742,243211968160688215); (10108913559155489625,248587745357582583); (9606576896149974741,253705455453679262); (9094267330060796845,258559785584984838); (8572516706273284791,263145696311069069); (8041866671246472657,267458426846641722); (7502868110211867683,271493500003855287); (6956080575281189275,275246726840201150); (6402071704556769906,278714211007172894); (5841416632847651300,281892352795181313); (5274697394603125265,284777852870521299); (4702502319683549069,287367715700510618); (4125425422595702027,289659252663244419); (3544065785826735339,291650084838736839); (2959026937916894201,293338145478551885); (2370916226916653482,294721682151359622); (1780344189878700169,295799258562190135); (1187923919039312375,296569756043496547); (594270425347121746,297032374716479094); (0,297186634321464571)].
Definition hint_98 : list (Z * Z) := [(18441246651142579573,7053730399018714); (18417784623293203452,16412778780318483); (18375599685679056909,25769005141515564); (18314725366410955898,35100225603018143); (18235222434999772367,44395985552695665); (18137171484165577423,53646660134481541); (18020672156086222463,62842794933214452); (17885842912083959011,71975020684669277); (17732820877846809912,81034042269544766); (17561761692543184515,90010642386022080); (17372839346073221008,98895688971400507); (17166246000152683972,107680143735316235); (16942191791925180820,116355071028882448); (16700904619741362660,124911646782468807); (16442629911088991620,133341167405728358); (16167630372804146963,141635058600687906); (15876185723766541669,149784884061102702); (15568592410324731114,157782354040787671); (15245163304726678522,165619333777997043); (14906227386854605503,173287851765080991); (14552129409583328137,180780107853808804); (14183229548099757088,188088481187437940); (13799903033538596250,195205537951067132); (13402539771305841962,202124038932154423); (12991543944477632243,208836946883365095); (12567333602677407501,215337433680169262); (12130340236849261847,221618887265850299); (11681008340359805048,227674918376821679); (11219794956874823960,233499367041386074); (10747169215470526548,239086308845309181); (10263611853452164699,244430060957823385); (9769614727365355486,249525187911923586); (9265680312697444329,254366507133069893); (8752321192777767406,258949094210669460); (8230059537396664221,263268287906972516); (7699426571673554020,267319694898285560); (7160962035714311826,271099194243677516); (6615213635607551386,274602941576632274); (6062736486318234132,277827373015383118); (5504092547045266578,280769208787950932); (4939850049617415055,283425456568198410); (4370582920508948798,285793414519506585); (3796870197062912810,287870674042977434); (3219295438515824286,289655122227366990); (2638446132422874547,291144943998256782); (2054913097087397220,292338623964277409); (1469289880602427913,293234947958506243); (882172157115626923,293833004273471314); (294157120931660888,294132184588505134)].
Definition hint_99 : list (Z * Z) := [(18441356590540040647,6912674275677359); (18418363644243492221,16084702673315853); (18377021628526719725,25254292447596858); (18317362560835272707,34399889447674938); (18239444784050977656,43511433173999680); (18143345699105392932,52579674880444348); (18029161009890396419,61595531073927859); (17897004501478465280,70549999561428882); (17747007893101497893,79434148298517943); (17579320695672459791,88239118626688086); (17394110058400317101,96956132189130886); (17191560600270924736,105576498940757221); (16971874225105393152,114091625492851005); (16735269919830435106,122493023530948920); (16481983535932455420,130772318202203269); (16212267554209575243,138921256424540207); (15926390833006012020,146931715091853272); (15624638340154193817,154795709158783227); (15307310868878100717,162505399592896879); (14974724737933367131,170053101184179750); (14627211476278615912,177431290202883092); (14265117492589698584,184632611897429135); (13888803729944645942,191649887824514745); (13498645306022517629,198476123003875701); (13095031139174144250,205104512890437712); (12678363560737065397,211528450156814989); (12249057913980822777,217741531279338242); (11807542140082187954,223737562921009536); (11354256351542894471,229510568104996441); (10889652393475002891,235054792172494746); (10414193393191149174,240364708519009214); (9928353298548604182,245435024103326294); (9432616405507296101,250260684723681624); (8927476875372708989,254836880055858888); (8413438242204859901,259159048448194997); (7891012910884364727,263222881468709713); (7360721646335919764,267024328199825455); (6823093054418343245,270559599276395057); (6278663054998630004,273825170663011409); (5727974347735265174,276817787166833015); (5171575871103311465,279534465682423312); (4610022255200522270,281972498165368831); (4043873268879932667,284129454331711747); (3473693261760036436,286003184080505733); (2900050601668763731,287591819637080085); (2323517108082026030,288893777414875526); (1744667482121587964,289907759593995684); (1164078733680455509,290632755414900594); (582329606246833545,291068042185952624); (0,291213186003810401)].
Definition hint_100 : list (Z * Z) := [(18441463264764066981,6775807217039067); (18418925473107654299,15766364400463876); (18378401372303935605,24754842220991454); (18319921546748631722,33720290312139682); (18243542031939882898,42653023400798870); (18149337193275385384,51544150580829345); (18037398988886298397,60384941268256443); (17907836755910679443,69166742566778731); (17760777070730102288,77880967996140630); (17596363614337716250,86519100327848423); (17414757027686694032,95072698030466110); (17216134752866996801,103533402791959952); (17000690858838058350,111892947375012685); (16768635851348715755,120143163549561109); (16520196467005335512,128275990001345583); (16255615451587745880,136283480170197246); (15975151322780494915,144157809993273811); (15679078117526187485,151891285537572446); (15367685124234317806,159476350510215865); (15041276600099744686,166905593637058090); (14700171473802665557,174171755901248910); (14344703033877977312,181267737634034889); (13975218603056914852,188186605450490553); (13592079198898154754,194921599023176569); (13195659181039325465,201466137686967445); (12786345885413160468,207813826868507871); (12364539245785408450,213958464333959509); (11930651402984093486,219894046248896949); (11485106302201805031,225614773044407399); (11028339278764391560,231115055083645887); (10560796632770728515,236389518123297950); (10082935193019124117,241433008564605575); (9595221870646407789,246240598488820149); (9098133202915806979,250807590472158364); (8592154887599350381,255129522175553591); (8077781308409730450,259202170704716066); (7555515051945307107,263021556736240192); (7025866416620229605,266583948405726254); (6489352914059486689,269885864954116677); (5946498763446059134,272924080128683392); (5397834379314236210,275695625335342770); (4843895853289562187,278197792539217664); (4285224430281794280,280428136910612180); (3722365979642673835,282384479213813609); (3155870461805232756,284064907936387284); (2586291390925772399,285467781156883726); (2014185294053558130,286591728149133066); (1440111167356665631,287435650721559138); (864629929935291595,287998724290204539); (288303875756198768,288280398684418202)].
Definition gauss_hints : list (list (Z * Z)) := [
  hint_1; hint_2; hint_3; hint_4; hint_5; hint_6; hint_7; hint_8; hint_9; hint_10; hint_11; hint_12; hint_13; hint_14; hint_15; hint_16; hint_17; hint_18; hint_19; hint_20; hint_21; hint_22; hint_23; hint_24; hint_25; hint_26; hint_27; hint_28; hint_29; hint_30; hint_31; hint_32; hint_33; hint_34; hint_35; hint_36; hint_37; hint_38; hint_39; hint_40; hint_41; hint_42; hint_43; hint_44; hint_45; hint_46; hint_47; hint_48; hint_49; hint_50; hint_51; hint_52; hint_53; hint_54; hint_55; hint_56; hint_57; hint_58; hint_59; hint_60; hint_61; hint_62; hint_63; hint_64; hint_65; hint_66; hint_67; hint_68; hint_69; hint_70; hint_71; hint_72; hint_73; hint_74; hint_75; hint_76; hint_77; hint_78; hint_79; hint_80; hint_81; hint_82; hint_83; hint_84; hint_85; hint_86; hint_87; hint_88; hint_89; hint_90; hint_91; hint_92; hint_93; hint_94; hint_95; hint_96; hint_97; hint_98; hint_99; hint_100].
Definition pow10 : list Z := [1; 10; 100; 1000; 10000; 100000; 1000000; 10000000; 100000000; 1000000000; 10000000000; 100000000000; 1000000000000; 10000000000000; 100000000000000; 1000000000000000; 10000000000000000; 100000000000000000; 1000000000000000000; 10000000000000000000; 100000000000000000000; 1000000000000000000000; 10000000000000000000000; 100000000000000000000000; 1000000000000000000000000; 10000000000000000000000000; 100000000000000000000000000; 1000000000000000000000000000; 10000000000000000000000000000; 100000000000000000000000000000; 1000000000000000000000000000000; 10000000000000000000000000000000; 100000000000000000000000000000000; 1000000000000000000000000000000000; 10000000000000000000000000000000000; 100000000000000000000000000000000000; 1000000000000000000000000000000000000; 10000000000000000000000000000000000000; 100000000000000000000000000000000000000; 1000000000000000000000000000000000000000; 10000000000000000000000000000000000000000; 100000000000000000000000000000000000000000; 1000000000000000000000000000000000000000000; 10000000000000000000000000000000000000000000; 100000000000000000000000000000000000000000000; 1000000000000000000000000000000000000000000000; 10000000000000000000000000000000000000000000000; 100000000000000000000000000000000000000000000000; 1000000000000000000000000000000000000000000000000; 10000000000000000000000000000000000000000000000000; 100000000000000000000000000000000000000000000000000; 1000000000000000000000000000000000000000000000000000; 10000000000000000000000000000000000000000000000000000; 100000000000000000000000000000000000000000000000000000; 1000000000000000000000000000000000000000000000000000000; 10000000000000000000000000000000000000000000000000000000; 100000000000000000000000000000000000000000000000000000000; 1000000000000000000000000000000000000000000000000000000000; 10000000000000000000000000000000000000000000000000000000000; 100000000000000000000000000000000000000000000000000000000000; 1000000000000000000000000000000000000000000000000000000000000; 10000000000000000000000000000000000000000000000000000000000000; 100000000000000000000000000000000000000000000000000000000000000; 1000000000000000000000000000000000000000000000000000000000000000; 10000000000000000000000000000000000000000000000000000000000000000; 100000000000000000000000000000000000000000000000000000000000000000; 1000000000000000000000000000000000000000000000000000000000000000000; 10000000000000000000000000000000000000000000000000000000000000000000; 100000000000000000000000000000000000000000000000000000000000000000000; 1000000000000000000000000000000000000000000000000000000000000000000000; 10000000000000000000000000000000000000000000000000000000000000000000000].
