(** Certificate: the order of P-384's field (circl's group.P384) is prime. Found by a program; Primes.v checks it. *)
From Verif Require Import GoBase Json Primes Toy ECJson FieldCerts.
From Coq Require Import Znumtheory.

Lemma prime_363557 : prime 363557.
Proof.
  change (prime (0x81025 - 0x28400)).
  refine (cert_prime1 _ _ 937 1 2
  [(true,0); (true,0); (false,0); (false,0); (false,46); (false,7900); (true,257939); (false,61533); (false,48567)]
  [(true,0); (true,29924371864); (true,56954887060); (false,266466); (true,79181469826); (false,187113); (true,58503103611); (false,39656);
  (false,262522); (true,78644604732)]
  160772 (prime_check_ok 937 eq_refl) _ _); vm_cast_no_check (eq_refl true).
Qed.

Lemma prime_532247449 : prime 532247449.
Proof.
  change (prime (0x20020421 - 0x489088)).
  refine (cert_prime1 _ _ 363557 1 2
  [(true,0); (false,0); (true,0); (true,0); (false,0); (true,66105); (true,89664350); (true,955476287); (false,43644033); (false,34893381);
  (false,443160911)]
  [(true,0); (false,6043623); (true,2193823517457996); (true,19288653059852564); (false,88326327); (false,1904486); (false,455757450);
  (true,22673666205800730); (true,18587642307900329); (false,148034); (false,1117382); (false,4736443); (false,223726582); (true,1386618725986432);
  (false,95439936); (false,19662513); (true,13116730881885670); (false,172419992); (true,21246403109081047)]
  202966419 prime_363557 _ _); vm_cast_no_check (eq_refl true).
Qed.

Lemma prime_44925942675193 : prime 44925942675193.
Proof.
  change (prime (0x290024000001 - 0x2401254908)).
  refine (cert_prime1 _ _ 532247449 1 2
  [(true,0); (false,0); (true,0); (false,0); (false,0); (true,0); (false,107637213389); (false,15970788094827); (true,39142792445407);
  (true,48487476265303); (false,22108970468866); (true,2293650223276); (true,4685842463226); (true,32675012328601); (false,33785300134515);
  (false,3697351475791); (false,23831589105712)]
  [(true,0); (true,16264463680842128396751687); (true,196669690402107617392709119); (true,80404111696556406570932874);
  (true,17594212546718192028108446); (true,153103077148879165487421467); (false,592663260858); (true,101253560365934136472658854);
  (true,71759680961153514367697779); (true,83221106249571339890374421); (false,20715366142004); (false,10571900548374);
  (true,148181474691448431666586596); (false,9368876289668); (true,20495614264759517074354697); (true,4213289663639230108247309);
  (true,1599858826046129195824460); (false,12724868561654); (false,5756888234); (true,895644890944946726168248); (true,18634983175811405363885817);
  (true,53080500430514483456818160); (false,1055840777424); (false,35522156182463); (true,92770005981470114673759291);
  (true,194696789218132873751797546); (false,2762348291879); (false,14578774673982); (true,293065733448959613335670043)]
  29404327213793 prime_532247449 _ _); vm_cast_no_check (eq_refl true).
Qed.

Lemma prime_35581458644053887931343 : prime 35581458644053887931343.
Proof.
  change (prime (0x80900000020a02a1410 - 0x8020112a0204004041)).
  refine (cert_prime1 _ _ 44925942675193 1 2
  [(true,0); (false,0); (true,0); (true,0); (true,0); (true,0); (false,556667); (false,7922362362609442933236); (true,22511291094603770019250);
  (true,44466586013030746671212); (false,18061972167864684408785); (true,1496485480322782891180); (false,155993735945188907857);
  (false,13786389022935518194629); (true,2769112824889103432); (true,13771362908070375204231); (true,41834562040881137424501);
  (true,589271145828370400519); (true,47448762252086997261581); (true,318591776408008427857); (true,21616081352969196747948);
  (true,22234833823125177545322); (true,7801864566547764036100); (false,2021161873617587084386); (true,52160446935320163284390);
  (true,5074299277815424643722); (true,3372764609435239107225); (true,37228206894823814633045); (true,3989714138555281374697);
  (false,15178652409664363356538)]
  [(true,0); (false,16344076927989148343871); (true,174582343336077113005671237416511666646221094); (false,23182439069308868324005);
  (false,19582279019911598202814); (false,15508005527227844806707); (true,91282193821529257565301789721153040312418391);
  (true,394894659116972071355751334541102214019975863); (false,4071480518184301192841); (true,313837753265757890117395060184979377450334079);
  (true,68245558751379196296697607305180470318466637); (true,17234412709043938278121275651815254018010618); (false,28151646197675535786400);
  (false,3223107619244716371951); (false,6023626672269905808629); (false,14385956859305425921186); (true,794657317248964795375742426156460843529353023);
  (false,10111793578898113759334); (false,23205978712514854253473); (false,1984360703825531349105);
  (true,698197977727273967298344258493429219818365951); (false,7056227816375267924849); (true,186965164155881856587774648999807234135485013);
  (true,43216887513357072214055053988769980445582104); (false,431308739037243625677); (true,546471243513510375986250827311524247598381321);
  (true,817653036220954379232278847106647841139864696); (false,28024455068478312583513); (true,271809419035367308740318776454488881204024334);
  (false,352723800195997199770); (true,340438512464318942791222313268463201971197982); (false,344082939648335344537);
  (true,407559788922527584636659744853046674692088602); (true,418475690734191971209568575051200783738760305); (false,18341052674400356441867);
  (true,215866922815793980837940627632256522536510039); (true,144046594369318889021367047245590068482305564); (false,15272002419434271608681);
  (true,255991520484476157744749968169921904390377826); (true,810656765117902786173273731044893903745168126);
  (true,747120210302086515469224744067356152618452738); (true,14609327102804697565633874890592053362832797);
  (true,233873889802411957012819541534849891170365655); (false,14863710610011934839620); (false,27271699490582291519367);
  (true,324179242975665086440089913514316694110673)]
  35517264014749958086007 prime_44925942675193 _ _); vm_cast_no_check (eq_refl true).
Qed.

Lemma prime_23964610537191310276190549303 : prime 23964610537191310276190549303.
Proof.
  change (prime (0x500010008010405084404540 - 0x29100542402100010041009)).
  refine (cert_prime1 _ _ 35581458644053887931343 1 2
  [(true,0); (false,0); (true,0); (false,0); (false,0); (true,0); (false,0); (false,975773262035874129632); (false,9127642047489779181965396637);
  (true,1430749611970465408290697882); (true,7558355829493628450011300234); (false,15788775246578521737155354387); (true,32952097450965075402999406529);
  (true,21444165444942403021933805799); (true,3793010769684992628707653659); (false,8014861968684637851930216215); (true,33849428241479549623856608068);
  (false,2777263037543505129292477614); (true,782664814746204815219400580); (false,14045382463192295303724870022)]
  [(true,0); (true,7323961934797975423640040635642960096676723567419216); (true,3976426758463306715840440711092784968390765791483462370);
  (true,9732822664144408815003483533897544938102272462541142); (false,10399039393098805042315723617); (false,14045185163557288308207383153);
  (false,177666928692709923860350746); (true,2563410450595876447999689653850380505119324314181588273); (false,5491365070067096421883272563);
  (false,10117003009373614484197296734); (false,17247361328531812186639630678); (true,726357247308110304928007137376420441501121866840444711);
  (true,1312360031320258196901926046822851230058538522547017610); (false,30906801067946612353113812);
  (true,9665785755017994625245101624238438069747155304328475857); (true,1970895186558526977016186111929065606528277223624903505);
  (true,435792027469148879923193827116505381922779089589764854); (true,2081345468247445164736848478786092220566043200741065332);
  (true,4898963429659446516232082801783138196334324027463218701); (true,2959498712776502963312215653140387314103417620786700044);
  (true,2823251912266555422101315024461558726938956617033778441); (true,13095270727763306405409643940405269654209992008607814411);
  (false,12750568886337136247139701113); (true,5195604181340501116747505152403646311761321169903156658);
  (true,4120655229999732659845177988738757132641427004421734080); (true,8749888586311518228800818866586632017311987613012332772);
  (false,3267520734316007703710942796); (true,4823543172388400298716761989457691018207656913080061083);
  (true,25602306970008698242965258753316353043526525330537672); (false,206012962596725453644184359);
  (true,3260738158794793867859649264099438636014776716630478312); (false,13989395337096409138799973);
  (true,5530037268763118641511195860609378424770658879566612831); (true,7066585947357326784504793615562294685347959834164156986);
  (false,2705734617382324728428402654); (false,7333866197871071940962761473); (false,519408221845696338729656564); (false,7273591322146237363213114351);
  (true,1057202507755235709519472175597297592603473974625397278); (true,41689473359557024390583043646377816164656806831606646);
  (true,788567730311247789786357174166936194100477105006764); (true,4182457181837716097247358302192297120827671539919009359);
  (false,2850462718276747448112587483); (true,3785399456200234045098821263054567079205742354921440279); (false,1045980012477300599981693695);
  (false,398649966950677598978720449); (true,3016827831599095585481011739756935737409254211278178017);
  (true,7117889567851699531261781996577496531906767278820103284); (true,1399703999896465345407307916976655621852928400091154234);
  (false,11262142377812218974493338368); (false,2490507627519213988442469337); (false,11002224899243198242055544295);
  (false,22032702733810930446000638697); (true,7113162907808925476481247709802910009057146811872569408); (false,1756904718202758541996357519);
  (true,20555304784282924646651743840060731941138799944776936); (false,368900512614823195113613954); (false,6736891105821805636316810960);
  (true,790322018241689330768322638684854707988375458194034340); (true,12206449145460572268450589631335410228974514657793301757);
  (true,144402064681988851251228861021010570803271993556948874); (false,2586281308579611030599554242);
  (true,12927258094998006548154198591836400454064200632740601790); (false,10139436041325626338160631509); (false,690896827711168468202254503);
  (true,4223032399169662503342344480715509337787988933941481350); (true,1165694195163624187855114169812808554208067686522098226);
  (true,7040637358775385281566613062230512065140942883467342553); (true,348411944234634664986543547317783755863136286527145473);
  (false,21860902317002797223476375833); (false,13919949428135315206889622094); (true,393185781970507899127315588114364146446885310293638302);
  (true,18457327440590048991490519752526473684979313192931574); (true,10691869567623907077180263707711250017218414742580604326);
  (true,977572121424944510392941672332107780197650620766576033)]
  11061218665608777045505991100 prime_35581458644053887931343 _ _); vm_cast_no_check (eq_refl true).
Qed.

Lemma prime_862725979338887169942859774909 : prime 862725979338887169942859774909.
Proof.
  change (prime (0x10042044410200105080800001 - 0x5208210041001450028088444)).
  refine (cert_prime1 _ _ 23964610537191310276190549303 1 2
  [(true,0); (false,0); (false,0); (true,0); (false,0); (false,0)]
  [(true,0); (false,0); (false,25849163851098); (true,43722708227286838251907300855913463115918); (true,22633782913331723749444016021141025942011);
  (false,149472879613860887402771548499); (true,49545849750360019234026723260430256278258); (false,26239697952643386272391686661);
  (true,783165456352787415223017315697438176890); (true,36781422431464241856373854764437351163697); (false,149953306586389797869302973836);
  (true,30489548865441863132918681726761576365711); (true,27447283701388586072645186874849806766465); (true,1229676806896689440936547464696339469072);
  (true,35666258295062936975182509596564505301161); (false,55893678129961919950680244875); (false,23935512019369901516823834089);
  (false,2891018903652819599671317426); (false,171795450106015097073291974190); (true,3707987725906440055965107819146826638855);
  (true,52516263154284097281590541154527647016722); (true,2336453018437025550542348124987720231); (true,21216733029625285745769983472320626457856);
  (true,24751525740462713451124606252167213387534); (false,755781727567709485917065368393); (true,118171090269955852784403805273069274171);
  (false,12639566132394934567605921020); (true,18352976929823787771311946284442744009369); (true,349582606944016252254042687917317224899);
  (false,326394419323335188531612168518); (false,13636889617680440975919969170); (false,58733234125316904081277283693);
  (true,303777553724228220072250425268504040267); (false,726913470554217353868377136895); (true,22469432257238612973616397915000636588932);
  (true,20100831395808652227263952496612410881920); (true,10739385521712049280784951574846685713108); (false,464683643587849797067728244200);
  (false,745924686079892128008826762806); (false,3276971152514257356520073371); (false,148439604022101182418765734169);
  (false,226520179611258548156735058581); (false,328189207331265957959590894197); (true,3820959675320767747904938549678012272011);
  (true,40057251518362646055195183517697650337462); (true,13268398360872380686782917489578127084458); (false,112683815058833196707376168279);
  (false,824917022676513729553631410051); (false,125974856438906350234842002864); (true,18225539378918406059761845405186913320);
  (true,39233973208727639541448190625342165719546); (false,261538015827435574280000601741); (false,255545315100044881415129989299);
  (false,57902871385547366654403060882); (false,189204283827326081302277105708); (false,10490651070090454351246350843);
  (true,844125916152169733228643524270960692383); (false,1117451434359438677482649304); (true,1094058739958290677209155314514353337967);
  (false,221345726681880655258489288710); (false,138356246065328928951151961158); (false,390567422950853400513471930167);
  (false,396053725451297860852668935212); (false,441089149088416944087523091848); (true,13137693991251291151885821798772593647141);
  (true,4306256029390049616764298079079704203307); (true,4575829567247654593753421788161925503694); (false,490212515053550019683267093);
  (true,74133931196326523747589278450406297825); (false,628344966890577834134226765218); (false,413399390632728937199567055066);
  (false,517965043580807035530418309691); (false,733642146368872766781338370894); (true,9474414358464012678878222454692395136629);
  (true,19227797740440579376996237757954917047846); (true,58965408856061694061782887222687057360909); (true,48668227548198201717288321214274853725331);
  (false,772120834534273201175217151309); (false,55379184678438138843099078719); (false,437634678963213847131450650429);
  (false,815383397963208070344739191356); (true,10625122594979312459007810384148336677003); (true,53510231750894686730729401425452852822038);
  (false,242144478480651259171865838159); (true,49601182857046331666336637674477397570568); (false,128753347769969029570467467926);
  (true,37668109031324559806884669226861496461077); (false,158385134797660036013354354488); (false,752149089691864756748590188704);
  (true,14563048903835204399045756134060417791878); (true,675941896547609713369182518352743839829); (false,285716418707796076960512251471);
  (true,30679716528915437553123605839046828256319); (true,2983116311867508333922066376373320667240); (true,35427838912215633761627036133770479331435)]
  588271051527035419826800423821 prime_23964610537191310276190549303 _ _); vm_cast_no_check (eq_refl true).
Qed.

Lemma prime_20705423504133292078628634597817 : prime 20705423504133292078628634597817.
Proof.
  change (prime (0x108001508000004100850442201 - 0x2a94022495021008005108848)).
  refine (cert_prime1 _ _ 862725979338887169942859774909 1 2
  [(true,0); (true,0); (false,0); (false,0); (false,0)]
  [(true,0); (false,0); (true,64197); (false,178613850624110675789047501673); (true,326849937148878476745050554477703013077);
  (true,74788350725438821759081822797812305824); (true,354153205447805685112775894843760848); (false,16092895509835988199600467284818);
  (false,3633985366310519679062237551310); (false,16582337082305941213254590618931); (true,340520201668066678042284740484485009426);
  (true,109857284106877673807544682771651112200); (true,323980195565652382773737136324344145303); (false,810295783334111085694125706069);
  (false,13797994425585280453838196012005); (true,41217067167218547107815386399953951118); (true,80231917545789209435384538684154409132);
  (true,181395649121080413856726538925306899367); (true,4295290829504913018881663341297089391); (false,9414390347180105239674347450260);
  (false,495926528019898669305866643425); (false,14023578181175982630887367961381); (true,124758833125156197161762832979526020465);
  (true,251856574617399656471380464889125105672); (false,5948338197139113718498575082848); (true,209945136230256343694017811844233900519);
  (false,11519031294306859475062924235029); (false,4435712855788642756596495311764); (false,77162262833025573619078432829);
  (false,17554127078628661337705024875620); (true,11135263195445015339491232724435841481); (true,251623842065740886746715416846161416769);
  (true,200694768117587025645946732353989882866); (true,30565469220319914356399260784422059483); (false,512419485289858942916231618633);
  (false,11384491965935792101258347891491); (true,25814804416750784460712364509644154474); (true,22201107430724325977855054457893514186);
  (true,158526472515180657973869650243741248389); (true,127929935699466058287282784071773711166); (false,8432676287122911404290006590690);
  (false,806288095478418589095172173352); (false,3024388475074323354967518289644); (true,63318363210734392814284181008754156533);
  (true,192413610490893194795628862614732192896); (true,40269183163319946919561239600380620684); (true,63236803698984020632204028533696380676);
  (true,326516288875738264978989743317623584035); (true,131257007868119751688431255840401837610); (true,178739259328556787359306059159379794599);
  (true,238566567136218292206181352496131425); (false,7459095900566615686516933067449); (true,309362357422570610502451140910388978151);
  (true,10695849444063772630417228032635936273); (false,39240999668805161967887896074); (false,17687451904821546483116404372267);
  (true,41964771685541334132634420624352421318); (false,10174684033956805871638301152384); (true,11461567645726557044453246526936521192);
  (true,72854707545801781625453939091957119967); (false,6173503887754792619302159270959); (true,159581269625444439206547497358384098);
  (false,7734177323781295516593025298714); (true,130584796261415406904387209251627619189); (false,3505162257795172947039553019782);
  (false,643751584120263329225062591386); (false,15770324329879035860707537480747); (false,9789146526666368553612020996208);
  (false,315285130533675620510956709834); (true,200083566085285058435388578945837372828); (false,898088536369983023086549709539);
  (true,105622822258338300148098762427658896645); (true,155123696377338964670223629102387202154); (false,2490952173175576069940028191608);
  (false,4980087564002236184904617968452); (false,19778489270681628023846839595994); (false,389581705252648906512819674738);
  (true,7287136124691241619493839203763251078); (true,4483777571809867921762366545459158621); (true,16795234802869785610374423923109975990);
  (false,950490146674410002819833290883); (true,97723866918541885575129433676876188885); (true,759563095682905698488367952506931598);
  (true,196565217597933706984699120543744988281); (false,4285877932604806273745515790292); (true,295784182166740319666747051071342247650);
  (true,93870629950424332879968701667610228674); (true,28819545181911884115851270632445483146); (true,187660055865245811039387849574984812940);
  (false,7311832458927015745921806798117); (true,244590155377519559502786475997022109); (true,313439456522475755764500161866702895384);
  (true,1564564382214986506274306734519908170); (false,10301354525742167397193305851204); (true,9418853063748016303763757959751407201);
  (true,286717466997819105615708427796091963128); (true,236715605653043354373117091215267127090); (true,209760294455236731413324266505393563021);
  (false,15291480981446095834436430580663); (true,16290385344923446075410572213889885047)]
  9528120837126448207374882683518 prime_862725979338887169942859774909 _ _); vm_cast_no_check (eq_refl true).
Qed.

Lemma prime_413244619895455989650825325680172591660047 : prime 413244619895455989650825325680172591660047.
Proof.
  change (prime (0x5008004080814051514222a000100400010 - 0x4215514001002040000000451402054401)).
  refine (cert_prime1 _ _ 20705423504133292078628634597817 1 2
  [(true,0); (false,0); (false,0); (true,0); (false,0); (true,0); (false,0); (false,863); (true,159988207620484231889256480409892069937279);
  (false,15705630881328726925253611044830745507655); (true,174867064431782718112505983740996024144595);
  (true,89621925567759195123346773144687960576936); (false,14332414610220232821643362993273746619206); (false,214304484655336997475972431613563074886);
  (true,268353013018801502338189011170548715773016); (true,302973318880430545078355547885990807417238);
  (false,170360786720063245558594094840508454809641); (true,396514481857689387531775736278624510078361);
  (true,229020918703998430475389980301039358989649); (false,66028900937758537930441299269681946998400);
  (false,354329500528658353031041222440613680907248); (true,227865582601936554147362499638710221094968);
  (false,60232675348828727586248274726678549207932); (true,115593745876920375433198646792676979630652);
  (false,7358027955561353572152075032434254589149); (true,48428020442301816341192012017518161168564); (true,159049947300992272909178286341639627884425);
  (false,107404018024594422803086598378713026916626); (true,17905150966722410901317846361648703748437);
  (true,339987337434012087354581076876667177158323); (true,368299644555450782563938914513482981127129);
  (true,42259128054893791991747427683145724996733); (true,519485378080403231656331184882078392082052);
  (true,268943378657619057572329111091100152551451); (false,131570695642702878650239665304571602813302)]
  [(true,0); (false,70286941827088557226987741792601488385241); (false,236047649997129991861845010617370683797828);
  (false,237937442774675945892484838868900251219914); (false,16659942174739855832422654339958813701076);
  (false,279830821714662778987260481410193437652586); (true,12033377756652882104574724773251480557472521462514873311922904927747103893902898265);
  (false,244255691959052275444479091754359214807525); (true,45053558043679041032063864865689636042023394986443341376788818349345973796989408618);
  (false,168818504918922130040126084527221073511298); (true,51709258091562056269646130211805152040433355962883669876699428069017048279456935920);
  (false,83192889973907898065914283495818273200); (true,9296463550318376435355797802308817925379456090934628715790150093662951977656036295);
  (false,237337965946607092904673924789776284088903); (true,1864609630514588150008451951741610851303333678566675190158286466482498970452125538);
  (true,3988973150399232415295208801535486183659230808203592691004722243761046749950816508); (false,603069869356909467033584962603831547747);
  (true,17307740258548799966604134696808449589135665520913771210540577924307378217995432515);
  (true,17218320968997258082049886172435022544959930197515512081364994989417138489953893215); (false,55913918746811065409191838154115049738043);
  (true,4657114641240351025197046902505555520334772737789199265844331790564598808394184533); (false,208459547462745483916307595507605707492153);
  (true,10510750970227047368464549962336641224348647629820367095603669663727188399437317245); (false,148449531104481471337659580157557970172829);
  (false,403232604018637046020346356807719283565015); (true,7113334510939622708767826724007741487835048432981264218708433657787723991700157227);
  (true,38689211264413537819084411089802126562866389754485613090589275757031023931617863888);
  (true,13196876471456557703797053323195647417911063455412081052896979634414513270246695307); (false,145520255887716460054279457086813958214);
  (false,79627338832939801316416096341180533746222); (true,51154610689927505559709592245518365478063898739257152262986609614491143029225630935);
  (false,255726111856594687303654143332709060221381); (true,1715264166350259260084179063707385710616049850091003237140561949748473319028636962);
  (true,3739475267250969626449080088341788515907578489203869712997976725773834671440963741); (false,46319041731167233710841118599794552100508);
  (true,61495099045719597176023480097390164905559112421884941141151162583925885270065132496);
  (true,30329495924412319931530286763872238737712138287998881850799065685736797095031371435); (false,44622388930332948119411732867171977529442);
  (true,5036363688539746926432283465085365736008030499377378261754278706754580133373400755);
  (true,2879475107283517936356233219643453734890220093008330184382814118861015297672912790); (false,236612085897682113562371755592083473827034);
  (true,25528347167011502611547555598538138817263774034179103802726527909043838975150596904); (false,8229871926966730625652889381938714780);
  (true,59050797270636931578014474174318651438497231309209679572604437177808068749588118493); (false,226286573304892819156811276125720249936526);
  (true,43007247947940771361294117949277769400224636793176273229630999500705541239791552386);
  (true,23965120234539165022509816905884416420128440194908899090052826035131556928563759429);
  (true,42798737851311337121976364369280658347973042295394749314895905301305565623476631615);
  (true,15651546221851406918709224421970882094517706511364573206121815866697914171798586);
  (true,13422650799387652900532101034582612337173923727214851353973130352086564704073714038);
  (true,19628272687803798195824150581722345672672525623451905996578700748353511360621290935);
  (true,5290176760362361968708506411406585808032039694067290843435282195807715706853195063); (false,139220605768927886919268620452691082897615);
  (false,103397045888961261515724517554715200170435); (false,13778473686170883309164866952599948294994);
  (true,2393127091726769182698556055766945904517052293540432025689127195532691979220834663);
  (true,2384102870624222477669405780485962496707780182712343281413633907609688436880928172); (false,17469488303403008691804614487379634756141);
  (false,27904651709812543715034178817429708529370); (false,29521991300963749414945813787446355139870);
  (false,9184734501753822246585702469712460262280); (true,19766316847650310087939957892662916921878100634656123981445549435964273070690275282);
  (true,42096058629063813026044314685906159804336843742868363621657373952306084102634609452);
  (true,56859496559795024765639842930763709285975941618489714332122656995237204645418693588);
  (true,50623471331030026470314279464791280020378192089675373584144862525692029905225253982);
  (true,66921498410471311628350252432072348964600675008274334887484120240036984726420157367); (false,360177564147473241386348892599469130144280);
  (false,98500556773765844190268266603891384454736); (false,927284507160322409706894649054692736);
  (true,38663781261288677974926390970397578476946280148187446679992550658772275515767981119); (false,4031817371379347492176702529187054578447);
  (false,40916125695819125553087132950198701361723); (false,96268489592902245480401939542476452943804);
  (false,256159686044492407231062054825889745047588); (true,70393517133507458624158606653053049040729506942057914620277666170094375960802471385);
  (false,248566166755757546822229802615585457731019); (false,53468536094560118849304497706450185901397);
  (true,3457043705956795921862841329315110297235870766382562881341356016808998798774263); (false,11625216889321805698128480685366806507581);
  (true,6786519099247565302168208316562671047708614991838387251442198818937447263656828494);
  (true,2361653595526801390645610575276793128838078520389703506232277172999301426679046412); (false,100563084085634588049806248232398224000433);
  (false,114801928148746729530636260632906337514618); (true,38520366432187497265305574950971538844381373688208099732269136774429350146902708024);
  (true,4657992295452322358665762653924257065152385211642186787956306111311078912347428760); (false,183907612717713935876107654063678196656769);
  (false,94297305794016074528183488387318896508287); (true,47729162922107635827382890338357109368948171036478926689007509437196189502928872859);
  (true,48222198982701896159157979872917967160151731129511563442829276871667143550363483787);
  (true,101392953068921077619857514493189199677593709233898812041310036730139969286485553); (false,455784357432202884299787290171950592589);
  (false,1406584113326242825611116257774476327408); (true,703179097894955165560519120023696883686336583885377372440666831422330987340245783);
  (true,11261623855509310367178090241691798639133939010255860101519815728854714002184273103); (false,11775649502166246930387169474263007429189);
  (false,345183538206907663276740109291340672672261); (true,15886166533363887538438027585253958640648404596877457985752240925605744843080055419);
  (true,49563622477509161201045375240939145769571023755198505444757937700591331872919043160); (false,406087101890868062607165452353827822679080);
  (true,17036775419157087102160023334625109530391656703696994552947419386031731906121297543);
  (true,27128824679400069626429056273782701054089150229812857079875966121763074383636358716);
  (true,29329116772544320937283962604671522241923842618851657318207902911880264157908307170); (false,105503855490488875936360499163630326008688);
  (false,90313530968776316545358165609710467509863); (true,13776404007003521030423238660501561105103725628197892591906965778607235739103099217)]
  171692952802543298859116009854306306676002 prime_20705423504133292078628634597817 _ _); vm_cast_no_check (eq_refl true).
Qed.

Lemma prime_12397338596863679689524759770405177749801411 : prime 12397338596863679689524759770405177749801411.
Proof.
  change (prime (0x905081040114551100800104080810020a04 - 0x20000109040004008240020204245200041)).
  refine (cert_prime1 _ _ 413244619895455989650825325680172591660047 1 2
  [(true,0); (true,0); (true,0); (true,0); (false,0)]
  [(true,0); (false,0); (false,0); (true,153027811190389909824982689551612186122); (false,3113962549172582456491588730724136286965940);
  (true,7933320358248013796389074612479099462465731415256102); (true,2809694686583505726324243042336707134784834168097141);
  (true,7022012171487418844950361064978695216301332706113657); (true,1664656751850906091291986448353269181432340122201702);
  (true,2285006283563707325173780274922759422431053311466930); (false,9584690326248596304357309024355356949507951);
  (false,11984433552281014761946546079473881341370717); (true,12333380604298556948470774972884715146713808677827734);
  (true,400657334752222455709089648528819213486860082184262); (false,3551091058103181072557468121675460161059723);
  (true,731662983370273277361301882532949577434653983726); (false,7713029924119559060905969714775635058408498);
  (true,3783659462728382403736141991244168835395807358863); (false,1697369569310313451239284282863436296310834);
  (true,8125735290337416737908716860481163924034886065561269); (false,4140356524063708776941580328541670376499);
  (true,10361273597319192009824605688274916246577144575560513); (true,12262509077389840400452428600568457824026584966540564);
  (false,1025796668494769031868594238153704482180817); (false,5937630139354607339692509888510344436804221);
  (true,643500957015707127324656340981032245442353547340464); (false,420032195728784116720392612642166752298290);
  (true,5933932837308285334735485743203803657852494670061660); (true,1337939806017911113407702595436154436311241703206998);
  (false,7961625073902205713995154945807646336560504); (false,12038994633901920290380965772538258780067361);
  (true,6226713248218386569033585433517335363008363967314125); (false,1348654072013635559542412359900953825080423);
  (false,207306601548884534806433646543786814964237); (false,1336711258940361301167386102471004812221771);
  (false,10513842916019501561815291442753220073067669); (false,6044518294130285303031550280964206991559980);
  (false,6371798326875887453318913095453736759116223); (false,964497396551627085641981973226955329552272);
  (false,9904275663873931981591263140067306511882327); (true,3512723942050952250421310455261145343386102354469360);
  (true,276648512886093265963749266352561827163367491808451); (true,3081911935904662307466452415096153325166985772099472);
  (false,711557302715113374926637543228136464714629); (false,318563626205645335158394366656869878355359);
  (false,343590077843115480507580281634780802272652); (true,7244665698695769913645633245630414329336816556612389);
  (false,504855119033867936715971745417078922497151); (false,1398388200818017247114604720479621362829);
  (true,10095944451026533483526914044515919397102954261777733); (true,12268730599699718888098436554913440875721603009162184);
  (true,2009473096392073057627482628697284358266227698722211); (true,158677295139839381499529235317452174465809273660717);
  (true,46808415463261595831220582018184333757819747796816); (false,4255539856703090151011644244014424917679478);
  (false,1090116807530997513245882714008863189696900); (true,12146138780643445350585759537638277657498129431515457);
  (false,1208204406133926647371315927069713813885268); (false,4904768273556261248918035213859870749499124);
  (true,5861208200530186997632931189813104096234340685239784); (true,1263229322345091983080617113118786874709049550981421);
  (false,881063634463303798667574310134269523885706); (true,882514833390363514856252646397000872953689150443354);
  (false,61076416704176822496185051866065072463634); (true,3637701711707441769694283572314946832546358615198546);
  (false,11337184428659552074886093250406844251781892); (true,381152126434046344568569056523194672039930372574579);
  (false,9437677669042840142672664281920373620022028); (false,7008397397774658421590499159588530120788934);
  (false,127558043960201453119198385335783487824174); (true,4396313968934266304286802667140597591183349740409961);
  (false,3791613914405636975266624823749192231279744); (true,5456480323135105629202266994993085707931407103706927);
  (false,22685326270357059124546543372139151699083); (false,6599780566300656314338158829911336681077196);
  (false,344084722222644079636153470883184606325374); (false,1770838389637381070724545316074450372377191);
  (true,7498400647397980750951848881695075972845245517568930); (false,3090573512719520278742925119956657778154439);
  (false,64449387689295889796167278867806161582505); (false,7158082411458051818593600824398125032779);
  (true,5571160691269611557882006473666650095520312120664598); (false,37299334169407740652745008058470816721759);
  (false,12035431108564821022636310680990966401306266); (false,1461277110801281381491061097872566454444126);
  (true,3860171553308468529654947635537672997495745848079246); (false,3307583589270658517968906896551755832171660);
  (true,1178835801422775232989701136664121342925225070807387); (false,5261737899363803076714496423688067283447757);
  (false,319939003784083968301244120348135182203820); (true,4827286160117664349715460842090418460296420743880878);
  (true,2992587076806862119844957833287664196482122916391131); (false,3601670184353531798713633937837339269252703);
  (true,22350550989272387517917954044565286667416068043366); (true,9354216131242393637612388990209945290160101057677753);
  (true,4664290815686662733777635128963774982118899029382400); (false,28238126945253089277098064811874967487515);
  (true,2673718085166212990840938092831809231298360652296283); (false,2765847631009524496589342956978709378891588);
  (true,2579120043606117657459433763939563700981346362148660); (true,11013962574004627830737788657865008001828255813700612);
  (true,13101141419307953803602814719807424478016039693846955); (false,5817438663112666513415481348907527789544570);
  (true,6825374475985173557870296275437334407279886687850255); (true,8132678459010369180446477380816977862309992003863);
  (false,590115398943681694389586041451406689080343); (false,4295879285318065374969829545104189724336733);
  (true,4318985378741078501644936182850050858811758925835077); (true,1120632671979436666893382967207876729785843578874501);
  (true,12911786078879480281836526589173604457391378880496989); (true,2758658952633582196925774075248453488496132153874468);
  (true,1670381363071088820058861774817323483016009385374721); (true,7173499318626633857039159147841886888906585906968);
  (true,4623657942619695621329935553443257099717791357449222); (false,6070713320745852040219370165768219346161230);
  (false,10694057999644183613763566234212860782391700); (false,94664561120146005217981934018453568565842);
  (true,11123313195958494915751920057839781558781763674502496); (true,278324899555361310106157684102070496197558762737896);
  (true,2389760291669351594705821819633891387010691507753832); (false,12036116218110600265334957174464603329484261);
  (true,2871393985042291732520896668234319360810373408243114); (false,71290619145362473642737646640608259379199);
  (true,4042151901631212783702374719082842425017690969203549); (false,4698228533200852114411615729975673238553882);
  (true,13108571923820278660597859626400774284733052659884744); (true,7527602778570352274826865923475507485174725507696349);
  (true,1465555439977917796026377733441559519885025580678392); (true,39163174212986141601361963704450190962354135342688);
  (false,4539831688768702040848490033790418922330); (false,3014319271242991605760444623078503475524509);
  (false,11253365782173439785421865093678499405115990); (false,10583108788378259389283455513888430361162342);
  (false,3237430359400615719651868167197325382017151); (false,1973691427017792163003471933657394958529023);
  (true,7560698273313968303847661165164168886040084364000561); (true,3192377904908363795045716721064175814596937199519337);
  (true,9712573936780216251463218189552767077140137571022976); (true,1788491155415912107234842376013664781923858482450709)]
  302965702597983423679073862837973295262978 prime_413244619895455989650825325680172591660047 _ _); vm_cast_no_check (eq_refl true).
Qed.

Lemma prime_513928823 : prime 513928823.
Proof.
  change (prime (0x20a20080 - 0x2001209)).
  refine (cert_prime2 _ _ 599 59 2 2
  [(true,0); (true,0); (false,0); (true,0); (false,0); (false,8763080); (false,109400041); (true,660574); (false,398933098); (true,430931207);
  (true,161300673); (true,226489789); (false,12123709); (true,847585436); (true,259878242); (true,88365400); (true,16498529); (false,465167202);
  (true,801017452); (false,127417065)]
  [(true,0); (false,192); (false,67484187); (true,83293520556027); (false,431473547); (true,7358474222828); (false,311462307); (true,51789457381916);
  (true,88390704645090); (true,78378751614940)]
  135654522
  [(true,0); (false,0); (false,0); (false,0); (false,0); (true,16); (false,262182023); (false,25703985); (true,344322917); (true,19977415);
  (true,97854346); (false,158804290); (true,724455279); (false,6228885); (true,661520700); (false,173979049); (false,15511861); (false,259874756);
  (false,3249600); (false,77522066); (false,35810002); (false,115661112); (true,11021034); (false,437508177)]
  [(true,0); (true,26705288180453995); (true,66780671031329045); (false,219635786); (true,36082314663245868); (true,83019650677282308)]
  135259910 (prime_check_ok 599 eq_refl) (prime_check_ok 59 eq_refl) _ _ _ _); [discriminate|vm_cast_no_check (eq_refl true)..].
Qed.

Lemma prime_53448597593 : prime 53448597593.
Proof.
  change (prime (0x1082090081 - 0x410402028)).
  refine (cert_prime1 _ _ 513928823 1 2
  [(true,0); (true,0); (false,0); (true,0); (false,0); (false,84260); (false,8089980295)]
  [(true,0); (true,1707861187444238702312); (true,128204701118658051870); (true,113662598031029250875); (false,7509308560);
  (true,620759225958808588622); (false,593354950); (true,62966222118455415045); (false,26582911342); (false,488662802); (false,1402525903);
  (false,797159958); (true,1631485480571515431308); (true,2392986485197148079068); (true,1101928044125547318502); (true,1140261133811909095262);
  (false,40874851183); (true,529430553633408789485); (true,297087154918160972485); (true,1280551421604296358631); (false,32969820543);
  (false,587044630); (true,1089224385695945639714); (true,446686428385701958516); (true,691667022028047020033); (false,40350105750);
  (true,854728679455656505375); (true,2388555108214515681871); (true,568128795940503470331)]
  45748318180 prime_513928823 _ _); vm_cast_no_check (eq_refl true).
Qed.

Lemma prime_1357291859799823621 : prime 1357291859799823621.
Proof.
  change (prime (0x1400120200081505 - 0x12a0040a8224000)).
  refine (cert_prime1 _ _ 53448597593 1 2
  [(true,0); (true,0); (false,0); (false,0); (false,0); (false,0); (false,58372237291); (true,1157569538642703206); (true,2370042539726313194);
  (false,283620456260994459); (true,2085325579226075590); (true,1483973808105331715); (true,1290154856577976); (true,414075337103954489);
  (true,990367165379098487); (false,292194353499823224); (false,372859551701593311); (true,5584947064535308); (false,175447607701034501);
  (true,2442530338776763855); (false,1295440246858788534); (false,985975595496641627); (true,1141794772607806686); (false,728148998355151088);
  (false,57520082166)]
  [(true,0); (true,955591169298001412846378756322788456); (false,467100386982687813); (false,30843726603166863); (false,87221289786371476);
  (true,685582706192008533276693943771353193); (true,1295465329564757296752594030707771264); (true,792510520764342475380586372848508880);
  (false,463089900553786789); (false,145874947919261693); (false,418935018994599); (true,371319069060692527825538863723680375);
  (true,275605006861665865415956060715602065); (true,302178263040121105597044823004674375); (false,796096247447984790); (false,87100622549154043);
  (true,11930398062993701760289212003369808); (false,509643395597830032); (false,327955012457330321); (false,194818155967304);
  (true,666202532848791693750286710461437915); (true,1420669311075556720901624997991800182); (true,325481783993331826299141421680591028);
  (false,18944147786654175); (false,286840568846420860); (false,1021922014163545479); (false,201173652141506963); (false,532763615122312115);
  (false,559455044681782014); (true,27085405682009393310811988689948948); (false,628828388088063116); (true,201994542266743939167671230075382643);
  (true,1126808426068193569442983580494790929); (false,254809914229744482); (false,131501808373159855); (true,132696720059943448743303393951922779)]
  372535664642155041 prime_53448597593 _ _); vm_cast_no_check (eq_refl true).
Qed.

Lemma prime_19173790298027098165721053155794528970226934547887232785722672956982046098136719667167519737147526097 : prime 19173790298027098165721053155794528970226934547887232785722672956982046098136719667167519737147526097.
Proof.
  change (prime (0x241090502041090010080200a0120880280540450114010100800051452410008244a141010400801011 - 0x1000402050000140520085401008208814002000401045440048000000005520010040420208a088440)).
  refine (cert_prime2 _ _ 12397338596863679689524759770405177749801411 1357291859799823621 2 2
  [(true,0); (true,0); (true,0); (true,0); (true,0); (true,0); (false,0); (false,0); (false,2731554320364469535754267590076324060093312080543744);
  (true,21340268137784754977142821396426176389536960835620);
  (false,18951427922868207567673439911854791783457383732241035847343002997317263236359928891342351311656404123);
  (false,502704340074412682008835206622160299502231722007369273147868504415852984687186858733172472142572558);
  (true,7049116731958978915956861896274491471512607102436265037669240915835435147580594762463999329898752512);
  (true,27671553573134083175123870450647332802900052869363955960043973941214976723166403632686226794071643918);
  (false,641998777745839338464618036212365358491783738612652700517745294178109332317517942490981745461540010);
  (true,17606434064977959567079864315232020563451434032821700487361301358895217297540150439349751937977455335);
  (false,6249172204542211873512845694918131054611483255630751594454665956061914540444183434446384356684122651);
  (true,41971066787258256108108380888598280998903301506340343703271234113935161042226427687145305925699227);
  (false,644732911735996115641482240990169010178741263664708141983672876037967592228090156919738632872672446);
  (false,4768570211331155961887904665735118617354742775484918955993281106334138542426653976151763693982960300);
  (false,3222386672984228986632995732795733963680994385396371020321432432122117934558695249978779734979087769);
  (false,16227419266717192465781320516720220658008983162854967883288385927469598235696378700345840577211117450);
  (false,8784783133483260916478910460395867698216837807235128965973359307402012582227064238371535396725886601);
  (false,17548176790042461324167283780348431436887670098645187876218098817890749864121935093318943403683671419);
  (true,1630151008893093789287775061808752672619759301943836968441819535073472338018989672247015446090102384);
  (true,8815108798135174064164639928061190691340575547494958421389417214273937610136576827855498787754267621);
  (true,24415853554302074154206202595721592684668740176485495309737708704712961000618410302745966855200427267);
  (false,1934527747558967119891537226110777250930244112524473835282492495050760560711068626718188002229146081);
  (false,1657696894786667319369463240740281694489689534990605908394083655122442455363900031434225603617723756);
  (false,8034814621408797215340397163945040629596861077550213661342317906084530605024160613102206995316579549);
  (true,6125973863676057887558213848071801242317146425918134696968149469764145109572750224646286320964422887);
  (false,13277569854276700001057625102396121766242019774413104991892346011785561126595739413554989259970580030);
  (false,10434996329257158733303628634748557348430791082547616963848422913068988478897228750500364624074795840);
  (true,2501986614542828520908010366805819560408381302168603863596063603832965046986451641966828640219298856);
  (true,1718659834524157763402040799160912248822642031103793948033516576883914113817395876096454392059235036);
  (false,5397689681841442420371705509122459973084191982546942607677173944879940465750342193650208176722218407);
  (true,1249043804581730036214737298726059200211298795652674394979136663401970180475558551001441077243283320);
  (true,30947292323034396096058866421169278428868383658917797319605631005690038404869787048366613567736774931);
  (true,37536999651541282126022423816175635405993195193402557605174926938895190757380078761643036984167191773);
  (false,10178177705631511608989154111047145900384658338868404184185143398368590883926320406698577868039246893);
  (false,149364912445502348555166756645070065917558437648106051982277740490256320907361912649362116645358211);
  (true,13834084903091366332640415031591759135708223927819815441716782364298980612450698784409700636269251291);
  (true,6630001128454892870664639273660862821237600771354880259987421111917173513885284356477135111526799970);
  (true,29072437153063088830718739045744093789776851570685615146972482116124593926152570828041166006168488530);
  (true,3499518510448128967232846999282156884366518166210535710098389911107333462735819331700538473334938561);
  (false,1661305142632126575518854535757980972762304417139506998816712086007286611621378475762329139985038395);
  (true,1436154517538727746547812531157810167221643993112233259748475191783683850980003449087812041654913916);
  (true,11876753131494928792575694694742762346735648470963012506431175789740519785242595150504432821972772425);
  (true,7307111007899830637128362450681419261482096866526083320589135292571792997457106205884107178137863957);
  (true,2674938081640921089173587147878157880854249659195092585531946853060488495061681623257719286071009407);
  (true,1086047552979111225997836888160379166499644117922585725505299620313391187146493516250459933361518893);
  (false,15304803477295110459768548017606473210772812977411870580362568240605958239654814126541227811841063767);
  (true,103482535983779735404004566019050364273715894122498850021508206350484723575252954032921167274290609);
  (true,24326942219118089199987106298196634513364496465904376954422548477762206557077320490366533996368107429);
  (true,1096638767492107174294245650552756867407564840199960394524559043205210667991668120660557602279800528);
  (true,4334734655364652239733093391476621335094614290531165370083412328948957432226906161063844688813388854);
  (false,283609284112955905007479087692184791608403618619459681438059544422449028917315546086443970613432433);
  (true,3283672119995978914997533717587391740116419543236948966047288437440346973807886177523830274237916086);
  (true,7178968393401931510061723471851561944426728301759586292045855746869290648195630904148066184975737164);
  (true,5512916557626442021594378115491548848324816275826025622796120278503289113817838620736514114604600652);
  (false,1239899562632735358805906089404077960592438167336497353791302907261941039186519537627571299829359576);
  (true,18205328186559483886561831090088061202965710610602088398667743576231424728905070568451900399493737275);
  (true,273417459139218850019894709219763182003559728946446519047253693186177671393906975702763755686517588);
  (true,7830473491581659991320762257999623846725031196856863040471921880217716844836876807399076403768475245);
  (true,9445261468654330046494158399974086192383528403940672861755635358758433358430246936518540791051389508);
  (false,11268198863962030536997147610013196757840259862901154620204265296446282047784775351719970898997798378);
  (true,9528246631983660722003520520103898224104098143664945663070012791566942150818228231094489915331443517);
  (true,33057671787829190323135751661127512273483500157906122564157235545747262458982107084458577200508738207);
  (false,5454462325545304987276682385555768413205525985185689476220194216066987553263479837318138263155219100);
  (true,29141454067818034846207848179719670774703495068528749163456298692494944353230660950681583894738598027);
  (false,885363671781026316843539183853406559366820099503763645670515695944477563358258314253657298884889452);
  (false,3195654892253164941478606509330310527376425750261499654786621116394083063299933499935024634637877356);
  (true,25871131108491151315948139966016302315024792483981678362857789079517559202695389624591615245116383849);
  (false,2716281944678505826129585727626734799542986359993625805217924922397960297126248006558561972114190174);
  (false,15644035903578670206761409245353710182290594861281207937621533743047907688445482230025315366462045114);
  (true,1129015205520119893230649366201317013529464405277771365522117354066404464279850041498257769005332588);
  (false,26603610593490176842280521005721491600102887768068389680854481729958739186104706785722492225251746);
  (false,9073987588799616638554650486742094107720305598620038572626627946883418103692005202961367045578037915);
  (true,31260938541904237593410320123155583020962635341295721340900442000219495577652880541700397151339669827);
  (false,3946238916200557717864467334801785670950420516303790563040414641124902700951491816836448807426834345);
  (false,12883106866766788133292109025390146485813022061253628108737615055187510822130226053068024763649259586);
  (false,17732866726217196925945644784154816867759599413171598814021058883672063111761801464456428537278661445);
  (true,19799957351597414176420689175790329079197301530678258079019381596326431557374709340585773528521635568);
  (false,6595814579812307354706342638511538120636440211164897731181009301459635364728458540887567582441100079);
  (false,6344474416488674512425829498532370608097874208297977993923471392057737442694896314507061242447832747);
  (true,9245296200867547217551656747683143084504543247159537575806563298099077795990632662408745189236874020);
  (false,7540759853780459490120963147273543026225617668145699167940543768144388837254033389475743402226626338);
  (true,16791278452789359942409927785381737604031167838537948286178132462623033313567024044435626056305314297);
  (true,12883430490325261870813188353282795134363920519441779054998395470879337844904381144893507035410735925);
  (true,28622272336720435333494783676551555757368886374344467347535294479119326688980949727628261901019923509);
  (false,694873822991996855836459639579820013601321576492996885344247601589650313678746101345493556051826940);
  (true,13007180456031207661741781731193418070145911993544945888443504316552623342496891481112068795020034731);
  (false,11787721068818495228115573409586824034061538210884743723841348515131572411579702444051861014249979685);
  (true,1645840011856906437264261821786491944608601210989129762053989111461917923890478649801990495082339741);
  (true,2864680940442332325809880687448551069752721810575155009908334762977650379312392608973532690267935555);
  (false,3728610728142305970638295537318126980246368616354381902122917685300342099842694068516210548506471163);
  (false,11252599414098260828510969505410997074880340620518742622637797386331958312084742889059974396336844713);
  (false,15222726895578307176076035986026758773420608266602175965285052271768551772380833979038734450171622523);
  (true,15681159924559060102567549126159819738184961399454415753839653323885145201834364124767660257488118610);
  (false,7116342176337169103462571893839735314380005158325664078165929006170322315891351739323443073185677298);
  (false,14872563774222127327461844763524222910489186389662721582972198795639041687720898294808861768132693355);
  (true,3262444576955594225040066641189273158972522148151172628944475527867859113938855483407951976583355637);
  (false,6369404344464929876283509679900898834692620148788212277507975606313325723152312966763595742141899061);
  (true,247414074545857030143168979095401527727650797887845795383792584941321514343132668359647839324587998);
  (true,37817291200452097236914114138025461930642353632994864165777694292523794929147752717364521139085169230);
  (true,1585514259525752811699375711643289254017586386490891167482563735748280305557183738087659070720761126);
  (false,5952367996521566059471421204605258264987985666054137200752373412228749342840556904667404193397344020);
  (false,1524882092175221627955715186151839766421601205235507676684960058970080740937546202546386163922791060);
  (true,12875205167873698711690363626563009139334971664344016872859141220441903674957698941403036847859597276);
  (true,23495391203292720069140493923430134903154144114754604148928659059034270269438148495996838801263599633);
  (true,16964665055997393583374487770126925350524995926453881329935175553309876910483772655635114530238869081);
  (true,804327679908527123303900121739373277408883314124498140579192212657497353952954544099238101394609061);
  (false,3511107080940348023068668734003330543322479329600058298773515207034414997592293813341843658403007762);
  (true,28418688376457346747810785588934785893183477127574452806743229477948628857412396488595702518948808215);
  (true,24821083603524048979983987680420331323594837547574250114845804387133372728405492997930623341057736879);
  (false,6328034637219747141329519184092641646129908870400649634407613236361359470548305855062872052261867967);
  (false,807312039872556004911987195378680419703370654570210105296015102774774397651656606510295444623634106);
  (false,7356555627483944891221075454451217857417864988012624809854382809134484641287928948734491333987317737);
  (false,116909957653029675005628783521786157073891418807674691744498404953124808877275071337678350910891039);
  (false,1442927800615096004862077584422734448449395410010372643753600274289103086116394986577432887911006651);
  (true,1364612976528277889534804896989409423122117124207876181611462296492168179387544415925546389402145718);
  (false,4064912913844851637848359620726195736118622933483423226668845005511315373085977910513820493079916856);
  (false,11416958283695997911254217228531771735789849987944645426092927166691341921086209498720192079096631989);
  (false,930887680014724717759628135756062350961715156818372314228509246472725547744419397902966358108415124);
  (false,1207606769117618363312050393711438330932369975740578952220593856127218896633171344047653939556507347);
  (true,16167313774889660785952874548527746744482670570589114241880874337748979213081059759664630489855547828);
  (false,3884007979827530121688099090839263186077712664226013203515267781972330454305421256283994341858702979);
  (true,17976268977424078865365975556632364757809490885610687158305696145822611314711640890039307908237361010);
  (true,1361292775533819230954873349752701490227777919680559842144678042284117645770706333319580109419893127);
  (true,36396631174542165580711588064732477162032094393488283983285427094981791264782308231300936200077757311);
  (false,2431287480378546237587626643670221933417589914137112249867492646180506065963193275293910799407392207);
  (false,11203349013559576928456210815626558086253449367797766813950748016461950477569094466032854250883347009);
  (false,18606200132592917534311923133926483432980329670043420879908627009742288987038692565795633226261091071);
  (true,21344494028116580894223644257525950461621810442095230443419553316342672477973528024910316594334013262);
  (false,2389418888462855118869847075850709838567279999461442195396040976479392296189848644714928161900116350);
  (true,25518366798495720623198350511982878530053988364127107067902036812515531076960320933005315435263558846);
  (false,2597338057818049281024092933732502130738427415294270832412549570234330771657343038273467057885292697);
  (false,15521130342983569097879311688947699107666164994490779258186766610133810696001742757212074052231938945);
  (false,2911725435460771600531532017743538219892547119087433077528657917654503567494125845556706425748420117);
  (true,5822481267520206200803313694872583508930576095236856388806506454200306211914656703424887007641063037);
  (false,1325689625954309746473216246690892387169816824734090914637911174430265109062847581825073730878156721);
  (true,137539002442226714669896031476551251233623114856378445827165022079948053658719266290508666720750070);
  (true,150129071407010412474921221957486487812291503817048354193254876760568904690741695818101588340832163);
  (true,7247220082890595241315193169510371781660043834322136897616822367694954721007765512688276282804181787);
  (true,11136427587999989809001263837225227395050544931245448619807450726816454651039928679095882418826827557);
  (true,24351344161586486243153208561682195528423749064694684585743334436085058047825418568373545028337909691);
  (true,4004945386695159552922560911950754803121774607865544077693713439331108970228828348194475741366352119);
  (true,18791829512480069212220064065612397737083799606327823842500301044116623154181497968821676211667833543);
  (true,29118397517595578628653589298160798374618102849638937549806952621525017964793248548204555772692322765);
  (true,10538845867613908225836996394527078877630412171104629323318740684921332298034434014041682317394307523);
  (true,1586148403002734352152738515666182265429282954940765557782523569139329674979942499112629034155821401);
  (true,4765221296542609146306162284661078457965803031065536806992489991044198765378512589656376153885990065);
  (false,6566976317348062920326388288852728015286323086664065124188236377093665589833810033035738767600299485);
  (true,5682163198495397511359162419062769485102149744404520435205828188268330994647046114413312649749524696);
  (true,22651190939521170734472229603133749953899478416452914846661972042755879677877783823286378360800355491);
  (true,27879744658133376242825183099227063793999036211832918223791200527815468794946344742796021092159084178);
  (true,26739206618334074498088967809015589134103866206500539169007180055471851291896062169999361153585446274);
  (false,9774241151342061898665183481629429409748187577323379627086620308208656261827169532728333609065937298);
  (true,11845753919936497627875287055226924292165978664738920753558924444369577703066204789350258648999247006);
  (true,8346771619371290792974727744018628444720839275919428163779772140781792170612108198809381289478520756);
  (true,35093513983038631570518738809460172631067459124248275890810844731921460017732771071498017777128805934);
  (false,3709298561256862969378327938832324332867718160130534036308212695766232039076847321737680985769153581);
  (true,15391107688890344135576885354569128553440837587888888391685229538669419017012349229114933975395426071);
  (true,9072303103268706132736459802034876534307344415388011519166859041349487557600047992876922003963744805);
  (true,23319277241085736398809809022306555174424303098057116246307618619794479821587354493915419375486563602);
  (false,3316508953794630106237719305669109218577332429654484402877987790619780505815559858157399641223174967);
  (true,1551936297594272271076965228401639016577864632525613613639166791657613405148617989129100705940785480);
  (true,33332584107210678000294164503590982091125538794413137973919493357375595846199157066492342999831530473);
  (false,625716710640515950819984868512198547068050490855238076767229563314928770235088935037281292641293351);
  (true,10518996053374196656210880954796048167322841041448294809782732965914597926919905993927517571289967904);
  (true,15932951587149012228797245076281471013905698693382462929889556376034351042014597457343555353663828978);
  (true,3800620191733174814801364076687553008335860418732102872614445686944038726327849681644229670428838838);
  (false,15028935189883508084277988110851345909379725012944313931646007993464787106497330692508219183680084795);
  (false,4263500181201667193641427483908100622516099756289312576018385217614902143676190029348253496259567396);
  (true,421516038880068233936359028562141082986417507081277461296488434049403663180041926329378837440151654);
  (false,1880856676304156756006660908770937125710276210418573009815500232152694867606092536755764121576670906);
  (true,3522005376019906085814592991586237616271877821641189883807122785863297437953599508844758555325837027);
  (true,420273975597940875578474100978622107032021647655389603604904528880487688846022912976680340843885719);
  (false,5073043037127730242370046141794408048195350227636512646823300570462722506171866600475492954562742378);
  (true,67410802816072909481559774876382391280445448132673000807676618910676908052375308910770316808566);
  (true,4230784043689724744353157519984371506806221450367061818680948501711158828321681909627618956052664522);
  (true,35401123579219060049781335734004883149460973587337362139139861353529822250747059136109579433697777549);
  (true,199234146386723071618774313931105800612918944691325773540913362815888685468937515237058387966582280);
  (true,5962862774587812553807303773003585337038896859275664319810280280780731480589419726614205899379427598);
  (true,9957812729599003921348720625925025980843253903323666633499842172631039689592167820319704353489792216);
  (true,34437737163390332311300004931356908515710773215020835208017343895868554057896327768749852814238166026);
  (false,45065321869093882313318644495171398799349475331986999333260686437640186547478245234505137163223745);
  (false,6232379587988196989430873414220756391321963831815093559433587046962243126109397767030733930648234570);
  (false,5217993809270949309045968442890936616554435100245947759356871117006862264644969380125461708501145705);
  (false,18936363826004622524361843853899450736812306069835480034624367249524952310976364171407988883464848524)]
  [(true,0); (false,336246462622175016021931523781251962231766111883505697078047877681229307425851938411633269331949289);
  (false,4953706184970968976041224064248623370736229108602527666592597172483614253442945707044824145764041129);
  (false,14026682415149169120648185286811159596007054589711943008350877772320174933011870593023531470894623573);
  (true,30060905435844407730894981373008045478984126126384237131698372736163930692083629655327308494564597819425027761384141481893061757681431178077834315474209267626926132850765546325139786138077126546118803);
  (true,25540393745651750669593216097602999163584168840711572085683131440423581146843928815301191460415387952075218068069686109624924726939809271035036455827916098951266688858666183230626353882810548237598465);
  (true,19087005633887338137653279591506438184493147315040913991685560104625982206657825645727388358988609168025724056416887611672597078760664989589228786553177112040672279717134252387479950325396883511672310);
  (false,11510616616033497572587026342190648306095061619989734241986414275176006149556375300039158117765983777);
  (false,19434107122501151376050175883801861038011913103383621999350010261165353691404071080563799552557994);
  (true,16964678889220451259688438983854634086495479980766348213572354678542574877644442984691549600930519559936808665931821321508848808069147483132991829091732262518613535111964200594675915334161877594764);
  (false,16406392404011735231729931786884936246146102613322700439871088326937859430941660501304177419079536782);
  (true,25686536049945320666041652835932773180020145306887956384641397181720245707895976007092330780665161072142868973577151983252698967395484152358195359352569989205019368966141239325173392583825361907433232);
  (false,10264769588879040305347115226512684353268866747041859495406399635685386737352762410590891713190417414);
  (false,16037300164709570661618476914267688102486198669790244550007267333846853099353170153640501941083935503);
  (false,11038546427439704622680909664390720034685743494585575038545476041065471095879640019733233014829612490);
  (false,15759332692033566241503158806926242611281185086259471204982928281188228289474675891903573195566731723);
  (true,11535937197643295280120763106832679176877828692813878482750594255662799010185207423643882289074946795862527283683856903582619155785456094901901325735009486156497154404704972600615632228797794071901909);
  (false,5392438508988035772993647802244750661763819728843980918658481219141035969669028368448643464389720138);
  (false,12107687677915924217203165408991707934576563760406599237249412773351404702460148538088355532736254370);
  (false,2036337033615212084365136582750865585234461282878775091176775382494649844387889601047103670004326767);
  (false,2612862977846689570541915371600299706760765141128998568485140237446259661066710376382974217836199502);
  (false,17559034754659908186687833711188264801957742401784004484540905117830443154374735407857741396785206737);
  (false,11586961736246659584826319049101710054931967247855937877184644586738451733269465037667757073374581254);
  (false,8095202181216392717269722391667120313485896525346433727299711146101790857353239239192370782252429241);
  (true,940285505792201179973029740158435870037192717301613731495535309128203950719427029532312413933377933854510306077632469985571546377228780987573813263113581028910537494786395081837165717524620011626970);
  (true,18637255100990521078584833676730202141955989508062317934587785134782565456389190220632643172099851566013109417707061310151960632709044476360568362797162618124947680272353521398430280265010121613011525);
  (true,43985354472456659378496249203789397876006657843764390107811616755534034038881779354186452817354968412308667585667806497525000195897160100199767475056298873192006330723879642769757128782034643168182454);
  (true,29614431593866525048176474537805807309464895475984334116137451138694276919716835311749692074640461649531789461887985164823402352533715725727182898544091404291563931440190792262420226091476009377834517);
  (false,10398647409892748951166646552496655656202866896341375218794831578001192312463545965348745679269744963);
  (false,2498904993802716321983963732060588635610473813877385851430840976812681594865122252756338016169630811);
  (true,3087384944447239135517387339576314815229890834252172028960121257617745605198578745309269908396076134230808512513851031164697408146544124014429934115219326677017588645171155429105913663527430591589271);
  (true,11549304039739083759596488956536000117588922562174100068286828346401071278557932503708886278447200953271927219711001652183250356678598309314226502172895188726683278816815158362688527411035427660394439);
  (false,11950884289075363295676913402462055213218904253263595764472474244157883747663474459877385152280690447);
  (true,45789958192517687062710648138859617565890247855836831063396499557310626345245049891192780534337965766696667714737117247049443613168413014874131423841762886066897649918135331976662857886840027770923166);
  (true,41315044399600649784292494264673574162136504040591952020114040468597138562723753614950892171593912894422947999314116681956823336670446080977765950228622815308652280486391407638296641693354913141326722);
  (true,975322161150683158911397401839772811467401514042938402368722778199255037641162286043461075018856913311711932697330225480067446039188701170110657490625421738145264122615785416952613119178495259037154);
  (false,4958286559213752783312659604155192075941999301653473851631184100651462203193561088635421885594123040);
  (false,3923569105942495008003806108031180959004351525246247733072413430125915921657894450595235603368251505);
  (false,7977586259257164786548857536887083210028504971036091391225130643816218528006499389082324397715279283);
  (false,3396601410899888203160624247171763777405760170196696132613139461035099780005866829620888313511575385);
  (true,1085198753980116240357141858950859558791279251424740834781492003156186292468547401978906084196766752128865507513670961355995871804477942283017748688032120728675102309178083617835104954919489593770911);
  (true,7566324352074466217768342289395138970015278581585485437279336748005532973183306050394087611673144506186520165447421730412816340230855577557984633440676247888473256591024028756207490713169190704349027);
  (false,3542100626388654506682593482439156283626590138011650406572973085018629939691909272260589369285878621);
  (true,30509254974415753982554565872050601448919879802796473529650295768603323301457192147852990765062059758601891192637214921618327494229066826307727113744855742890858461731125928385744176759609089909010815);
  (false,14631825700909973606874093808275538519667101453053175305880755568476585377733846186702042805763465245);
  (true,35128991598849666369806305532116267773502058987232635238075129897948819755790858003386991859858013042873810678417653226316296977791833304167557665431125547534883879225038325007253331660805937074513552);
  (false,14600897550102521559241273323423245318440265351317896619829010874960234951262721000232518372633984109);
  (false,11214510055342728183017247387363897260758004335540137781460968385894458765104384133702448226871537704);
  (false,371292932281806192382341852752086959022499387461772116340793463758797187675626296655190307446694912);
  (true,9086498682636807020069856028370907788502229893708186016719136961056913409898071073656233556557534900772375359579004593771258300146881806200318673899491346154908405902066967089010236149572029750801774);
  (false,338277655614534939582342982476413455409327521532307015864111052628646629617981494415340704239728886);
  (true,34338172874355929837906084826256059165326635146672557730853375952303811800573245806640016254638545516123338597677044676214296418304206526427715454800832673084041001954208695343490586824979114296651191);
  (false,4253180313616627811346098129326893805088715292975416145691710845157740092161197740583078999247828654);
  (true,9510580176604983105834295754189874825302514155561535247228964050887396594685976920323382720257156490672495711570785900901116271306419186244031253833265510587761392418356650178648769598615670209994925);
  (false,8807919529227335027379614011049354018172907436642761586554845774698941388079258433240390687217700137);
  (false,139851225817660463228923278173767904497321785864287692057486826128332979368572133095186485727622916);
  (true,22428203333752525828199082571978787476641968744631155837442670988600141082801952453119942685840881889022813091318277099898046316694710755113328591769444551282041383022603948867570352748845678152912931);
  (true,1912685419962755746195107572975011134519047706789946222889374627244017373396747001620651453178015804455605966483666508839607645227435906180970403784652631317936054407738031701694985327113001783156946);
  (false,340963604055004501739571252347688741054598491233915331541528547838478896293533661242414415070767134);
  (true,14814117513465444552761916087717966631830450116677104272597099862973007079403624648018268625904669800141588052669915646187630254552930608009608165424360976202404105910300185763476773679587924207090955);
  (false,7857845268798313365343788950488700315698441339607727481413686882244957761672381885454636334584654036);
  (false,2769788237756211133043848570294833492437026826321858419718851660631734231825449938603349370073216775);
  (false,1080149823952793037835694317877092579095020241307220818861446739697014312093868630541699565407332);
  (false,641397628217535309981364396788813882247692288408327789411781812605162575413625986378726335735080339);
  (true,43134115827651424605406070436213813484308274212392286577549994116975192328728942260186824128487350437564539442441835950982851795426383078183749911877494116545339408175080221594454646824918798051472299);
  (true,36325049914393612210225914860440131140573027083763557857654149814533104718254382416868925304765209548464697965313342133831388215838682463160405587574499584217188085615814972505646441578731566996490095);
  (true,73413784094454258337320470534060479073309911432807218094550303170529286038737428871859892005909585145584691319610413044064020374973391329130398280997314534308355757205749397649201223341385389388906);
  (true,1135621121309458762633550559690707602487797263024476556551539640037549050040593364117465950266731839224024683124467712766062873419032527568057619429508718299842142128633498555398011604492163322968825);
  (true,47491000386644207944891467799516627768767366426623400186298225304410213898745810159861619716957775847509902589149604270104291992736133898126464867037798169419312951300847445054874736267408340901997379);
  (false,153497331489820254886616725154368943422611110329942848753393684620197026928692625550890938262971827);
  (false,14164732223830852399836842882555484579845781930169235235181085787630109910465049887027348748909242142);
  (false,2925698292433257618571152178993379077281500650156475215446388812143048339410818450405185934689917792);
  (false,3836617067992434852096618810102538159092699738148897807695615861711744986081775249505113947860200184);
  (true,78027186348349333327218233813148391498675735342955985107970123227684836917987261131192681918352185773953251972548232851562283992116280437054250571610172623633894405034587397982934651600552142114942);
  (false,10992354349201639214584971379620347035805916650341736153542991426184669451485733690629755483503130855);
  (true,29625792448913939948328617776129316569901310606142245379676416661745654383680243646104497854625043416004662514265361425761961389718763792005834983689315730295528275083834467991939035958112999939519115);
  (true,4254952269541280045741688790541887141059223687876326935023054273373805264695976798731443618024644588430225441513451445161815751827871547920263246952595485244957235796589486347522423076407386487218537);
  (true,12252836018644587408585730332326007693230151063937531785081067708721367738252587425536696653085357963755814995843443155096221939209150069654657093325336757252893969090686752303799853164314959929678028);
  (false,2661875924215907672548582221870766203633028198825680885666405203011867779900275045431897877036747459);
  (false,23674772087147402759564672494730408857001523690118975409506445982285551439939404473599293007859637);
  (false,5913044409230386177328329700368972035444430529955189788322831654726466591802971652504118725561678954);
  (false,6978437978087483896519339573800123854588228250817774293764819719943902432086898509618118059995454768);
  (false,2097064156698439909249607350058466484493757344034630834550501350626817174949398782507688592379768916);
  (false,15939257508217317000934912855545630763441225035122312785818944005146506441718291531427343147663404444);
  (false,95063702530390001345909716115346803265278013955225632298445475922457606720649324402323582670057090);
  (false,12404002384700253636621358073262109188643334207759410846185965306406267467943267683904586950618806525);
  (false,3780505774450424636923826424875623766990197203328329498604167521262774029947769498299875728638953505);
  (false,110406384694112844349962578709823442376472583776429500820681252320043504077514343093343720770717737);
  (true,8427866111247017438813588571601970751028971479811139610422825815643650441238938753635024324596909578767659987061602122742314708385665938538289263088995221222331116106856408380492203886366438850527805);
  (true,15701040625159209395681546217859762134072797835949159233176696148125489753680376741856340743174005715968868098747925079679590505713671713011719493629939600756069417522737516901773197599340420082850846);
  (true,716296910565793665448492990946632315641985864189180287008155105915603415987088427320951688181602406564878368965331587622146451616052226928115509879487661696599004949555876690525464899483763086656875);
  (false,7722738670780667189847113839688763828726754382569779419962426374319742755618755944926062760897643512);
  (false,512114586360344145618356968118285968310885317046850089450641058006738880176867364831946473166215223);
  (false,655395977286086136716343364504338466151971741923056976909471580727239118869575458347078335731260868);
  (true,3399438107364867709287664981322603348637348054560239008559359003627753195880182476114589089473046009928432010268389641235502765838308348162272011158517070171719507327986819670211222801654661163214877);
  (true,8583338486269291032665433189951261689426893086862955222657444428826406995062135756044197269062148802979474102134591540620727855177732942919309134199231274381121736334241405941080274520573992737487880);
  (true,7688142174813847662890652948498111055506982091901549762890076677424999346820024760951265115762156687150414994175181655331426487313361307319912653034995183247739233002334637465029425328208381415016455);
  (true,21915388255363513338235493761786987776193057648625846600947870659867936907614335254509014037414194634309200740373661389029283617105344467131914045029475549196956353832801726946579304300161664998792049);
  (true,24137316884327660705947754998688560198079042640214365131095117573933911377624540476713209603367129957886865008622201356243720388831514721623137390309813326578268726170833202799321241368185508270727);
  (false,9121001457303054510899288876009515512361138278409832469534871075271591967338941731371673814203828219);
  (false,703306228532387635855922500101744206868435383687078365022850042419140400035251025702987408986802981);
  (true,45182547520575376968391643719660210912838897442351879768353659095363481496406332607985625198833432431306540791825240337509182524494934230545541585032002617681937930952576500937458464338506407187511610);
  (true,627642591891121887953975393529795666045472944794175857455157224418714021592430734109665703822049084054589431833367222489617854539734531820589144685822586588969688173586440491957264680780730749932669);
  (true,13408908727034013750269474447395047804750615002057387460135104190048871972727766117365478326592478474782054252535662372094684469893772190827321899827367442973320996228821086658382659494072981914443058);
  (true,15657178784737431047409472448966231045046651033470313563238181168977614278907613003800884108907399988019352515352029299535266361950414900620492883616513255309280526063277101099916488145585517277244001);
  (true,9989035001122464012177345822622217448588108604855513733927207539734043034813800701097996492213063079606387024727087097286507663234739514619177892969029154367646751838443691996334071013634306724304991);
  (false,1578761983998551234841332548233055742191204315774815744758156891283150342476191207503400052266464140);
  (false,15593487916646551202209957719301003823330492269354746044963802417178097096829162347275780052597535794);
  (false,182319604184757147450343887386912798692870375947535662957642195214318108615680388685957627226039427);
  (true,16701624133377122355113381513412098298816813994201405390490996142893757266764758131149742175025417137127218431519395829576548105412175155661967145481694082002655036075466881259667660242219832605566819);
  (false,2678620995057957035647000523900147253686710803858472964660451557788832061238178283176568460401609523);
  (true,41823920790174017185775282235669645572379399965534608940718896123341697854167673433241221593602929524128447439142976452069297877190135350415482128886538137012525561096662247742007523464484121971448048);
  (true,11545074066191838618131438500398688957399926582916608176530453497011450396836707979842928740978763800978309985094199660844936307667145720809022444272372651991901868339698701808749338023943010511588);
  (true,25585261699047106828605651132372309322226399265276344748081311060996648778596773377489913554303608109979546848195495414824820052135098264806494342763536446975435533384442218644988815216048513815752477);
  (false,5122771792478452651374516756838437009376382649891620493696390915466966816573083966714714190742340577);
  (false,17792349796316205488265156924880105298819373088381098144293516381458056503468999920706813800525034582);
  (true,32194023680713843526044873687569336284310048408586060784834754620765561548550078662209432435058333946836829631650125925715790620814800825091230010906260908838005787469864083779929983986907091885964789);
  (false,2697748080066974522580943906207321659407042769860631643179162557206230585375529480799639068504384512);
  (true,134790096841519372910215886661378121290381186347273389891718194746799761229787145819265764357787926877939437344383772936367765687440670603981822524483113819506100559438807418217054062561544609733583);
  (false,2100149104367500561211752491402747359766128438641325043943185071538108355925549109063594447293832560);
  (true,36758512994287629518871923313596463182649217124221852992372005882062687320245585351596098744229903684792984375804640255965882624665120773164159989885929224885613969507886649306972658124905181666194297);
  (true,27063977204679454593195403030962595111700610219546635070455196621083067901188835626407732990162692059720471978635431431743256701996625841003945972378421626825363243393378832322925769673083574648342927);
  (true,7788564048231023293991488109891412190059491351308551068684338610505226714667242273626148543517556601590035728171666268758325262873852369336076541403191870041531974007268806329917932104357105267805562);
  (false,13728870333044366320045075299747118294827162043616272582360607677183108894004439310055686182202810001);
  (false,97079279539253491088330069930250320338619638577140295514250659265218859605818531267239315519708070);
  (false,6587163710123551104519948462970581702133907862832605231734339604393688255381279389374452932334946836);
  (true,16316034052134618867619617112477006650549673486145914860724006895347968810403113700547597431527696383005527338057822611431003929987989058427024772820952469398827588884913546845674571061986307036002197);
  (false,6269121862113828149901146089136758097635307245687391760564893298739278764404899798330442011514050139);
  (false,12923897743073091328671607216142397869819936263668096698941077722328519479650741409153705330981929871);
  (false,1007511083889209218310955944283117852358417565958383855962079021263814464957000287406903696332801525);
  (false,58261698020207364654847740901299718177926026429822302454995213771735094508996747457370380435949);
  (false,1342426659282074576191544997473584570221429021695632039110627485044785772276953063713087042924576071);
  (true,13643791411908269476038474614694642283181097039946588093217762587789555224441593672237270457184489213854714996382709327374408080168036540761329944362136377204285819823592913446076644671062265021088814);
  (false,13154079140181949961248467764702690948405346667672549448072702939046374456078548243581437257870281336);
  (false,6028746638092199698864165415381382702217479891250997083230759137642743081021455162598899962808049628);
  (true,34929089691242641097820360068402342268086982480933701078679229166008606864858280367016101779342048220640820877595964229781261668733510417554317217691416954269484705272504395559345569354330615710242069);
  (true,8312521532275712894904387325786682902401937345235363306469031358383237979470228775363928901054499406769401920363228359607701634419972137406422506884339696999062334999892360101764862386697694977887525);
  (true,39559019101784798283294688350485038580843681893599293091864111014465245442426197587655925566500833786157878221535393781304687873309976408163584684389263595766606490389183925587891521014337964006777509);
  (false,13113609989280702636949618608657924838769402238444397225820452353797968641866831059926415120053588905);
  (false,1391757213514842011728084357446855060049773636112146490365170017295227785874385257959385569621241275);
  (false,4683841678967255590896972185169983110635656203358178682717124402955824891417125810065140013920751281);
  (false,31999266565542756511550898647966003933629917181259328581571203562415509144495653892194039459778283);
  (true,9328048786616769857646847180565636956564922795713869559357889028024174050513547891473366050293870887906390201112481867018793387085926737494867818364629200392164408720105306691780558717090612632485997);
  (true,23491064512232125530759111284738232043815657964305091389009527606632949195981217364258887962308473817454008898897242892200058747951837186761911655853620906965224003482244440978993598865565618817629123)]
  4965032846660451006894594672251535978686376798432297212367094385305698025297354036999309611502433574
  [(true,0); (true,0); (true,0); (false,0); (true,0); (true,0); (true,0); (false,0); (false,10175832809375485538520915769324913844813824);
  (true,296155712978040594156909101570071); (false,871021468592537034875731385703907121658064415057743879193512001522483818276415416156132394611813756);
  (false,9410516498702129218122077529882552049495464449111539474096292264345212634925870124526897080631879325);
  (false,63718583201811657705938073477513473089543550678276726413470108918206129017087546468664156920377080);
  (true,176515128930526612430645500964497450149611152941629895742796269926202405557431384205855705012139902);
  (true,1196390106215457558318114365819005915194666918786980814931994793482352538184335495643838392827932);
  (true,29928065682754224458128924971923672111624765809984068651822817860066705719626933520877606340062435135);
  (false,379085182304463016630240016044717967578633809221325536567661140289508244009850994943544203585548);
  (true,3960065496877999128416931102525212491882777930640154818125217543098415611884997457621709939312221443);
  (true,25790574908337871919510488818504147884168585098793686097709866636687078834812774615437280136419315850);
  (true,7155952575886963134123717336809001758130217878479385205587395942632550707249834863071450731076148533);
  (false,4065617402413442519499332017333758400583967209152723772095481806516142281662116408899978294472143872);
  (false,1161076357113375771820748005576896609241872795858138047997008397026805594092209455552824624630810961);
  (false,210667961799634844633661691874087507386759677230837221413395605060571644776838476594192518270445110);
  (false,1229304308987941882826494182547787804598819211089104214872389032033627268107381930017239816620041522);
  (false,9317396484166539468913861063766325553600640897905690770627582401114648838621373820583560026676218805);
  (true,2542148335746225353337614391116127294293498364477719647937247054743161287335451188579492087007644687);
  (true,324131331923020301114054298938001643941555186690708392149695503664524518138451346944787192781593778);
  (true,9201842164174426661543950879494916083410623483662100295293962106197315798532839608054415579459745882);
  (false,16997053031277115309307610129982127867796881750444415401567391318981280746610910085039263495802450565);
  (true,4200407815321760601016093959878706814531924104928715840775891842885952025037647553246304391101864);
  (true,12462773986869961954464360567501728048840180590567057317646018181329625403680875691680082297701257976);
  (false,1650561322194474682837631092472458725579296488556337455880992212430942026141978103256907953762430475);
  (true,27210294888408775654052411935447247696593387226060308128466788812890430577340920274173887392768472421);
  (false,8606680072781355746153195035773051388095579751567567248013818483767414306220767881102039648414729834);
  (false,6608786081682298867173519551514953767477776034363881601702822005449505451614952055811058049478179965);
  (true,11198394645231602315523583191387360648024232008625652328430962595076310034423465512748380754999662817);
  (false,9303769872944694800588624562337469411809444809686749906106659766222057836723887261599943129405791856);
  (false,12845846776415693322269434217715301503152042523356314651079396961060282535008695915681128592971998250);
  (true,7126484686872818821077813053004413865889555575012078553648117285171012392920671334083829939994811);
  (true,12499536045461876747007794676816628236235852509435691781339361269237867448214926389503316565638852420);
  (false,16262881373070313788753870200909581550703346648137274721950781944805422645624254418592016054616708132);
  (true,13695519285960994354874601163185911816326296349680222199564032309890765729580379184779212497762388808);
  (true,11067637945888834990022413373944706000681831068043947869344388476237713539492767831907068024843979238);
  (false,13672226024992383301670142690958609122895738475918225010545551406842009080121909115507470645977963390);
  (true,20030687101113452800031056984353871109891915173055060801598012635262570381331366514853389980947797189);
  (false,16506421007279382911334795250473643093527187023223638356191195424176909616389640535664761378698564524);
  (false,8920193936108243623055068049832376266079839216706924151648362845553459049282467998107256713397685964);
  (true,31894112701041752733706529166513671847104277411578309473024175061456015710428923918296081930195690919);
  (true,1916427359701255295408292148037851510032419864753315792854814769603969331813359793794874644320905275);
  (false,10576138403668048099907063891345256703873255214847252903788265159028200027387350238628610947218320964);
  (true,15115534386553890456885267609410324886948569003328479290202158608070355281355544709944012271457511841);
  (false,15902072432353096184491715146734524468005893783868460460921980203656162321833943830384454828656136235);
  (false,6856977008270187946357887911735794029627237091315350972529462352436792743311278836873877701286643388);
  (true,69348271373013579049505331363016183008802897450046003180128769665036908703937111749107437579571083);
  (false,7095527150419582405137466028864596171761142021715047919178049052727268184848562072802272791252712802);
  (false,10943175711324922783091358963673909315947625056996723060266328948262531935403555277471933838443966176);
  (true,16548448013361264587883227470580465510038767424447767588914752021349458316950630747477012332106509479);
  (false,15312831058294966604886801154387751946892635054765965935905406203355452290298892294376383182555187664);
  (false,10244697246521537160872910597557157962473734000261585581190433143029248631717586249161577924836029404);
  (false,12326862579025052824859995843073870039875733411681966338296166266843639495393040200846495354349608633);
  (false,14073369910220187718820174835426378871321771762972151012929112560675927356405832229631177429957024479);
  (true,6958670276374342577432275660103005211045790690868264926015868662574169014411029094382956158320313313);
  (false,1999356542988192132291731450675511175017079378234848742997884952503631847145527424863281782314861136);
  (false,8770345626713759625980653910443029961218460092656808910859920874176154059504553639460070763261428120);
  (true,35121824443735114224713509855208704040887052855571057070854037058908119240434867979763244916595949543);
  (true,14896115566846805235033582104872630720447594366886427585569876216885238335077147481199246213589206060);
  (true,15244673656327385089222178220043878481829073599874091760873906391890958338357582805227247309419050041);
  (true,9089488728169393330286258142804834093614845037783691256812862483851027155538754322555469215458123036);
  (true,37955107294081922428695095366372163433270309565823698951518250220284020311529242519063246880798062104);
  (false,768875590542981777306357344793632675658343340145355700960891642293169553884233032685712095248373611);
  (true,17850577760153181847609358320687489117742457030677398266730071249493871592257560793422753975828945050);
  (false,4454148496653523931530998977461530832748342623691711810534295045814668039174856972587870127489189048);
  (false,5709248150256623237509190078426892563853163801316981517913589119138264222802197960619823098670315159);
  (false,16672129436038958641613289721906689115554980370542762505815746924940112446288129793556311326056861064);
  (true,1461403669891812906858684961897512727426473121484143727022620670731498514862790680425650967934577183);
  (false,17875219629572952463898719255074838073533344344683583506580748731349083519439736520021312555935602813);
  (false,13162787855171085701541304221521765740407251876981743060951927149843985847959290440715249110367090757);
  (false,357699788321983185952881598740113905713295298897399230006617275967418522682911217665530450620609753);
  (true,26921038393621772144628307987830970928446069768822793465522380620643610223194133341335416578112207846);
  (false,87716986300552068742110050066113515770444950779689719794098259300758183469177805764244229936876);
  (false,18219039924169038331643822022133867495851003791289673230314296618670711486322959010944363368683014591);
  (false,2418789384362887725881397504458219543913231501714354099961338607975224577353983503004831752049307926);
  (true,15433203876960697234937411480096400692020497299395529480569371615663511740664564761039535079020849984);
  (true,22507102938391135149762907168391121327627464437662777181565030568062721264272001876625949886833478176);
  (true,24451872245639920620193252888118656712968086962369080882252742821545077583531519988888058000552359480);
  (false,6108621482866046810172072276771108452086089082316519201111013242649771431931140323012644472868236724);
  (false,466475260223075944830283363398225246609220564546711935119099680043373865964685397760515903155074421);
  (false,80133131160009942527133889801410083679966252222762311269751307588631837565203868120258782767116);
  (true,7093376866096187076852410382721587796198337176684902472884532326374451225503870350843561615896912738);
  (false,18167343138372624368013936790530184052496291080099034903808192484730834694388991972335764354935631);
  (true,1214884283772503976639266732086935191970580851588149706996154979265068835043870499404769610487654908);
  (true,30373348307010893889431191187541173251545157031011924620907908939197663550838210370754640837872457392);
  (false,13624081956649164071759009786072094771804882704635069192136404731837789269768741791770448816899180447);
  (true,4826777144819844797911868884855910636733182598234979888920170153116460296115241843994565754452543887);
  (true,3467908004072438291450989591886111734018168802670308545124460772039513835214556705095920794817261295);
  (true,233454463486492983403272720959384743854189979023055780182153650080399305940696432606292005181448893);
  (true,9368835084094297525243502664296950194608901577928665091078139158841485691421048280521104532405652238);
  (false,8379585274462363880011763948727529223708365265059471954791354082962119746983267307896159051484344829);
  (true,28676698682121717572207949047230256080771986221333485180677912731768445302989565510857931648145855831);
  (false,10256475548890690063273977364458005394274876234709817402021918743698479622169397670008529056950789177);
  (false,10922157164192579070851013497735543868192318349927019987120823714579429312317641448658797040764448736);
  (true,2167005844557620198322322799343961303624259460737457255995060578998492993519327927093040576567077251);
  (false,17718357261332881563412207535707949238219740386752263532982727241987745930085750538508375126004575248);
  (false,14217342637318987699483734332984961197885344728152735692531796717917598963982068670919804285646185282);
  (false,799067819120596719544504031545240668212786897702425673578433673414764936018626737796363172608996724);
  (false,5707401949248818955544162461477641457464198499094749940879191739805828952265645677389665318598980463);
  (true,810122221270448219009090604844718534549462311584237285255707992997153796117919253350401174967517764);
  (true,7808743735302560410217033854983754169509100629633192139457209357835165902431895481066349672561431927);
  (true,10923174701098101266539076728945739100374023287206147214864450984803755530659624431128817456442597601);
  (true,669048477264674530243744552330293464847815449263783463043703189767278007808701064273771142491583320);
  (false,1288726639514846227373030320557183287896986270089292918888642823292196685423358914149616399276524335);
  (false,958844493516358588369940710186450589202470013344196285140574734002573796337329300251714921279946);
  (true,213718653292437743126246693871258735221077634214713538550969099444816606909403799195931457744910003);
  (true,28208772623236874869186508657423833545065987416920751874656534715938027879166529439099110274755909238);
  (false,4005617445530414560530851054476922781464142348838592517877893704487745372431364738248156328901562818);
  (true,4345129341783214605226660370764245229081878707559387309748428136528842504163543224242467275329531838);
  (true,642048339139106725247236088485459869275423933272015656013871849601587584481706640864050495488554971);
  (false,121871634638652012345275682592081466939015786523301737570566133195112312267543360368397203450593058);
  (true,16034415882397933538156072208993738227592294361044625841071805659674961557381699133811528882175527764);
  (true,625307371049240080618777109395195360459917301916620216095843023572220792141852232474260724260675781);
  (false,4296880643536773642324136804204642736362240196700396483485392097295213226675230026666497152706497051);
  (false,1356968559457112837040162913200671767511624434207419206648082396459978644793486614330734318603270);
  (false,187062745478315549267780024991269451650963065542649413942455085377031984660951983806154512347946276);
  (true,870618744985627399335789214913409925755797741724297901650989329532606266748083544623351775513036287);
  (false,51104049941319467234586802354868183074960112023767197451970043413275143394122155811390438818340977);
  (false,124637679636789858605140381389523446836074019964826826603919367988213108498071515662389690403751024);
  (true,4796553714452829943826989120793240937720487157371386102817797592765682744660223204439521671923315853);
  (false,18095161120123047514395678725683838284592453670240528964154986742907095510598984047478950013695564243);
  (true,3619436886417360404006365479635656463644473633786391473320084070505630117012662624997180335487570800);
  (true,33957311149491783601539483684723726556423615403993504000037784501334988174170414082855334714488124905);
  (true,26901153606276638632658585945757301679041473791957838975638762982404957958104701031001888273220204404);
  (false,3368952627114480377057322405870112030226692564102758569817879676361648912141742344904604854650130226);
  (false,17238780376508338150692872802926963544098950118022664879719228326213185945621645252597431681833794067);
  (true,2387141512112972940172201812807464583472705751463617039935877769742035962866267462101258885052137840);
  (true,2080276714497074981801073280018810665815209311668317919297917916976819321435361413704498566994174448);
  (false,2393045668942839000979302260482906984713404207381326609631598657477871685675404196143602354617063044);
  (true,33764575720231501319736396547559859899648587640083505935917601322051410744685735596780076856355618269);
  (false,267189478451008225118134381373821488615879392302145946779692268074217271520572695193058259887861086);
  (false,11192953834983916200436647280852891396360719672262267704494736214907644449343370556887657407328565059);
  (false,10503386789014438507087285352614666126721734741208295176438099773514644184814712546814054500083248701);
  (true,21922939100301679119982735938690715460050402185536736227050172585004151652583867209201512149769315304);
  (true,5210019812090404924633922418796634266685972949090683868641217741483175445186437844462421894347626320);
  (false,1899871484884248802522377356870614114922867850166624220507397975554067332655300289447510147009143554);
  (true,11308778906563042820771565083859438003192859783926401658730439862132140883169679059244920577604064180);
  (true,1217407303265216416937839204946715926728486129262411141389896717982551349127261775620782638495559372);
  (true,21040177697881415520020993571771720297364995926643841437991983370416260077241709765488747599347488744);
  (true,517999587169467921427985234825204610172233771974761506086684277177236374811743622422312946399597786);
  (false,7000276175213915063221710618978908691547664696289929908785146227006782771490555439978132273288998632);
  (false,1085829572776628228708711550151735704760877330402889347824595567984867447442047269406252520007050333);
  (false,10425223785101384370974698504510529789759338736082214593317664319105852319736513297442455166067812314);
  (false,2244148910946517330381090262058218214987624059167401828941373789209568353913700807014307849268157);
  (true,1965154655112051807167661671094103317772641989985723894178044286531995411419417338627576291991703402);
  (false,15394134744836980763850375169104613131805531263714708278594429746101525456397780149838180773036432868);
  (true,896433943835217476719830917932402145004973014110172917790098872107373415653819974672835309452498460);
  (false,14499097976942449154535335154510701252089081053737118649116065311136061552946468756112692978765232483);
  (true,9092484774005399294524423674418567709385569548402987989155318706571360316660153799265452660698658828);
  (true,35404379729299369799668045947213808955951371039634200257604705713279760959582267498021861614613677139);
  (true,946356265829814938562267382844188970441181586927189030375926491280500372675990080166892029550851907);
  (true,15976810100160848353222255463421559054972433713795315483462441608978444590421559110529195943097568709);
  (false,3782262051965766141581092779499818748997730138012021081987128663381595314225680265395363701603346003);
  (false,4198635206490026948776270535710105951197908503165673141489977857610193248427832762198699454335747067);
  (true,16730174464854207738553935260995295090987131996305731800170003959756338920553486238192593586922967047);
  (false,19127525833271866185425807814878986153764979527248784325368084884082292942186961782809353921150525102);
  (false,9255067247877680195025225964573411181776440883493761747763422211415268210182855121999615165136918904);
  (true,990889069987522493710864462950201380321648888534631618800240795228196899788570989747720957945100200);
  (false,11096228985801593317197038084420955129914697873087267375565228934629591156516466414117846345505184908);
  (false,4977285785717535824936530191954711434112956861109834433633560046450902491768105642480156285331054295);
  (false,5038178100118814590821910495944625305770631742190195515940423328327971944232467223082100245444444036);
  (false,22529700380832865652946956820655682970224929801171235015107240940640927610492567320528610192993844);
  (false,4709592294744494907350410658698706502580527300332056150249617568300932145984428799260377436399613949);
  (false,15086814874767186272783391523642576615186075512801690486559662599341673362490963854350155737638505094);
  (true,13813724243209394766602938874714050009469149932633313826244480813087635798698466006946642358935941821);
  (false,8738504049897980031299919947847553196956598099305176908354759146441547493340473937654266901313530691);
  (true,7516974748010821130042043800774885745103747546599634027253855987678079664564152257892988627558521993);
  (true,2117871281925973956672377631561924949796741343534531976463115411195836183578350346738931558365242146);
  (false,3301516872449783159702690629378764878835678660434495581541406714211513766554198349382479550405560818);
  (true,7253329949712956067558929588961604793245143290298426848484712605715807749622197459187153014550486080);
  (true,36696424376874054702314827464640830996349240119274872407564258348824977476080271676228565504161762321);
  (false,4166057268075975746954678416197663044493365877212943980484457977053732210914812478499555043597575256);
  (true,4887410733142446630888161545800547008792150704803105850472312620533103056451691198531451212122660638);
  (false,10488585380222310020938334976294928901600745081999902195794862347056511224180605101000404885545538916);
  (false,10063812521387738805122656709621084686670170195343452073870387196681414585205939989844506643274755400);
  (false,17294493214902485383714323561473611135799192923653579363698054095672758621730642741141767822208013760);
  (false,1845210772021605530575294369534723547606586752043655140498698152360519855289080978280941787323417296);
  (true,9980691806116209783195966522826130594524059102427576968149093210054740636519543117415050413690940468);
  (true,348328256734461662128259682740363493838560178624076696895487427412448991342965682082047763347980838);
  (true,26963643325813692332303539929406584377887142600910262789127161340995074394238228604864020124544044463);
  (true,505760162726375638959074195093441143925487277063472864540317719490261715483628628832140040439831181);
  (true,10064199689716557693256192478879175208674578716112095719191854688010944857647877699395217394483252669);
  (false,203352113905750831115019366101886114230613591032244830472972549475085423152660334128558034881477676);
  (true,4354183821277700507862146438640790055774500223266991028978463712945366708987237002872797075447703411);
  (false,1507348816892393475246316236752985475936969767235774875202129720607618769435711780210401359137515209);
  (true,7868710343409780817239583406812410933979375061681009126526094108697341382167878797550057007348193271);
  (false,745360944966093200852193309861599974848280673918020279457976588150159693466665022895580501931822772);
  (true,3828778996842684572518776142948013710208732736932100211577887193248032959099543961126181706112618588);
  (true,4425895887254755441779122995184058591208490199227693936397628062320874126947121332444965930672522859);
  (false,7116813046201951887467498421623472383745181881931054777489072713291257981701131752882592440953935477);
  (false,18203287719723017460052584031365326520842745497500722417313869046225497759091374437924140831483787749);
  (false,3653168291719783260523667658596539142120813442589955340171423170117918530010346595605455695983429048);
  (true,101751925880941091350133199614632591085147200365066542889297745119810915169895490774360905506910488);
  (false,49067291021383476024351564270771017422611869210810536493894223677806547650563040488405012920393758);
  (true,122232825713917263802647265642234807504562375416267325378704391976513413901164344767046450651884389);
  (true,127141706271961899792339971173636271209772475377356720303730808002090399685379717188816510411322991);
  (true,1076204238080016718688258097693849714878834884980449074312207672098550346450772777985635690535909556);
  (false,6653785435127069074403308516903737319929173886730469023068796568286543462414899762549261210183110889);
  (false,9711619232610586155632797777920214408096345633730872669907316670588658452678708987147412624985626918);
  (true,900664592979727728538202598012310168367534139937647284846026119311393144573041456930426270467173339);
  (true,1237293514025665826322014029373295140830741286300678164702893148422050544151631629444832691703207374);
  (true,26830025382257814705580518658878680399529186384197230502626452143934696203704594988918015910013476272);
  (false,907065483892650841136720659384286225936729507262987323699068739615973745350839681785872217544849961);
  (false,9457864070406569613001988519279182710927697039000836528109571099223012632843442236162527926249759029);
  (true,1976931689568850133795196554036575974812637924712370284887422886085804063127887033930535745990610216);
  (false,42416682090300344012680154552331727746857906611423094995132945695934844700523833894672598736493824);
  (true,3214192117125754077457343009770055618610365085190442220955897832915945233591408935552931136236666906);
  (false,8162133555061380418611728347031223824802908138940699622369462853456976421371336146767354537200745);
  (true,6095766011384150344798620517470578770521566372571731941722739332083752284548687939130474776901764206);
  (false,4679998109865993045071029841292200023014978536385095733630753405015176448224534674928999978211482362);
  (true,19880850600157138903280255990937599296628831040076154681571969863316736011099284300053271589562731571);
  (true,36433458540317671961955311323579483838131218969757124931955401345926967213090456045370248018768239809);
  (false,3368895267699342611375480416507099028209843805539074572546213243871450754679542108337732833505631991);
  (false,10939458887187066398643943210916566774676200069433094939304939990870425811735660083934256215937549220);
  (false,133269595525758043197790987769670250564535224682157187807108628703835977480990351412521756632717290);
  (false,9736027163191977858239249844981832005901402746573808311417472814396901709350106113194636609734644864);
  (false,8150579081131778854929662656835637676706370431213968861747350963838114843975199575255193765501873);
  (false,14706713266856122729650631381787763140073444133153698203970581859403255556862738231879775795163677334);
  (true,2978592599144419830237787998846426570305681247323439543475034951817896603673462399030036852555901265);
  (true,2144745415813472257040301561088713403933705385892375640056291280393793169148535224353890877197846844);
  (true,275765460082859911744383001495125677752677866922786419690303591937803415984039300014945045687782235);
  (false,3341384998558375258827214348330600415274297152515784747412398567629795756970108100933087756494376);
  (false,13832932328104312720872023947331639822542370689138770219837554481984136101702394557101345121508840450);
  (false,478176648890401797863617961769540865541307985528123421930957397028689713574922813410008706242985350);
  (true,117211737243505679107153151865000384046784947938669420003395686915134885741962794670337213188245862);
  (true,28740715365038819708802910057599082629988615639894739521719710123768466899079852248186127742813154875);
  (true,3941581135492354448762152274951807049715315693296696716867242302869250896095630189508645509450069500);
  (true,8846864217049355231129265645560120811727080396287192610973327355953427362331379923819821417881909569);
  (false,260130385616254633123374094667577189986252682152258837490771324198898959566285347263359067329388797);
  (false,13138317358147617046192545762823180541907910180162128502516345894341873050508270886270798194889587378);
  (true,9860881884717683266362440019952047568031962732618233202792646923096908120445775547134319304831894452);
  (false,18363231879969108478003181069573214960925716326465388724732802555992188405840204314901284904019540649);
  (true,12512741436012153154455713733043317914112572954972188787848760757066211580391132693608574561075663968);
  (false,3577191869935229456715013875892416163602836851934564319849886908902459074899610810422479367073310481);
  (false,12260001557493147587865634299284567293835054152765853192264122848303014512840788659707284823133260899);
  (false,286078025425999839853889628090280675921929970690894272883227442721430176598746398987523236963853919);
  (true,11627960850332139729247625996314678442528977353476724207734152104421838942085364316863597557571497664);
  (true,15332370572008689796932928489744081103973596728038232830923040859640248325033715911935813573109009592);
  (false,338226885223013574934839999104854362828442937400391241827072713650328144009568060755672407700208284);
  (true,10051452795304713981992155756523310893328715946700896408459081713858333597524326284117684796178709838);
  (false,4469994828976806091895168677118162292057820300638051035760898951075447361961389406695283532589840436);
  (false,5797220307160660347769352551743270414738127032983358175894576654269612560402483390331756485134173699);
  (true,11001650213601414203681281463084802477856352978498974416764151957947853065612069106402676289454325199);
  (false,18428603264703741678183385889644533657790990823777533263576041715237549703588929317837396681454329203);
  (true,6784789111473557755823486379723090806943522196495844541705747758151876980705669820773074576012581024);
  (false,1204685325654903298649644499121904188542625453481602038902160190138127841938125954588958456386340987);
  (true,621961874186270612907381724815260715720815063050877732196495373734705526435982201766744407731868244);
  (true,17056319211826455964120972066386807952790634959203798414499913049064521152214461359351419887518141343);
  (true,38076038013244510193874295841807722732301950675017999338596041189820609986904689791550853554151922343);
  (false,13870023671186485359329478225578041692123916614775528030178629863613140982412854056116445897944524045);
  (false,951273021157486412534639995173393505509635727932167686862643293764649336532509412666263062510532638);
  (false,12856330800922520611635246048107531382197716707748061457289713140012724524893221517869658743786728);
  (true,21582277532597747155442021035213018544489926012999742346776298518347331218841548200796013407462238684);
  (false,11996793203475565571287217767675482605046463021830821617639977597094706320037832851055201738801905068);
  (false,2184719951411881057120366391439539277790693495071271613426593303380043756368874169900401524105873);
  (true,1113083179652544415730109407791896834756385718021938801426018231260138610060916897252792175225542542);
  (false,7198944523975425955962851577878090949855916320684810401294517412327273807457986516505660426907318227);
  (true,477062116688768812893436233449802580971291227315315339511794124365365737456598887422099718447225138);
  (true,19121471516668140899477755487090825825911825859614849082504629859675894680594125126559732620073717952);
  (false,14356091488003245085580782043031891076575051003592338284819647988370882176842523133230190037418614644);
  (false,3321934624046267541946748268413260859383007749010857983595034775266487994898182645961209340405334048);
  (true,2823355515849950987817331870364816301272995556505897384206036970907848746596055585343370629811531582);
  (false,761469243516461662099430757627794272685225408283057302816123366608885200312609694821975285604682692);
  (false,9403905648683894588089821280317964138029654957287248256465678671448568841554869986151637123154283209);
  (false,5352752895830349480233022354028690323034818556648034151790359805469980732732545890198905706085069223);
  (false,12228674578333448775179923059900460994309802980694803017312381054626317784850562424797739934703372169)]
  [(true,0); (false,5949666155877049670622228999040302369577136983567677136581975164964138846795668121013059282864531400);
  (false,9853989164506959349225156750805621832696467740664398442073549675316728567896946619416536886913587690);
  (true,170752222455784067271478599476642877695600826004904849391384070518000344337361986447453106992617586935199427604528238921209401450842983541665239331791263037488784263487750195564824711049667718961724903);
  (false,2287352129076071965973542051965903422752050583767496311564847376284027291514638360866964936919667861);
  (true,71360322317794147857318248266607829757337011117930237797851307363693123399884976340025558167811509772323248054327961959336700441197763762891778433976731465103749705686692937509080920397794720218795586);
  (true,13178022402006129746871482777868500301971537786041536792030963757005708785049824001315146878903046541934781233202389007069584016317831490267740711016333135264135873052884409702959422736927519354870256);
  (false,130727844736003441373647101239531369453310802934370903971198336433811261926200624538435730704833022);
  (true,2282738518581850022674224922686457026615108607753159173037622436301223630592422840028207930720925358811851804678895815790143653394405885002901325275310817944455484989585538260013461243951706960644721);
  (false,5124153500611869928438728473158740315834739661396216288753533618936475852442081548950488321365403881);
  (true,7589635754788041788015488574088109518643861002206747937866333776536680511585709611107989934409519241623837399145539287039575921408033700046814347166477501135562718718640915765822205860047326594469134);
  (true,724213609736660282199384582981886924164409668195916452842881309642436393271165627001597988811236713125613561849855382358847732542326934023587541359488007716692491036509070159314818243957415910724123);
  (false,13525080047691522837195460464829616443181898321836185497114029146283641651627241178453836880335165608);
  (false,4888230041390082368721247347158091562168955146362633135721601264703128713458340113505132575445695966);
  (false,14022377751304163508294221136334779949035199828373906832518696205359295158531659374297514456365554227);
  (false,4022976202095703111414766420113683400933117520628287378493457197900562592496895181587202056188250568);
  (true,25376865768657830785739563772067833610019187407997821013950020368993045199138699705196904147785428313449192991330515899914829453400250876088077319148840529316936142133620407666592439176722382329186889);
  (false,11883214525293257081474636008231215070126342484351500718000849601949517053094892145412764194186583705);
  (false,12517212973614084511269242387783439700944960417219536584675497721336313051785051477377428290683949486);
  (false,4727724177926395966366505630429044196357929203959391033174885810073840854129650179716960224510976823);
  (true,20408676856018727711950051176754472843468335526950244562766004508496440239063002031834320151703623621503406407781293692966580806234801184380413109529737371088831452285490963551057580366791665637685689);
  (true,7176969417944131491148307334180603363904654128690598799008476147631673825796709109788725224019177933732140631725759109599081290232575720610943911100965416812550192093149645511092571869026381372779235);
  (true,122393796284591982844141536297804239278098579693745470655084606506007139401798276074975022577023194915411100914750269698247155998292109929581306895508113209643692578303162333453105614351397425365685493);
  (false,3701682726087924960265347288860716373318735742791088375338461886738007388472255998750607520313737067);
  (false,15233708004984824032623414153624249420348321667749136109211795609802299700942767200500252812500202899);
  (false,14511487620400727310344005769296717157944604794238964609141416606101226417455692055130431758714738049);
  (false,3180450886363058136149385772808613473659621816804308333751196823985345654227450222190295865753907201);
  (false,6143010949782664679260395731109337030682997729395230528882532404722101072691868692792762015395591664);
  (true,34910201596683714912920903927930161399212402115505161660850498819403572903832072917517315779945317855330830111218842626119661635479228060278844387775624351812910798987373893679152394771907919911014561);
  (false,6133466161336840097886831395142874468684369976194067091148673083839729589287046753417159507816060063);
  (true,6549105463640420890324768088409978800759760198925184617173548607035836275336596634296398124463658965514754377086940958592219959266152869518922824431073571407710160168006500821728639544459036404666009);
  (false,18804848381779614060139134047327209661928480631835390830134547305403235761754899565112701195582164095);
  (true,114014919909423346055081085039499918471662877878246132923962655557455854451994571150152570275356366107090605687332242749579011598327700849459105883071664986964399259683415910235009623513101542021792936);
  (false,142607224570431853073764389200788532499645394614390096193336363717502433505366270822363995176494304);
  (true,110994500678405389169348498906833435345012425596065844657791012787872993257903175661443951214558489952076811407902381624884179789781731799518787062338514004654855719074095556850885643284042789662234910);
  (true,21222486264353984536338543860234514323138415788042781088148106453246792242970656597068225378378370765419461941353316233425461449044670527509441989906129825732523404973518938450183315188813016225642461);
  (true,25922949700446364520386143802324055591771257088391034885283383810735760458050186777339178371172412763319852454794273636301074607337359969885869959937963784282146119528123718121587050520907094973119844);
  (true,28988629113233403845824790799038633285917775798968800240155359065969221512449481751183243069341656740762413716670386218819360034907447341402497663458917542227924584865499824244002224186029858244539212);
  (true,40642980626069210004327244386724113266740857567271745088492045507817107115173827114733375225102349259311210019340785180032873991639276011572380840084069401594681084655157136995258876601013068723687911);
  (true,19050113496208439787131009388663181857843914890876429867869874102409182958561401511544032132220038176505131706733561106543862561518323856075029917254696044358527314793594770883074256659409201677995854);
  (false,933830036755881540924954935705380420946221660163944488623864743045520299343521739286615253630667572);
  (false,7228652781424617037267870766225203797361421029727447237088721751053678410338547829984948386290784549);
  (true,51496420770245499020428708215937063252805374691016598414367852356163922590239292236346069559316356831366960031331494538231650900340592289465205506814210000588513277429615069497681064566572022343748741);
  (false,308254124900999975193369937780220704014197634894467377024493066755678196258413510805490148094176153);
  (true,68730407659695934102252975930629486281367020392868503934210334933073516285411077693335021447054305638539015598238201190383624092559142686929014332739731337540258524554381121205737343869971220376353805);
  (true,38714895010048164851997617606095533479466007370894602669026930966955234008289838247854258920093599877442270630450896542513435034072427035780402314397178693923713279252995951779183381343795432741357902);
  (true,65149133122667120116529805978382680181605193079427192193348421847376412289348810299655674229384900062951902029379977361262990148591261767886560930674123148971001083259694980480861955429026253854988271);
  (false,2790489528921441378401626808082499976624890148094759588993833758603453404829643104030456068584000798);
  (true,3046522763245100293451313618736767794117901957436479898601301091449231500602944880290996369573161645027291280562311595955697078925702060084469105043158513347163173130555431177036153598193229377501783);
  (false,5737529825665460593372865051845344155012589932287592315133597966465541772402504853613544211622525288);
  (true,67187005112693978618481937101385066432236202664418225176575222718630541320038685347197780195531830856562102554655429268641291534736765676427974074296661919244718040119199843746058345053269183898073706);
  (false,7792194932447233336227863735605713463507806187056359757763859857194720347875261815838794972872131926);
  (true,83946107353937227038472342644298974389746276502467628850276096485146380535685504876499055743235399399510748831497379559553557671701033104302218708742334080217693802990334129374596602691709187622516983);
  (false,2467821488367205788556394641265429093481369265889232164173997688299409384486859444475295422942668241);
  (false,582614684409595088574055753450150356326919014111433996438243184988465918269729389604017839620643479);
  (false,90229325721317937804359149916179541750970458444726606582880823269247271576410478972990134719645809);
  (false,94352789172725928032974726888502595920444986741562437878737232462285405296296165589806886829019956);
  (false,6962277042420762310153678719228320472305211625770423305580195486053959003876442486136619825842682733);
  (true,57434708597632621368629010285385033850542141416426791563364905790061916113469778582334440496466504145146465433473424195260013209850917256848211479207756355069794324884620302784512412263828139129581934);
  (false,10128420602957343329185773855538457089099644230727414289567646475037363372783307627117103588939693093);
  (true,74247981020409380476900071993312699968183073638685607638369458573872737359356816784297164539714729363518075268251244814800093069582452048523782553141072320094989194393648859867005170170320959542785738)]
  18701177674353218954199996760449378060637262982902408201413957766538278517731393484307121727027495060 prime_12397338596863679689524759770405177749801411 prime_1357291859799823621 _ _ _ _); [discriminate|vm_cast_no_check (eq_refl true)..].
Qed.

Lemma prime_p384Field : prime p384Field.
Proof.
  change (prime (0x1000000000000000000000000000000000000000000000000000000000000000000000000000000000000000100000000 - 0x100000001000000000000000000000001)).
  refine (cert_prime1 _ _ 19173790298027098165721053155794528970226934547887232785722672956982046098136719667167519737147526097 1 2
  [(true,0); (true,0); (true,0); (false,0); (true,0); (false,0); (false,0); (true,0); (true,9671406556917033397649408); (false,274877907072);
  (true,17498005781967807588098404307805206039270564255696779352822511676649411761257144803998831966580555776);
  (false,63214555585003706632053389987810268033311827383930600087906500369845185941481870020569939908469676727861436);
  (false,22163630621865906220707113204254238981404245971991273529685186563884720820142785344063074649432960552876754693849608);
  (false,27480680836328851505716197028104422460085727046145028804173099377748177710205743374355332806411663534195198499380040);
  (false,30603221242870602192158010585097881766872685866269870329387894158552211436403095216712990012195346582414556975510471);
  (false,10839110519884581833107336209477237550179506588077048520781535826511371242151969049299629651585788432960701211099992);
  (false,27958758576601974925636320931235416384060115625862310948357851126809322771917734674687776511076952278030484392043037);
  (false,2135778377091482315872935568610387018565078327004002961117699176626778558819123636708247037725359501682197154519245);
  (true,11730522896072346268601080659528997502587719103667142258850781538142336866350929908886833635718035732510267548657853);
  (false,5663599688930417399141184217416486411052013125080979755892046308592619859094535131121851347554984481664099213710085);
  (true,35109668528246469549305969894021531856397229261305668975822185377298834175635031420748255666915014671405944021554848);
  (false,10771217360808103178745316068538675035789611264456600147721925922488981932448237248662897595775948600070565721258720);
  (true,78475654039678914006012230568440032607318442883720927967012991531914473779813688060643473511509948430846563468564551);
  (true,12304416264672690324414516163233621694075984775670941868041015340728666530733399617762694667514664581347743276740087);
  (false,25439826420544210370508881822547746834439667522837694703275660908957668665176681497985404828849614098682106826036968);
  (true,18930603865801367687072672204000704648982995485146138616159070188849736243874192031808553128082308370022467632552354);
  (true,1939603705702638545846034899100092307805250476118189212940097135272281237035271788396083242750741477427352861991454);
  (true,44085040519580462876018441831795049456431878534807676940891647713313640168610535154252989231208874271369988605948367);
  (true,2778667088427439219059554974764289575879277861684335834618993915021437669257601583552682192355535567702014187576683);
  (true,1965309868308138438582778074130166020727268995220125248558726781628151029077775367677725502505056871279184398204491);
  (true,36836288373828080368114773952647174557657358211328421618419260393420878506629265177520753566309104136762046841795345);
  (true,14297989459702908789730872858728626070955958808349575183555729242442465245822078021259151218307000505442406653657247);
  (false,13994059775608020439258975612928764428783562218524500363629838910021139381827454589899142569814220801016618627676234);
  (true,7791549603574726455963421403216920054893428228184176656391681665574097479571789029791130267947012354974491370136081);
  (false,1628257259970564038023990092384992310957380366026540365833156996787398422478851459995139472826314267755981818560421);
  (true,25134423116042003288303842773144516314779827584444499653503527007863515682874374109865626480753040913956320951558076);
  (false,385903157299253283959596808803383429924543821426491318732996486216470222002630249777992249498335766698151986346064);
  (true,29237877437539096300643270505685838047299023791626506236940801153752828472961498567863086889403935987617385218495196);
  (false,27316064512457529518895935786774035096047220714895768037875156504939433850688222510534995364353167937979567524823651);
  (false,6943337322616107052454608335750048444438079175612725132620023326235143699268644883136708209306475234127571189934521);
  (true,72100818782525837944384852172574799550969106693775387196087658887379618982900403639870333925217946987173091550547082);
  (false,24195551903667271214073522760405716444120299116515884093130740186030577522014404386716097047758930887634644391054413);
  (true,6383779375712324651835242204414772089735308272724027790523448942908337294625977598759607863137127063410390546732932);
  (true,1245664880958691918194927069178124971898532222915357841807504821498743003188733275282852790030020335126048251126634);
  (false,4034812095561726434564216300018271779170979559669281394487959034038284114735231803512418982432871679013500909954288);
  (false,176785494764659535466004901991299452195651475476496712449248509671448138112653306236975431717686416003024142172237);
  (true,2140303290848172654506732587820768475169783504298383902606629410713891863053173320346800033250702453140249662780198);
  (true,389499612539963924850506582765950498020451526121219805101438916270552329973802608993912761844655061355906014388693);
  (true,2901281596078456644324197405257108443932884731087636844496451718559541958774746305623118409334513982174516280777407);
  (true,72570337614749333072293432514793708829964495633734415321035786571885673074886171677702790277460654762611805455060432);
  (false,4705187010911092663220326127366560426435563298709626918044383803946830487651244661681176447543251982081078211865737)]
  [(true,0); (false,10758647529797122558038577276165700792453033690571174148641592609170805246105515383533249771198430885269398389964817);
  (false,16559701022367071523242953432282650001113531799804777412636837038498237583280333261781538697021030613812200854255275);
  (false,16464704218675241458675004874364400993544459101570509376637279445220987120581658044068266268863589890643539916730330);
  (true,571599972953062017504881957722125179028679968167388245953929404587469602740905672434784703228718011191537513405630520569117492661617329358421080292695675865982954045667270989494255848566460182540864099338124103187316274630891106764);
  (true,44770259666292689000111904703067660818265496896129084287368744626499724472521885682662558101133794087041290268105761012330058474146921337968056748688313591729018535352901120152598628299176465708423752807735567480217382326658492213);
  (false,5416282010375058611162172959059498765575863025707120484721568593725710328686786297374159038444345434702482265406070);
  (false,6699236014351699093856703000242974772072643269347686208453345032634560093899946903126422573889488447885733609916570);
  (false,5827458634035822167545878068769898513310374138048561075488778728924708004757619828712927697507161015125050508244049);
  (true,243614937546180083052308126899371641101998078007370977036870871823230211834857307378055486910544245500846679301672525922540961531326837375201607452410356440099060065206887480740982031143290591280344789196200046760995227530314845364);
  (false,3830293529728820123943572402675024610149591965160395393663651881153863522160445774067739277531112486267007330496233);
  (false,1579855902192670454359096086227019946069128419661446019809318555856381253692528480184007788344858231711655578422987);
  (false,28976337979290867883533896482981768132376279964446342022572275810732419330667184574044164378739852952450031032090186);
  (false,949891548717999772362214507027501939314550541788324726042478234724925167646068386515577000626858802453946251715466);
  (true,475685725441303119558128128967959796787039358989974198358499717983129299755657129843629035524273248574437076636747236546079661276381810525886862285161050083333507339058496501972125431526246760649316169427765881965808298029657439607);
  (false,223317208953691900900563071540296938682592113645145468740150148210516163888149505058606370109098599435162021749456);
  (false,24130040597391813731223617068130395499703529232436723396915001588870716214241870889531329196930610855509813348534912);
  (false,9070313536477793525742417240330556344513003102144210051847108529964442609085943049763722200647655798314004435000113);
  (true,10194663707007865053545127170053597517552720277488795807121338918630363199384263643751174880074538272393315931948680045758354064594867788046510056750819529579312018572569748268153439387949387500771273793232072881930874122597829204);
  (true,595183607506342004539077556747483164162385570320693929294185608122756953079090916309548472289524198817240312214907300812050694887286293818881840508278489073050253762395356893591098764688170800600096038183001468120070741916811465755);
  (false,1495385534862565094789439635319683073149569301491892636285782808360627652535351237115297373429587759678878151625898);
  (false,233276453370607639660963952752172950492438917679385463537215783033491953362426049109161376514688633252809862355366);
  (false,15668840834835922788860203349284509909922071229446894629038058812915646616789822706216180116253572735480029752392191);
  (true,75822374872173111440902860639738178170575148631064550413363743974230902270052675319157224048575688564031630653301501519165412255946614262310254382997839023140461900895769633339134317784337410433429202935493608385487469069803209771);
  (false,4821111397323689503730515101489325234772722016775955817774562485538567736344028949276712149150707092572144783745711);
  (false,36962213502746843658209229426563873522131727769654829961069044565290976272262972466954412363114276371190857569271067);
  (true,746600709006323564478338406896620532241080033294966353186824364588023647243252228654010259884709717484713582779233667526279016231647696406080372235676769820888545755767815351306984679843723409765916600806263566233538583814860377);
  (true,284005544961958277477071794313583465812924011127234456013093774308868634015904909788502662254160896224636301665111989083850019489173531941737641365467138184691151841231689176641413714211336739061514796310293518966021637430420981964);
  (true,144299680329262654568403881670558971119441063535974952461241478092365441840918126699592895933604236060676898949781594729958028465840496211562823303414217955044623609765139644501641148772497133164774767219651107419566074962042458029);
  (false,25389786681988720961732786854233257291953819239067352863434929688939229028199678488175337998050597949269578126112516);
  (false,1700688455047424902884733962593383762861348205723645542084622850600466262537385981100363978459627158965615146689896);
  (false,29112171629182967230707381080091779837496768642768560196245164628317144694082904993276732869436171722315994182109);
  (false,29549958759373123035146997843959447559711072889985075901182071359130651833758320116564508310412656874795102626187950);
  (true,2230629324560594217967176006420614556806347330512885076360612221935111155186611141373055453468804487007869827476203465735247882246551601375731288869392684640022213506281133203082959288375670130507476777103634081841289716733373391);
  (true,28711605180119476877911775157315600385477938698059490007785482221933656987826748354030368772037448716062165142306109763540139622826734877677345630723263702792432754779834609179738421031049094174841372455779161364270169289257799108);
  (false,18394505925588769211720489284865663042786071521943996938976352816282117035466317335581743647404640204720986025986241);
  (true,87476063772966980924187693352831892565819509261385504334006313451401999845289360313305225395261103042437196992965105009389091436809523153119821935960556607939169877092947223678098285276767259049924305964416165556404894675612358345);
  (true,62468422985416899232255062916391312064297053518376770079481905840478860584833117921522203491591199814483983303126872859204935010665714864633151917641204728667007026921165555727001309972510733060406083671106835959150620550088914313);
  (false,1409189866024479794602259233364804613601355908458045513581718578635410079136900705645972252882472967976483271020503);
  (true,660154672215291121366330227675934362905204325511822708824698400627914537835121017900504386382828048051997429010565820135507857096671518029099588470254939259785253709268524810829503458875022137261147295904031081444145218966723133574);
  (false,16819089224567407598682934815730830277869100736743131116819602126015156537725777756332316507520058796478244245362547);
  (false,38119738718275547813951865913601714207063432423364967904199135445265734697572903547912572393348241937023481585491977);
  (false,21134129278660220757649407598450513377376399257690003987463503231391334092672960382635371659766457418899069594034432);
  (false,21364501990311424585376147727355089848942688006643575933873174129824754742590903029713657347548702965780736444719347);
  (false,5883156935117007476352520667440391571950099061012329225990617828666781793580700608724595095261291005451686225326989);
  (true,94582064060830878245899157335963677417919798406608957080656207133619968203594513449634756095198161968257746482057788368515187020717745050466387280835676008787340505654396947501035747462189784947027106714709833343396589629981418064);
  (false,15737787080875387589604101972447883697485179502737305156645629449679366967992430646874373903086428151396614850207200);
  (false,11806064272873016211458052720664782303422152936894576647996340386498612605253668952990357738159632529773087277788583);
  (false,1105784701958024199921744285732824159392666421254608199300727055416676548711877773032096479024111183083785646660186);
  (false,34273931320052656491359820173438390661376418000491149051448777867002429506479498293727704482156384939760098288384759);
  (true,20441985284973349763890207855615563178960629192009042113010967516556999033944257576788762354528564056611580116210212181240721388406176067606264945665092209107190960763445769280337010582753429102603453260465943259745077684546020483);
  (false,16194742820950604681220944833578110926140039399708369642707404782818136482621130712324037880386938777936164177959503);
  (false,18211040868404636589952572514041619805129184466961200192412463218974027930559807617211257467741894072150540945633565);
  (false,5834759496468077383083467766695276983259862640833519909142482281770331040535266458642747272017224737963135369708675);
  (true,141021291953889257024334466574555296430061866787674349245683480859361075977418617642763529788685282882597450592426909210732324450194434332863009690364930788377626096723272144026492244681093648954297252531749457485600531267205151697);
  (true,1412059073907878575888572446770590831595304743630758151263529882978029173720497203387746485328843504491521628245675271656674635181897211284089583278600266111487879928437089339859559305458958974259526088162488897678684728416596809);
  (true,329539642997072212852348486024997733729266711001000069996505777953752730371504066512605575781038556283967294666727221164601835501357171155421697451678826454551037049492908999108903912858257010113133794112700351247978400989790224193);
  (false,8749595760517264731880002505783518908684869777726760942029380129679071480024803836746534007177077059035857664207598);
  (true,413451543912995733511487802620940458298370079107289036827845467794851673403190064608161662763979006331427988500461079705120087233444052745838170797094305984396166694851160914500483581716051283555511225155390662292095107592079160159);
  (true,635511162416268094874799544348482750408049304435208220840921849241204125499153813399836135406052985792714083181189615483664719210051188255678373132694884122176577304745856138418460804307139848037713192124056825500528147954249238644);
  (false,35595621747073530978772136644454218631187201311620554893416752761832263568275108088027590519973230913421363935894732);
  (false,600837781115701420201892363359587406107626125456113533894360971898691827758722649808008151164613702223876731205821);
  (false,28500997977810095106732915825891800070030818643963806862742941501589404809881224887279389163282828715814138003997051);
  (false,25799406458607263352872136996636431650510025406597007266977922716774293910020375584761363330018845460543185854752395);
  (false,29389051990135859116510727633805584486158260891658512712893081563760987004315801764285544985488949794386915511872581);
  (false,21217270275643999356018074296247368101009598411772053922299667006662163850066194888834435526997426641171433907030383);
  (true,740216880713053124171647269321226423486823639315246791190181691853947947587479569889950370450532325269561112690179697814158973684661951271798351256145465032394313492837081506220082049407847111324387990410669520182816771299177490757);
  (false,3017500330877787507662360346564628257546101855535614731379863976935748674204412145826720348329225891162853947474713);
  (true,21401830039926348103862070747104782605178837668097180488558034200633666124838368626464192385134273428853925079542385219727973071345432689003783522574848887288317833926056177960088743169482467217978862117127052609590913509972168361);
  (false,21601687958028551816143170111001114370312851997463626530687955959530024995685485893012743534533166395434225285401872);
  (true,335037663294844410501986360136863262798937851681073329624510526899729220815197107707489888892519250310618562536572564879309566000990007274680197419605907805039856355160390937043062584658953369248434337227047587107234757563676886623);
  (true,46414639304141623817304748013052190698776815977890168939425253298444353493647946998867702810474188642379070438842250546450158781196127851407944216796844393315024138011610680807007835848544698782356665271628731840580254260644238316);
  (true,786505145919030769321749451235798058312931713916299643664569605708658586959396456687407012264402131320775395551662862772637487236136895471280532381060616784326088762249608811189020221523166389212915268278430312159981356790420929793);
  (false,2932695476089651127950548143108313863678196022282771639665301380134585565366201553061404196497763266609292689981568);
  (false,29457610324987081737021614968350539927411218621082623044555305334745833974418683842234470955529381229659554415350507);
  (true,137205513487411129785512407375908432174801546786726683638534956468130953973807959275766938982377872428397370150110636535239242902387406908340400711752746555257742745116663689379825462247782030739797667481269646983140051677169126966);
  (true,211217829411770599575743040285525752090285409800650515516777004461796917848612221156009039082709699859306088107764322193445190638384917157529441599541123509410568413820210984898075846287318956749718017905216855149562627489939695495);
  (true,340415616073497900205179351799756355293470970443676524391459845662382906536899638493820871572157790400027174919138436541692549724476523357311055473118702647662333660901355826307886958932725952298730020809512584877367201011607208395);
  (true,17995036779997766086908276000856994289819152703621576505931837592706657363054092999195925368886638735532207974492579026600478975589154293355609144125033673955577313351276788880473889629322016327477817267121321047711968672987463762);
  (true,38840418547743668729386534615285822102610614139319429479048757688055900907531061985747695297728121460813556877732701163437065720577670984843720813818478651594801228933410780432650206820870318572248521220875773341524465347431619346);
  (true,243106203678726305066056235754734629953159266756932734748757185988664865326321400129485314927299069644899582231642682954605851794747205289113167967848382388890055623438871431373362372303935809210899665029066141341307647822965778158);
  (true,115607367476940315217044227986000903775936131686504892167048918994705917283606655572245491419274530696976264467676687721461824040095102449352275253808255916863725762008382688948974548993920413909468562231011504749758551628247491021);
  (true,208681153858229007735614872501628876281841445617751003458896517120084535859463373593295612242268975453429614954999512131192478224744642458643117548198672052874300300366456299859734409542116818742800763642682457452611971899362950685);
  (false,23333284285191478128371996110374312525803795301116737720270161173028853002252637587993826623326324484058554300097650);
  (false,28515900262277661797424462297176826371491769768241328375495970982990629017691687700907742604581669518157387611540292);
  (true,504582435181986955876648370201229753716312299338931612386772803971627891533789763649492539214867097475688098717972670164382946194216601990377323943839500218240194340024008495460207344724661365931381688949674807818854254390532362089);
  (true,267787277071815213930756380440901260615813605697155029775090143239706869049536870156200065213118148787933114920174472827845813466039371346544576143342824475006575752593461059635817777089625751289341473381275455330270268309549276643);
  (false,3020209766657887324196790258828186419488727589100094726186883975594788975927083645298412413461735887798368186414636);
  (true,261367594643224159335208799240027856507769795589489362261334553699812820266760828497826669993471349188770650113786709620122647744114511238626328758425013153204223963268516362440979366661286556410662606094749020500615619519432462134);
  (false,5753213855640470058436810758810174566390821506155493088000975685493774458005743362433501607179854775600717184807792);
  (true,650827361780249542925656918481771748422153567602125419249211228126548948907353836433196076823034227206864059101453797107586055664588946309759752963160250783474351433496576922452740648641132961818660647102392193736233125498953412652);
  (true,346681065704515909256625388535890587150800508637384312311361560594071127047454357174277551407915852756818113824292852393090996067065179867161305223096297595945617902099222900571204780112712467016407252364005342320116739329857338093);
  (false,4866965154630332453869040962542319513692084989754675991593728703078779784831007011126425338210010961246111824112669);
  (false,19028903859711627704368833504188390200755811957561865440955983489234228819680351199301657088726141166784610049066632);
  (true,618342305333989593091574902966531280996058969417457421719283907745220732777109729080151718505311172835368647144649742232892830737788498585904482055895651860044337983322017367071693503340281706551976431076205532026956128351981741533);
  (false,28348714961235298318742162196227010828482903006078770027468648043280882592780262655339026123908844464440319836370358);
  (false,1556439614701527608191299738695969822782108336164576573404932558905250951090016166718758044266111374173410974596401);
  (true,63825880108149738528845656342370484717817435001062791447839664224774196627018419931020420996442002924094010866161617216860970051654896105792800469435303550093307786344331872863641848660781655851543552833034784484477200154211690555);
  (true,32558060502931564167632667656881729937392145455728043864355000163510916536377946085027031732127116277031856863393992320889778658106371201732083802253502642355966151519467290068188999092544510153399300237817122578289716886823550);
  (true,25977395297283645318006962836959146497637929624096207812052676953349243493919827591342214928656329728339045289244282111830339738509110472113270902086498753320571978052138691837835795179088281977155610536963423646362914968900086110);
  (true,80197862025357404764680240289238805152710421690569859323934858366673039752385920462919522606770660993320567730955414174194284418022094184683256539770809339705423473099400067040310008145983375926742379853532961874367286030345653276);
  (true,346191494194543814932309105634117090975005358557648495879986903864082035743727854731083811159145063300484617930320995565501591647127259533537992423579777028236033997432386100732741795963238926633741826496641775493863699233889334276);
  (false,2095694600322559886315877839436260370919474319706563755532563790842947857559811618462362003698445841618258775849967);
  (false,21721246326478416826813836080497990939767980892266278877737487922837416624014020074879833986632925592411609273347534);
  (false,19671934856212708257707320114522775346962511259892416108786815581383238157630936816396872507796982784370301271907152);
  (true,382111884607200149587042558147742278128190411819208458451994169639172217258150347108391259143209043629651076996537656372441056549694743662486769313230820741960488464184503946941358489809450320395356661902941889393042952653901205822);
  (false,36065942702561496549749779628659270934784173744187359609837702263390217671067523969309626189542530617958453064331428);
  (false,53937795913256009722355035080290716029763953531917578288816100969285299801180343468053725930747214329591466409025);
  (false,10114531135115014363268626644892227171679859689233698080311732094481801228528924327426143857818928503721715329423255);
  (true,35715390797136428586551443297482131912751823478527285124686052712013414802377594043455205370108166477868414685087386849432531045616551677213891459992541759010225992175603108339293646199304668712689270948924937922845443130236969462);
  (true,327494937630413801118838876384536051370318869682450881720599823286314226063260802208745319362857663071705795833314432729443000118745072132184974048120669472811035466705349481267291941160046406956864280203431276086810469114509246154);
  (false,152207594170970231192712494438568442665830852286726869765636556884665493249064007883361809650419480647320105673967);
  (false,27258149981324301326559622566812384261074076068020409121098193503163019214472208023513373862493975678418678712721819);
  (false,10839404465001068622439090652204260534813578598593410794597312681842541602077479752177657578128593274608618444209094);
  (false,17834298978807093483279063842274148946292991199670898839669298090945276603122577596762462262377204944519388068753781);
  (true,271380757448040033396580524726633195982877861600052798103561834687789772547957186657628173312248683473480526208872448865226821504471531915147114570484088152233478414184450048873653309401006540752762068557536409058175927927496250940);
  (true,76371897678604071790214707617491719111691956836821640633748933781594813555107188590860275833483398496540409726306282169880931133788320620269780387976656960019950947194349430116789976346358679653777198459680751334136855037003703681);
  (false,6068639033900127018427373303875842325726847971410080175009019682083388119628249759878085291809992837226715205901955);
  (false,6692467197003349342387058022983939872031438136658167501513231562841797229682134276056465581714804968249271883394301);
  (true,90389913532583888068830450763818039396698080109106085909156393218702050773710745160167506677992563191456637358911444478587135086253848551651593821937567675192223790507648949042744140944242325041009016901084217685262226238220307930);
  (true,81348503939480182732832696533892056705577515976227279278701129356546918802698725278724940802593151543955084724289528330929324712418691135738665509020092029223983224633084031287251427972101099774665691126252211431553220977925197181);
  (true,611063052712973751319501514545269303458152523677985284285080651321116873243113283691796789178878839542085004879331640000672856487298646369698838902472732861317816030281782952886450353130834188817761401779100341835860135791079435299);
  (false,755704712733316716478245110196213249605285868829957684701263841793519746550165268125737909646113885950941832783546);
  (true,197564968293113366913105559987686957163323286774660211657525777251452212321933039523817683023216985841080380448363547908603386640701722502817047031973207529998499887346536458753654525642235405559573569119420597261406284626836060084);
  (true,364687307840113484637924974926070551375097116642319784702253796873041153177098279315416323437934429603673555853183333291322463631348708432665899987547192627144219319624500143069531073061756346589313108124512298881820275931642402733);
  (true,207800630878609623273378470403102222506321703526626211831462607410852908208427938603479585107537747150999999271070662151383073764756026013557960147823816605565001656371144340805474367417112599785616648721396428297549112712364257278);
  (true,233861882819635058559907766414846503667498766541624293797655533855656401724760882902204710144101925616258224742409938140492988200641836516618232946148245622173285412135210026874796740266202664774819554065107249634940624900376821558);
  (false,2074088525112698003269701525148224435860106046759003161444862246836965322787508980556449665929343886555476674528926);
  (true,7526564491185496779387946940070858069167676187220903035108284207229153276576818399545859144106915950195625521244602398108344523417155153759966212267095709895558626015578809998663643467618895703837619940784341637349874511248220082);
  (false,347574654171045238003530516545820466738927217439082153715166834165934770812410856828535704953693182569499622323989);
  (false,22553945587298800335499894884939314893862518202082892964875613144063135677337353546376655989930861957344194385039375);
  (true,86398134627894450943982626870187641870011542258908106785900603983372200800834829764879461622990004830386857223761975918591828778098544003094780155805738762282333493739471883518762785386756686258112598876897038846910989118394497809);
  (true,8045022107173113380566945210248084155699354793106245361164022125653905985539280029301089033633983076589076462241515078802341174937822964172657179016235809054140513734974989893171751316197985344733575981159072068201358797734907516);
  (false,3772267414112043472094602802815795429822301786306332038481590486409771168316255278510747368455044930061134464385599);
  (true,1239602485430535996824347905148144938617003593049273449881059382336197834103359833597857873303536675338013369388537366796321328312432734862819819283563410794994062501271210363146121169214510468263831545066669495019955219012024);
  (true,699238656038559897386483830742873992548412172463986844556224532508436799512597913063519510614025769796845561624355723224008226694583864322225449005416307424687634621931145096528891822899198626328770741613457394895143824868267435899);
  (false,213424550815273203884568567905457023270722907015164209386608623925144720909563628533417892933047599023992540097210);
  (false,19945297564893387958760881738049536739684795245988077132608409466697310023842302408301524230556692264072704566678285);
  (false,24942834455649122923450511551138560597727452635545862173604006356866378544828887833836411067127952977339505862022333);
  (true,469800855549392774385672888876872606885420887729866623959116947510777912428362604090429671340081926223377478654471031962548440565082852018340312267697108960719834906525055052201487689464959425799991516960346131576349709142066804094);
  (false,13940472371595715529046006314570243912384474436831969068784620734455979876103152215813847319930772836765597786231609);
  (true,375185916673496941782948996734372436322841897740556147289069928134506217255410571462262223902587453512413985910270970000974045973987805805810860978380347149429718931150446238686038318183663111186633970568231320752068457159584221298);
  (false,9233994912032578586735843979198392568827893798127983131414541135959081814411854927529772773471042895682905062699027);
  (false,34504115417778375576583536880648161183157984092143850151403351400568681831629910580177378478993325435143215629945283);
  (true,6203079287148951794431409169488990898736782728320961987949212424518566150763799497457505399399241787514832594946677116381954489002830953618594379743071254765492760166830897845049218509228375315292432582156839992161831281738202051);
  (true,598234981564023322180678471852207442262227320730886699166219853167295934547959123056332885702530490083800190343022240078292011537891193154655419041480550768652880686371881606040442128709351342511596185047945806708080454718234077559);
  (true,183898502757565609980892098990642016941914634852391441164456242490909963402505196453698874219622968661276333852972290906849652385256369457620182815823854266200010556152108890339324255911404810821800042536099560921442375330133981718);
  (true,112403658516740382487595178939833803011849665311912570971025234698605671548997947620466512591890374238277330084090137850351134472353969049516839063474583790994419341433612011678698822715982762461372040917318413978353350207532528005);
  (true,633218715690908297151236038679804985880652292508418642265620991821294983452217122322210860765822167215977943681630817797072197427181438517747417499511184157700836652056903078889428668195101477672819115082854475763959207566687589121);
  (false,2982553430512351053343110368107614842427679063013336973445237248639398291327745543675714346774823889746317819094246);
  (false,9184858242561269467756341359742535227318821566723671670996081729819654021146778831390752058226612432107050909506234);
  (true,286091657569377192667382047279616954507261369320068590700454560881923566768444222491987413174290542243454356469310034700533118181192431924410285240265730736045931607711826885429248926959096550380102707389249867237558137507314469440);
  (false,18666741824177876989894109695211500967418346515447086987600607200531376842245129532084470745914009149495534204177360);
  (false,352285722484291564604215152781928490772181096745351924569697103402547959997836419607658858732999861878197488838314);
  (false,3393140559637980769343404369030043327377065811778119095362966625147576738574292796365776289819930479192018505796491);
  (true,38733283929129107150637336936285761935124044785844838321500236056510992734633878013512112207945419144140603206668385903010400184689279498149588137561276002547678424797437373656615962248756458263656733099061517801507826364903706979);
  (false,27637827634964481624456642685905271753039013111136386601634503804198811067542516492605971261639491699366029928975081);
  (false,708421373135488107912064430531980658234275507610286580634883065187393351608191998747149830715048977706544369283761);
  (true,58146613658682000798354405433010418965378865418274166744648557788111566033646576525731123869226858258927210007749722670755741769330313489124521972825851841967291028204244923392018459859626517269491886612060583593608096971534177437);
  (true,20123530069897744661395891705298548087794225807348425202020226587933685620785500911410143061388257865581314470755798788409639176194525967461686905613666287274766132857342482107576923062511937666692827504368530474723101810869843506);
  (true,987548886856117142483843751029553040295185056137721934494514574760687401143404646459204714173635108032556240598016741164364159042295901991477625881366373699835695040767838004698088138866699771210937863762122387842576851876008731);
  (true,631287774981710983261428947664919848318739475363231094826017958106554675068814087745100877183600724518669558109890854533147658325256037291837494033684235014162935310920718277889768611554779378442437841805715218012859574196577949995);
  (true,443617618029025339820272170849832482869376131541627108283149775558637453482708270732482553940017770496083474427575612293951716658398010367396237178076532283061375743925906263279643147577121337951563690957654061818123835879623193010);
  (true,755241717356199634373569354003414695608578382303960419826096494754350678034969172915589068774746509848231902695121816750748184671744400982871975304018390795556740628636832816925091702127173559578758786540171715099911624838256031401);
  (false,7282942495941666722882266218416342908600486445708467163490187447039289712909629899780666802960891251036370282230323);
  (true,28122866528126249696317678021567494914532297650828573277297361468761085398899970589188593955164367987058504506013418653551152850284682920416400982145596026398081971381142147037017752793700174893286178144824294746980867437617812160);
  (false,29830486239170093281721381166651050352387348572370184607302259982795208255568405305754231443454089158804306264217958);
  (false,10644562673608830090828007128824353334396243385615683212234739212745036911922267374646221539586169117840141895327424);
  (false,23801340908612631903296918361303267856139919408469729409654040023292748406520415332987823231095271252462260568707009);
  (true,116632344580909035045842066823876757118713632977212066710246486335878798899502195151243122156009283149176754021394926517963467936979857271842436731145611346316787034860877779514729843289406080556146476681148190024139653259472132980);
  (false,14325897511330840262291322318956173891885753511116152192796542142407502586839149279408064836218889273306231380553036);
  (false,56244073284453229415600399532003938911023746691627688321310189416982261624248595858108310291162327348164507563815);
  (true,203061443775697854415824352474479194391663751721580260762573095402161353349621313860889594284258381529334460390352679978170553406593594474375211436314511822544887108951840706879719804072124458347206735554393894758308898418732730200);
  (false,2755182066487555476425928913198174338288329402554433988468143500231179404152692956774141170867965841190559909449367);
  (true,260078353451805420824080927634092497748476938863470813934792699852761663551848831928520886345764538406867198667682831581387679291637855897353767327277687816916960805529246811586488934009874229227237003778198369833412345946141058);
  (true,10120468843016293884443031250873042910642925386234996910473047111268584999865490998451859011221291442589474961902907936638117757399096638638427188839896462860819187383647198806986300388482426930507244955258881038088458284679665405);
  (true,58463770811122275472721210333809341147780542699068235397482331209434205593181333964499917645448704995403753790065746348589105609434192775077862693378663508146070675118185666973006755164042930331998895290215867387737467786856209591);
  (true,506050095748877443117671189475057796970218097153822546948405022609626702491141052117757520797015513447805643248762501836574682650697693420145604087724343926510240042634848875080482240215107577807461241570379007081422719208392847425);
  (true,646033206061279242317260141862689077829408151906522987056354838355078940428838949492329343743710247731846267015638111231478923437307216899298405049867132915863703441115907617473671911532370434309598909096012689932302211982142276917);
  (true,724380924879938910455143903649503350372497782781301308014543541422038999840274090248699138364514972514828937286829235961903259118567658307032650896414761689451321648126604279686783595489422901836389341312715059969822370450411904911);
  (false,23391371616860395647571897593112515666940139280044994247370251888715895166519944774326218424869243241233833376821439);
  (false,5322040474710062998336715805339098949986882618479672802096603320408809876842315486091431908570133976893258977679938);
  (true,235263463937458045114985900136541304038068293181027146917497702796435718118853730675567497172132363457488123633069559912111605205707925063651534406337208228135960998402898531069387900024982126257831429744381233843012820580569698915);
  (false,7593606685473375715038297723896200490570532274955568975262672517865447492234782294929025226954462986904546066016009);
  (true,42535042891192424127591274882561947686143945676367989782259266960783322956050692023708950312580247974383771118870736189092053490030482151794280428564643483230746988257627974096355327601571006561487626462563827640328889611983775882);
  (false,607798187862182651483280176483621760817221627315180567379443669201064271315174788610674294362957946011119866397259);
  (true,4437494823903041385901826806087026961791952796333424473423553715419909743495888690318142702050489404929136250581605846611198889048023726033845489067084120930993349672266579054704103777634275413252713250974825809150690814865908955);
  (true,135161122226137861593580146545797891019559961333112965223507010415908033845795768529689381111565612678984233364541903036921442744372970003884812485329742683411215454000326032624419500360412298059600920207934086311910625771120951601);
  (false,37659642491906444973959313414105547090900111744537509517389111115639581827205849391694752919452096619783364439817);
  (false,31435656097952796720318636358368370774943000816775397118746481482104079551769326959028421058083013495900365368335);
  (true,494457558311043630793373060107518348949970691000725056573077662657258103535556261895006783394492037987739956834136487148302702954250603303957939990265726023920031982503217889057128029293298557423818005829577705019582047418860927373);
  (true,306892042727500140063339276699626535133052176444172527773291550422019109311569872466894073451438330132876717942616242198187094977161784876262390364527434721226479392013344647014491768170881995864027665507327044039247350418696615676);
  (false,2189522621754652434242263429421959175635200021434517320563241576449137919740586351653554771116745068559750975928905);
  (false,35407042562440389615919931527729111975484953633662133337409994943868647091584483622845722334370373434298446653978261);
  (false,9676036076922872210775035529483828297936848828334244633796753669612123440634440404282063958729280024047661648697064);
  (false,5283671387534818696215919710864309110953154665231148506911314025004904866299748723096511256745556367128223924409145);
  (false,1710689642790066042097462099264361359365774648832729380202861903282275084502291625023293446646411169260909420766466);
  (false,376542244946349395162496045582447085643559653994373457757803287061620988507571777590213581735866810670012687510);
  (false,4138908875310852413511664010802019157659194070307433690087678534893165253433606584040920811699063665608822195525915);
  (true,447703591453709332718258696548994214040252919955350604111433195680747851076017751974450825127308555338754638646299437867131707198072220528802994756038772156472205222517546826058590680176612174168356320313578226181986580948654778);
  (true,170536423860187908428116902486483071913542228802002506305594734283170046333354170746240705346026267383343541801617196489923917703671315570873235686082140009108687292357431579424611011718324808370614014956710880489966890284510393585);
  (true,126727527694126451771639772465288265883393568950860900963058527162697039777341156061252971406086180802677386536334711948297721493221200244045629306128359062249166128350386248947524237726650211344221116243179281175306614451731399988);
  (true,631980739052334798168389734210799524120863571266219391958738189871207578598306715674508054012009251086877256001466874547727120604178915211395658046810569200247366283930445961663176943969042602895778015524542773064373237294725895805);
  (false,2538078236294859834069600704756821603108132241312312600862651148605126943598384634192727757955650409888406264004291);
  (true,135070663760969461790581829593971038609505701542776997526185732857090009003417002899586030234660623536895191186284639660109420502947017516249533140547465882530934205687403886151333703567202466700910895308927901230323131324112093190);
  (true,191935085515012495658643805547984952513613128908408908088312787306221339017806881275829638376713548205944113204448272652990459978229312703755895245447973487379372574062268239825376700383256543927793426703833613779700515420953087676);
  (true,11045253172413863382485065889992653593639303467393082904263266573847763077625166489694486668314116855813863112577488309647442121217979729279576985888080564849735463022472364935848984935111492072471734713071811548345612149455103797);
  (false,14161870354461720456690828715036232668600149752390596419662248152429121592613491105166766274975211541552230015168020);
  (false,792659628838334220062850067676534303164619291143612874938524426095899099686114083948774232810617021742980692600648);
  (false,2064553625949459086925456366131725844834363477453414141183426786060740767732619587884901447339487578793126732488530);
  (false,16553638173029690724389949215994271161176452061321740747625286694181040736943640231047681592903149299400839385718258);
  (false,17474152072707926801700582624592529036285142338129306628092421916076620768429061385646978146219250914246548892351037);
  (false,509891188605833496279009925683966759615568274507567843089715212111575916363161428522863803973285628604087362882043);
  (false,6977839515113433624121924402965209584134459589173870053703505886345502524814034291087898777918440463637300739891367);
  (false,4748183047500673171552446891673100545267830359466305803928460127224242209930659863912372273521623192076813175953909);
  (true,345517840030128492298409897099640554030150188274046804739902713985115109347396921741056220382415233071425210220475121160407307579282334283417316865306663084404600332886197636181001469855332179537448918083317104263928376318615587075);
  (false,9568512735871374375128081326311799048754054203399234564290567261381946907688185902139722918794699631667636537829206);
  (true,20108001697697608318421233942129612944991135151062921986533359452525995732306509303401507059050885074528113404179895011324321486910243644651806644754362019251457731974061266945827613137994705749983653599408958021829616890369817298);
  (false,31545651548322729319148447695565847409986843478517540013722179109180725437658096224876382287352583747919818651646052);
  (false,1943275902806480059480689726998920827287457894809535671507466444621803682693353357425261235460818542625317953755033);
  (false,5795031633492619197993577681159076854587355159985354653775435647356096996456004776704393162127908679820611547174433);
  (true,180871817108169692925264504215766401392249062210976822091798751471262259087786248550196788052657972772284334781912146647825486630414114673273843106324782748331422377012907224682665211938975024497343952150112000487942125640832871686);
  (false,21046846342638857417221813342659422927872969846342355224050163151925205107744689456438052262973446852744058964055505);
  (true,237390642890253717828335939510476390204689182054876253801582350669795557560047122663112809774967692018340631315620241151029160501191610291664054290642705544031319258544085967368680602444084894965911609903592105109077446000212387916);
  (false,5642159856966603291398251633145822897664731468404861608744328484814903587892794414791352950569216574291181632591336);
  (false,31692670320109709111836237671302046897461119161648728267841839760373430940946650246456140724273312342335194619226420);
  (false,5565375098490460364437399661829398387911453380803393964648942435953331448976637423444061234423113854872532245592149);
  (true,5838011784608485059361006369585830378682869029432149312781360399945165534504775891488112658534709412309014263876689976104121153271002144015664293635712555382459943513258275546168874038530339639014887066617295001759884252409373594);
  (false,1926709733099529224769768234827279848159432886294140717659785310247961350246519194401695834234988576656759752807764);
  (true,1142708964758326131093147171016857256771200985014780739098037398834102127502484807547869311110755317373158053892717182879990789539738131088926532005235989934656700635544877522737501032305166818881094570023144769689673181962725726);
  (false,22880087195936372666001949341558390408249880908280197322328239594759691511831134859039741707751081133432675226424651);
  (false,1207783431799896615329897004646910240291814605194866792896549409734259942554615200812432559237433863391943152707199);
  (true,154682052937244197171583902616017903532042552347091874979704449708450831493693228131064589403345625743813427785773425766880588493264612386845204469055573223952298093555504691974260513675004364635971936079078176532963455452102321402);
  (false,113273353988312541355305484932712806555024212290649725342757994757230432003379718648639481107292862851333613618993);
  (false,24101436610868131243978807751693620273481951302356039486727465548761939705207243513296004226407476493519883227863984);
  (true,3119522069323625923772597024950589250711138260834831558300303824633443714918120011076800780446527548829799426783413919956249741595691586217219350594233724892956149996779930065365196243871926689497720231732873313942318179982729709);
  (false,7645343310246936027783478019820686709735944677211651898570481151353571498956503044853323314221795037131428961916817);
  (false,31449196104205731713892068928676913700741081576267572108054479422137059842775574917127945148438095849341920282333698);
  (false,7570358786858483979997756967163128017484468851142097963471069129820151062417072713976353997258682916091423969574803);
  (false,14813026271540879423549912010125260144179745282863167320947743093925729484845653242506387837659784306512783346449056);
  (false,35853629389068239597942887862195091873822069904001584872368295570521831321082343792285633923932897941135058052310532);
  (false,5263903366824679953148841523622951926007748515706373856811355858583312947268257937700328171078652522124696245994979);
  (true,61891079754121849414046464967593121100876435228619077305095754904422974038525217349422082593289412739890713109596191477768825081861031788394625046266270692800474984709585827375008092837602696820776102039565030262929757376049668111);
  (false,20645678133404782411577698653000112927022733702058065812073702913546213049084813528916219221128737824706696794340353);
  (true,792087802440239544206784139620850197680874295649520676402440875125271654212424933919979789783809059363434510028330754409228920538785485326965440247552240870265151295968564568290444508762739419645754063516565662079152964165669348041);
  (false,17023980540395062906002534180809745712613694630673589995824576971567015410119939914621795274469168323974172842553462);
  (true,410318658100345048995477496246624837576475692591220827669010437060887548884188037339249638617773178727278893474746174946701170903853897757839455523073869899969024690823797072164212197650147023879514075637949810864207201261065250036);
  (false,492566065813247964218330963680350373318675051844694466045310935906490159038797052676360425761701558907883892563);
  (true,200884768997553527231444657780057167830018423030978187322543911308263427372791441289041510572531607932137530783727787703276144604181114428782625924794666921989994008509399113079177053764963146468150196462241855024944315032379337673);
  (false,1098760445261941201235638927247050541890540126779429853510465594363591472941364874131561263119534857828206083921563);
  (true,277067941609222748178962939532600197352626073056640016610580520962026765406080358332196322705466071643668179686501214658372839209430975368043732688627626271857902520752899512595799359970052330395393958202815681429245371975430350715);
  (true,29981915715901772512142153769486871746213500980387908849040170927412185536976050020983352216144180775171073066701160459827966253539030603289316077405867923170564944945962026021311537245860661883431459558664258900182674708267709649);
  (true,571998807631866743620458413681449392759082604404182972977209600304007536637361538857284511800491906019687341145001818359294293244641853372477323491701319189973973888136057451205980101907806369352461850713204767066281569930544278977);
  (false,14690820122539914432972372533329341771881143687941022375217758438104832482048539303950156185461975596596568779568704);
  (true,383155613428554521383554705146572466258792718347727993795231911405830223871722760309959814320124774149247557199301675031105542259142921241434478579490641721917379357493311137819973902252858039675047396851984326715550934741111351113);
  (false,1304129391110978662102719316457899895261154020082980785215265127254268937847428700124024248741599483236792892958373);
  (false,30307567369560176691133384294071050025493881906870609385306922641300879451259631749232412848518020390825087996478605);
  (false,50749514701102897160903484774613204899572306502123126512427916675682357787893468535824026247922822710545623067532);
  (false,22438580196601234750171515976411626167716486273031752088413245588771223188087950187058828995041740972405746862859552);
  (false,6429349101414264114577452260559531944342984178077649168355903734843999817133074930484117322651168820404489588906853);
  (true,720299610036862728111540379608710917442802365866459385302248583425577273713048137271911206352207336659655413155249593433537988222617496291222499525880731521427713493796223285771012993499594063427566003971222715616586937319329995008);
  (false,23735704249386525116659937677213856658567525167946209998457476122423522753623508256357719263838021246452708350850790);
  (false,13487485372664033057815908877749627664901751997107164588601302886144071644078738934902110529995792528945565728487565);
  (false,37181364132068601003059806876416404666672129367617773102948836492048503554951194864571972523131615760832996744534804);
  (true,788224515154808616724529888164260952747076441952957534476914691123302446998868548811942494319542862728921502507169123210564719018938645481865934228062270602878302401452196374920119968474511692138792769000252851994714602632925282861);
  (true,41581176829928667528941225800116044835179978935927701751912370269601545423732215991053665953828547709226377982023613116989990992481758240130239547270083187695057769084416588243684786160848467169224425387093248288375056178898977);
  (false,7934890068391753434788607918883898749496015865658417955478651269555817422894377939730255364233324714220053340401678);
  (true,286184303660445101715062561740828143650302458187705715495186497288409539256119179341989594733282043213201528797117208666783452935210107440504074662513588304003455571313813284069904881976112436740770936513721190814761243798578351434);
  (false,18773591153500214487276968139632641414624938577791451483883575643472597355148742961406086120444244269493131443948386);
  (false,28776645690376804474700742248733104023458210485236671992188958264402771169178997244541527253645970481521789163282616);
  (true,27204986925918493034870012888934756211954390895077276904828483251141816394148433192534100148924334190098878915129557555821760964622970427421753718996106115236272769673282847447760426786281035350331711858206558112485607093266491805);
  (false,9292642994469514667199078496508682066353784587483224120958956885026466719352413127130265971958564707431066519466513);
  (false,16847384853691214235420349522182700515011280998397280368586350515736254782703368616134523696669653659596185939567207);
  (true,264529389780047757981475921939519370819658123555342079668514041813680467544140038011147152282565317695545155242964515408452955830560013119396047700361731317618723134917847125635484301458874622346008775458487715993500098119843793321);
  (true,347787434271232013570243078779447764040973118727333566424454072829565584356996696121900265560952451371885213299253487133563921852267008443779276027675561513582807372824692490242482783915220807168967629119743629766642751339564479956);
  (true,73523522603890667422662976639903400481052607038314861702825439236164180552616599161786499689042863676697038561599172383199020989630019370284944929913575116663873503868602954674877562033626944382368528474900602132118423057127317595);
  (false,7110404163345432225396304423109213587340356872715168060453484848055314108679823560052391747563015891971260043962275);
  (true,55557748645767259968006314049969358087761742261002172806334739266337178990058186525490500680255544458384822847060143554645332985643041169623254730931748244706116671144199455878279690789478845702763938545473285889207480909859443464);
  (false,13932720017796091984076146675915578949350630218229541810229505428453076091782204031255044019953960147555388950819170);
  (false,30176956813387286709471835500042090314866833105098984650929139309537086664266738862948352852564145047493250426872368);
  (true,141628903132745209994469809650360497609258898394158361630259303966090561788958546407997567709930211674603671384053221165468217872110841300092061677004899513375889706186707095404069065234917605434964424340266957248988164594501410425);
  (true,395953657580841197758096998120382450722325014370746920302813889309207491383136753966726830284014473976359235083189619125275765031585474992338225507306652182118039178446738137771520541909510611119206588238470777956849660750983360036);
  (true,25871375524532446224110705615980915463318171901163434610723167452462915088997770488656579696706821521531152920766495624244871158992832416324294558552765592420724278168593524242411787579626176690126744248840802979734790489954163456);
  (true,8847526295081114601227435295643898907696887649146195028076806262463105467285239667166211095201659092414551521326589719197794345942795069270948730098217016407993582164631318762033128471520706784100563455072089643023782986892564192);
  (false,6442697526374335909341130372990051545985449264830787050355748720322452875279710143294151095687148859999912566377785);
  (false,29154746645179299261701018198849576638811864693800384598221107417417030716296149000930156504991369811388082278445641);
  (true,17034568091465745672431585199947220271713323608343937161228488329019956052178565249450389062120746270714795633222073053998578802167639028746477230631534836048043011818894512452140197256415136208561386788078567460319695818701040738);
  (true,669533426845468850647426246114003553126083242549425615463439001191678340828553325895810320680178741252325717266115537068937228120046971983382512579019740931368575024993889167945970195908745758160996368435243741838411501777026970735);
  (true,346949894944264098867177027448923518252025560526201244569341843086721354234377472900058325185919099153480515663669610252353285493757028376016139251247666245748008758315331936456997753998926979263619395025769388746404913996525556788);
  (false,1558194807059651460290698360578558440570149720692512871492930573798174637718716617788785394999783674516248658632);
  (false,27884450490970943657063901111396775055856002545925964728059575910358137418946985176864931239239465099192720876812404);
  (false,26732694069271101742907260258034420180457791157539748901741748203901906707113999177094358838040942127003769462713424);
  (false,7922751471752233943284234536710598592566956901727441695280392973901269391216070985476226863339797662340588514149816);
  (false,2900584488760837146581666921394814007390003552284870822794325061757061516140364001504659358999352950485331939656671);
  (true,33741036327909002036967963987670914882712458072485177475748861595724611497361314046716757164382672071465988124561014989193763867954626334778975838797735613692132409694726103433678508960275185372109759229469712485940272112436266964);
  (true,512097573138126228155760878743433654733087910211631498888938152402034942672015859221525298659657900306082440538409621211178984764107344778683927570796326410240443694662017653489267626658350317145787409870907312921564484270649725426);
  (true,344292327329965009369867973171548147139686208638794880732192617728684599549774605371194706679793459611905160694938637167086385560736068560633559924942858125336813027492845816309826649851248173294779195863453444830105994785579622737);
  (false,115235230124030569575656882506651827773116596907650960760717627895459574365587498701726126671570148324168469933984);
  (false,318597887950601305836347487556013597008811624507463284243414075864210657634978806807576233831526104096236878583592);
  (false,10887152181517312513536089495752772955915422406315827388926803017673760467655931884587776454137089383266487142979698);
  (true,288489522977106153743595405677363833193289015156596110525320260756986109439595264668059562253685246920039159955727953864977234216788141152834100372620238488971261217414695311414283724680659621665963840087999794742824082924444591972);
  (true,611402353243799238417333109341533368642504401204823424225425898748325533634238798737783115596617435558673597997469366140631326033563819214022167090249298070169479633881241366758040502056218209292241679868567692815822853736615502106);
  (false,35857039946447236495198165558100785872002427859383009156596123759663046503541305367337724472080871360274088878143745);
  (true,266216847619470851068369390014753204761053135614013508260685010716213453829851035766749164250846949469401570361158720492424147035544512035224435881372650496064681598141900545067149839514882433313133849872998419555551319537364984517);
  (true,272366323880152761647250075372211499681115269315625781439337203446093372552557358299543321314596792645362517181307742674288788887371281704950715176926844190029493695387149796995784674389122892061384369012783620699526411951546024698);
  (true,493835658963022052037351497393856722628890418159737995856373046168545134511120410964472003725082840269980547336363472126925292249945378940984016344842352444476691271780401297089434816271436003675864553491344916811665359891446930253);
  (false,36464959317785204919153658652180692768218537647106654614621243712811541143205383681247666344513756259863582162053893);
  (true,275601111610803725017269643879145414919306179392254714019988083458111573469398074976986636458525224408987174909716276289256655850477277393019989149666366553285513177706286044339736032128902797360740240525022218805254986364195205080);
  (true,261725416854567546789717649565556959965755552076336851811580915374469273432267716337424349089933591720489106156266318940309026293740059560544316372531907619790527105526449401631194823991323651451637758123690191484754477694334076653);
  (false,6139422096968479790855087593121765206718389272049359961806746758932585921654914373893245487057745587768773380594932);
  (false,121235953625369112837783169869671809456629441666422985480996550572167888423590551348537247968531682994517652775192);
  (true,27281565222821581310733317737817661940101926168083717126850636137067355464414032924865699077752911131972681420781399088166000582967646579417030160685754544132684388115506426508474375146842781454039464964114839061991791533939939367);
  (true,325010361227987362248292853112311830423320079642294548439879528898677499257756972997155052837853522963317424858434704412396391565842204358882542793237545229872544940330911014308209091783798425015458126479771352227607801366336102016);
  (true,600937677586495688376981809918998098628717059161002265500433590265779616727824346713231558100017735111896936991323275887455114421483935718603934382922979269760058669463447268365470583870449686778590419722476339589704652230360550270);
  (false,765096072551919475718532076148649174113949021215784931405244032849811918703578995364217749824473530621279302872651);
  (true,38323059725485336330519384443879881796927324166036851762087467176096580066254528192485892656399175234829664197237923263314141490656021860797785740348712596008465493716395281374747557307692253276713658639652123936454803393302786673);
  (true,184734091181837792153220718988783845363565504530875176793140573705565132334457911254224111226030425809446346755630213302297616103429707505209620057944131326788633900070771279367454625919367650275839290330073722805053182250438271872);
  (true,806070233090722795347026961588675250345968977071189239812287942458606265249287607761494745446879968620163359855140080581932218283699534984122459554200999690827921289112318960304841285584285867677328943980438113336233732748453638352);
  (true,142643898876715304349137284585987677189953370052727271431771038331015534010166706896777015584434499614548054230344823496661771665522283508760254918887598016736583204772820377230699559385656584860317255000934669311270562497679348142);
  (false,260876134852424172000774182090918615203162131599048179972997194401448413626695858133949841687594879968578931856296);
  (false,24012519586935994567835461968029299896416006478725320428118820912175097183292745739644427560548057186989771397881131);
  (false,3390628664826328906167257038272137674383870449038699026820227936317283698745295945160887247219701972916065808751948);
  (true,151491611342995029086185335400446832624119392417966117915829234770941938013527658265615135690344812662578774330679020451292775499245912458222943200431848833360258794966511975030843747875832070348527637972709056157298679188410462712);
  (false,20846850089720907472009728294885945936233802037103239121720715021404242402840972037643080051788479920997400620661637);
  (true,86194943216274088109591066672435658228820146657386665812107083614526052449234339116034453659019718024361510558274053158537390755256444447779855700538992507612623948725134369392893356576114907533701537716702173707673048902050072242);
  (true,572769670710168471944438063639030358874444002552204097854687339120053478681410788895756611372518683587991620101243952438520002929411493832395565600888896997790938674862031222497967482120831796340810106924558290272553385106399810852);
  (true,419253029809508527387549589792026401094996319743652580800322757375888331544594514488503743230051135208215394505982852256362830683567462072631046233906166900473345635501290793919616271902839205477523038528471832173937691537300404);
  (true,14321271860559796256951351301417773375261117698882030934305766747750265239104251858380562455638897865759818496384495143173682678807890631342756168905770973472473974612426626528392845988411780134843348878484792945780360911119596996);
  (false,4021301079413162685113746609117787146122139558641691104837673477928797333423734760170058734297672892746184434722416);
  (true,93525705887028494355364714465505902442549721724903699198005142675847597217958900478185045240204137841602519260570476908249198513722147105423753153757614008770903046232160204752641248819959415666739714943137545011544855637097582975);
  (false,27098784143333508725812265195958826478784713793276968729044407546303466882389851019250492378365560563100142365537491);
  (false,3595346597042294975320452557069900294448589993614973451749259559695447344652449487741096052802180531173891559966324);
  (false,24943289623050722619080620104790179333628544318846824119516646577093447412036110350360351057861203413523116740287720);
  (true,56012435958266954809196644645777455443338624452624891010943367929219866762260530692843791947646712277785917900893060635243889533791598569227399956229324847107586781801849261050623287132359352427108942825666874834981849022220573889)]
  29383782265230260129358932694103216031094940221335538712016733030718368683237214395286358116911883279502983351240333 prime_19173790298027098165721053155794528970226934547887232785722672956982046098136719667167519737147526097 _ _); vm_cast_no_check (eq_refl true).
Qed.
