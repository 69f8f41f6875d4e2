(** Certificates for the curve under ristretto255 (RFC 9496, 4.1): its field is of prime order and its d is not a square. The
    certificates were found by a program; Primes.v checks them. *)
From Verif Require Import GoBase Json Primes Toy ECJson NumTh FieldCerts.
From Coq Require Import Znumtheory.

Lemma prime_8574133 : prime 8574133.
Proof.
  change (prime (0x841505 - 0x14050)).
  refine (cert_prime2 _ _ 991 3 2 2
  [(true,0); (false,0); (false,0); (false,0); (false,0); (true,1001); (true,12184593); (true,9142329); (false,21599); (false,53551); (true,12555755);
  (true,936142); (false,567); (false,5078200)]
  [(true,0); (true,4730058217776); (true,22764499065919); (true,26618302132616); (false,5368926); (true,11677852618745); (true,804486448167);
  (true,16866228063346); (true,10163046882248); (true,23610708925235)]
  1014251
  [(true,0); (false,0); (true,0); (false,0); (true,0); (true,1025887); (true,484518); (false,4788278); (false,4483486); (true,2953925); (true,13136424);
  (true,2143267); (false,3941905); (false,1804561); (false,515142); (false,6177058); (true,9489504); (true,4292971); (true,4853511); (true,11102557);
  (false,734227); (false,5844679)]
  [(true,0); (true,41374809943024)]
  498358 (prime_check_ok 991 eq_refl) (prime_check_ok 3 eq_refl) _ _ _ _); [discriminate|vm_cast_no_check (eq_refl true)..].
Qed.

Lemma prime_1919519569386763 : prime 1919519569386763.
Proof.
  change (prime (0x812100212a110 - 0x1404508000405)).
  refine (cert_prime2 _ _ 8574133 7 2 2
  [(true,0); (true,0); (false,0); (true,0); (false,0); (true,4); (false,920314958071172); (true,1150263703800570); (true,2916173011720386);
  (false,446662734664136); (false,666670737639295); (false,1816664587145774); (false,100778426374213); (false,720471481685335);
  (false,1046314874568149); (false,27663020749752); (true,1997550201756923); (false,261275430339817); (false,351998656793099); (true,2465932998415072);
  (false,1400365964004865); (false,982260639543366); (true,81725976216389); (false,932557725746660); (false,228087889215254); (false,522704582871222);
  (true,3441780615301434); (false,69185309437821)]
  [(true,0); (false,585276009466472); (false,74596583223300); (false,10851953017714); (false,16458659019002); (false,526881666920155);
  (true,1612500782445784911521524578094); (false,314199499905003); (true,1655339364722301395015849720741); (true,1983150696036924596148476115605);
  (false,117050771264077); (true,430989962028996925794381991589); (false,1717197400666580); (true,290591522637587474252013836223);
  (false,624453378483741); (false,1874187831867743); (true,1180066332758035429446474010285); (false,1653580215887711);
  (true,263370943463899278225234175090); (true,164160587527043600767774439499); (false,50199675054245); (true,298118248809711318971116350444);
  (false,1288791759499647); (true,508896186552597022545147520248)]
  1290547218147893
  [(true,0); (true,0); (true,0); (true,0); (true,0); (false,2402); (false,520976986574127); (true,3050263412238890); (false,4129779114174);
  (true,824358915497833); (true,2430839955357873); (false,127453888752376); (false,202920784050346); (true,3395567271239200); (true,2965381751307340);
  (false,145991217865279); (false,1329958696170618); (false,163322106824428); (true,3325625488098090); (false,435791498532047); (false,412262448221191);
  (false,1816041216215207); (true,422850400172579); (true,2485905647139364); (true,143787553593892); (false,917789303563124); (true,5379051220705);
  (true,139695968655897); (true,1792455342204781); (false,37318002948235); (false,1091766482529526); (true,3597019626877998); (true,1149228232172747);
  (false,1220954639165293); (false,1748958832181518); (false,14452612534499); (false,1537216902607433); (true,3454407056587530); (false,27514081324131);
  (false,1494884974564798); (false,29165713112064); (false,66111187952775); (true,772692690585673); (false,1440836123805884); (false,71311048237309);
  (true,3651260577988342); (true,3208857058886474); (false,1038259186660912)]
  [(true,0); (true,741207776095064121231598895551); (true,1667895633276623055841105296313)]
  681516913897206 prime_8574133 (prime_check_ok 7 eq_refl) _ _ _ _); [discriminate|vm_cast_no_check (eq_refl true)..].
Qed.

Lemma prime_9463 : prime 9463.
Proof.
  change (prime (0x2500 - 0x9)).
  refine (cert_prime2 _ _ 83 2 2 3
  [(true,0); (true,0); (true,0); (false,1); (false,5061); (true,13519); (false,3446)]
  [(true,0); (false,3833); (true,14971575); (false,1133); (false,1729); (true,46953635); (true,53614237)]
  11
  [(true,0); (false,0); (false,0); (true,2); (false,60); (false,2933); (true,17275); (true,22620); (true,1776); (true,1003); (false,1037); (true,24690);
  (true,51)]
  [(true,0); (false,9461)]
  4731 (prime_check_ok 83 eq_refl) (prime_check_ok 2 eq_refl) _ _ _ _); [discriminate|vm_cast_no_check (eq_refl true)..].
Qed.

Lemma prime_37853 : prime 37853.
Proof.
  change (prime (0x9401 - 0x24)).
  refine (cert_prime1 _ _ 9463 1 2
  [(true,0); (false,0); (false,0)]
  [(true,0); (false,0); (false,1); (true,323926); (false,646); (false,2577); (true,324394); (true,74342); (true,215471); (true,476658); (false,76);
  (true,168669); (true,196461); (true,37851)]
  32806 prime_9463 _ _); vm_cast_no_check (eq_refl true).
Qed.

Lemma prime_75707 : prime 75707.
Proof.
  change (prime (0x12800 - 0x45)).
  refine (cert_prime1 _ _ 37853 1 2
  [(true,0); (false,0)]
  [(true,0); (false,0); (false,0); (true,3); (false,16202); (false,431); (true,52452); (true,56468); (true,105003); (true,99881); (false,110);
  (true,222124); (true,93272); (true,60075); (false,40796); (true,75705)]
  25236 prime_37853 _ _); vm_cast_no_check (eq_refl true).
Qed.

Lemma prime_75445702479781427272750846543864801 : prime 75445702479781427272750846543864801.
Proof.
  change (prime (0x108802a48000202201400842002401 - 0x200400008480a8088088108a50020)).
  refine (cert_prime2 _ _ 1919519569386763 75707 2 2
  [(true,0); (false,0); (false,0); (false,0); (true,0); (false,0); (false,0); (false,1154635); (false,18390568088419540713180144552603353); (true,0);
  (false,5845373972); (true,87768323520986892609440763078941370); (true,79178472738596464028603992035732427);
  (true,100612016363528196112949330697066484); (false,34874600400109785010110741815565865); (true,133283511924261151466384833446453474);
  (false,14259769805182405020291244956113789); (true,39643167703849810160785550627061568); (true,109038897391729833739089875975893259);
  (false,31993228866829677464604812351954812); (false,36856026726665311569831140646019472); (false,37558755042300401026910323427360228);
  (true,1231520888437489561043967924920373); (false,9915846538991804092978480448020986); (false,17579763701632442834351678143176982);
  (false,8629543046122224655388998502785386); (true,88543010309470439154820839753932743); (false,51203725768512740208766088776196223);
  (true,98993602468160378399605572779308692); (true,146837499280623176155056190186076751); (false,2236470025910010689164230430725332);
  (true,2152445451523061074391132479695943); (true,45619132322111234617260342837222865); (false,18138563752825011389988221154025764);
  (true,6984797776589922606771900453178); (false,8355422685563742011965376336700514); (true,63095733990234880993683556426399714);
  (true,14702495698222504060133497094678883); (false,15496460349782741374426957909312839); (true,14922084300115426627936480004087657);
  (false,73140260026178284946026360103387949); (false,37386986428869317886938646893687); (true,88792900146987093422421437432117938);
  (true,126723327870560004734161261178324345); (true,4265758634921249914798644829340890); (true,4599208872904276656265734953986787);
  (false,19938355793717465847682208159383547); (true,379367425910877502586785532538328); (true,40067702762777282563722963685911553);
  (true,5431816707254639246062512913804549); (false,69604568864888641168444927591077276); (false,37124984734424324294785152761527766);
  (false,25283313481485823676523318387740688); (true,3445341846656232865445853964758427); (false,4752556248222889451123733574281160);
  (true,97607413110038762878864400532412072); (true,46123989935674606507037057687651255); (true,1130952329964462953850246691678513);
  (true,5065407634161494487114558160920292); (false,68880706720798111363682571039351209); (true,94566915819754618137492420024240);
  (false,61147586567349870743199647966593842); (false,26475140829181573416469200498415960); (false,8533707345012022015661890767769502);
  (false,57406289184049389055471778293765177); (false,97303796875390224746540460292342)]
  [(true,0); (true,2422114041940920877398828610140909083270411511005201806368658417830878); (false,1704804192405731279737627904507422);
  (true,18294876235491820792043571399939810148010017238298247983791144396); (true,42824625450611135351752159268394417403866704649321702746168859527862);
  (false,25422203068193056891041644502487381); (true,1952536632123518859646227840991669659456719135875235613892031030688916);
  (false,9808163637598135403272131796267207); (false,2603502244084601673036428407930800); (false,18133012002749197640021129008412144);
  (true,3886507836010520974197383016992853409667083660851804013081107859089777);
  (true,1515074399624672675354682307762546387857346980648266060072172581062659);
  (true,176810716443620493289761012197380825230330679342613708549961361642987); (false,730616304749782310959424184321);
  (false,68207756706945927034860657168529418); (true,191051438749704859669199790347694226059473056585042915663938937800338);
  (false,766695770156751960061421594445302); (true,4139885436755271851802532732037508440251655461619790277277172762512861);
  (false,559461975150145453687258686838385); (true,1362946834793627423399534390641306033914241054462787522325169165789497);
  (true,50776628189283548454638873672076342930645548025311628812557214616296);
  (true,192733417835193829197526937691608384071671850280922784803294779475064);
  (true,69470635588923624875853609298126624024408753625818479184315914685401);
  (true,3937546788983934029541322242351518779124984153154418159181825352034231); (false,3167647752087569441554968090963106);
  (true,53615433547371776429159126103666004561644479552200514228300428490486); (false,1613479781328479465639793051223655);
  (false,2641738950619894507590785452807825); (false,37526914823943958910080381260554357); (false,26871925135651925933812383086651105);
  (true,1727749155925074317871942080327993764199010431365828748303098765045381); (false,9440080022894247132141175071273717);
  (false,24050643229381293002752198397144717); (true,1081282151138596514520173315597542648612959573096415281156071218505541);
  (false,2013370752222354783810455807157140); (true,56935799620296467236936652138172001255603709304509839018134835369887);
  (false,27693560414414528431216449307394349); (false,62114115077357068251183257580271704);
  (true,368580346288993710333587038083239853932656346719818689309295070301810);
  (true,146517822433260438440152464921925093340101337883672924681733521357929);
  (true,3148310825365505262663156395792989057704068648001365579918125654699798); (false,27117305289104624766705239956373212);
  (true,1799433065621539838331383010188957997234154504170940560846498133058543); (false,68391263965941036794183684091547211);
  (false,15634116355205325020052829918971681); (false,21061015730378805098826059511387286); (false,3977212407571928205963724511970200);
  (true,117221624439767587036601256526729469150790001691152762233398924510198); (false,39431463799781294555109685238030663);
  (true,599770724047189668480982659300164035250138339925724766157371498528743);
  (true,2155501717410528343562266347467660767422967637174914159788358016241295)]
  74602835786463724888147869570305675
  [(true,0); (true,0); (false,0); (false,0); (true,0); (false,0); (false,0); (true,42598530902131397692302465);
  (false,8302795027212855711539266651471154); (true,84865026784993010618038025825407746); (false,3658354727346700791659368);
  (false,2667849116986611795293650679997269); (false,34664529322815938034415672982567991); (false,28621653472452636738302808173806704);
  (false,62739656690867980549186651123673367); (false,4189307748747627281285879544883499); (false,21451856674007544512826447089137044);
  (true,60367428899619713464892154359793151); (false,4520969836001003900679748253625498); (true,14304390767229500134328427429145024);
  (true,28439578340362558012409913764209779); (false,61431324927450983923808694074680668); (true,53856184336921152443866387410453229);
  (false,24474762238515003949023892223821416); (false,30022547943908435447259870133669255); (true,62929610809326620485237223997537011);
  (true,139223657976978123548098563605010033); (true,24153655766549413971250243271509081); (true,49432680012344824871973740121451064);
  (true,15775781367783956747019089499640594); (false,1047795152193649141149779394994449); (false,7379664102229353439890419172914504);
  (false,57832244051600442884978381402323044); (true,88309054738554283617631556052193399); (true,13324982965973867308974719003647883);
  (false,25514811895276353835763086803845420); (true,73110113495929725347808450291310559); (true,46035140451370669874676762202439919);
  (false,14113825893619568221663336485811347); (true,7408963806381322079476735189832602); (true,127315594539791580635701739021983678);
  (true,141588295042172695017508381179996721); (false,2267939648515745310803544522701920); (true,21179610815554203562541471390826910);
  (true,26394572859062702637153813624048275); (true,3894925457052096368584428765520046); (true,9467899000726056683018652081381280);
  (true,144234628256644324806569158031908487); (true,97804144801981383802409641647825148); (true,84372966904190369116004620616517456);
  (true,128808350039588239502399209979227813); (true,38226203435836232806469042077517048); (true,9404415233541267865563960183605005);
  (false,29749395488445921237199068136613824); (false,60277323932945120608381249281617278); (false,3680199053013209352763500625022216);
  (true,1825031023228908360696315126632241); (false,520014875445519891172401512401641); (false,45548923375916762083808296582432069);
  (true,147050092847086064529722041560293846); (true,35960578063424930184591182118372467); (true,114437119105497354116264193440422181);
  (false,36332863201614143283045847432757229); (true,148966447746817778816659529407771403); (false,22261282317579841980344365832942963);
  (false,9165050982753043382534953011130485); (false,58621375939958829550933299778228906); (false,31157859233304834676317237177767605);
  (true,58713129859417108480005669020021846); (false,51225082392004169399235201478950101); (true,52926082037887818499234544606350509);
  (true,128506240285824617580352041517421475); (true,1204703741808312115097361180656118); (true,396931358367120689461753135672907);
  (true,83170705503519600676979449058380503); (false,49763542875877996687565308300948617); (true,64403924365523719259072635669552328);
  (true,614384828249261212117907278340725); (true,39044999042504252237643592091170335); (true,25118122946445206773623527411566);
  (false,905530333777643494620962777424248); (true,12560221556990951375978798263433660); (false,3531414260932896163581913804611494);
  (false,53002789588143948851952649505038705); (false,1780486718425140689908568698552712); (true,6144632115172098254261958843030674);
  (true,59229461474887934699912627349407735); (true,112467032939884189489682678632930130); (true,83304745879736795921726647073356983);
  (true,58258447690910823295204421840294); (false,37292278198141208079881155389365953); (true,137145926921803708604734375089767899);
  (true,142336726375209290060964844232698058); (false,12909713878585247628338140486312281); (true,15269432599105049898885048662617748);
  (false,1068187378328382064407749740254610); (false,39216144650552132506400627819584633); (false,2703475250322989457919249483072732);
  (false,1921681221633491320056724558244172); (false,19406902927420250779764491783849811)]
  [(true,0); (false,45798343158407497127110698474487382); (false,4922914699937485409093593917388130);
  (true,91840957877180881110913198929353031571142600442094525979038936990163); (false,19000215729530029768929209346235067);
  (false,60296421032894417933556479848271721); (true,406626502771258384626839286840504921532460706886956658990527318229393);
  (true,132324853739995484638156464563060657737712730072296071587475154681938);
  (true,2478043922289624257075121456674227204280892226305861979167589615577624);
  (true,1481533490224101692426377460478284064674388656315761628082875592551862); (false,22550685474687461188533698279991918);
  (true,2830468531294361339117184979205289432250470129610101459365817752158747);
  (true,250638751627977546088509627534906123767498057850020208414223720953601);
  (true,210342627282259299897734220191521447840753650730859262819788437242576); (false,17743944855969348485054655524703778);
  (true,1694519517152726864228517750540109700725612696090640641098102685850609);
  (true,625524715261228240168469009716221690756391951814349776644785459932117)]
  8986369574106813140303762220009459 prime_1919519569386763 prime_75707 _ _ _ _); [discriminate|vm_cast_no_check (eq_refl true)..].
Qed.

Lemma prime_74058212732561358302231226437062788676166966415465897661863160754340907 : prime 74058212732561358302231226437062788676166966415465897661863160754340907.
Proof.
  change (prime (0x100001080095011044041100000850001021144882020000048a10020440 - 0x54508415000040111414454548202414288000208405208000080500015)).
  refine (cert_prime2 _ _ 75445702479781427272750846543864801 353 2 2
  [(true,0); (false,0); (true,0); (true,0); (true,0); (true,0); (false,0); (true,0); (false,8313140759174391779718174581384026376896512);
  (false,610753); (false,1157159573946271223472362913079106073065108850241654650966611886786580);
  (false,24752366511444457889588512937582753344158343999700394018332682390794398);
  (true,122499941354661786233472485700937432900040061875414728670643570416423129);
  (true,34247518182392854538658558488959479179165561695714089566764733098606499);
  (false,4580709802609802649694377758614016532721444361670007055497436936751638);
  (true,67564108073494849678595397947439726516616132207039525643727448587378233);
  (false,1581020839647386328200544932585097837298665051318182793897979002137636);
  (false,39202663809886529253829340683248242738319684636566099630114377491659839);
  (false,12998728410037856559383389039278423275684310698596745005302581405835765);
  (true,60152283995376325647994584946875018567274401010329036844172158211024392);
  (false,17784719167843759080248451890735372301385571443822841055181066035614389);
  (true,49792770173019843489725682141248297432707771882927195984556953030874538);
  (false,27864567034871860577519570032741016091881146573544984347461671156536517);
  (false,1531393189851146376704041272811734152287088311846553906206315285154993);
  (true,18919232686946983744373444805709571712730402048416539839092954989149622);
  (true,120485255594742648986484332523939123206351848922475636959752293680741737);
  (false,73390411519929622829017518506288214258016127354227274680845614202410503);
  (false,30158870963103383167930169422001574142469989357132966553994989329114467);
  (true,23915478654673573194654470649307953392326271387887334466044588590288941);
  (true,6515864120809629562991073281810391185062248833494516442093267749654094);
  (true,29466810460688823946860703076646646679531392451812386380617098723491770);
  (true,1160621240835282919050951948335245017146723158855308505665375786774892);
  (false,7209031751886025387357323333454626263696774267179995147736760732841760);
  (true,2632951390003365084335973123342242516486752734134481300714631218267153);
  (true,84627622889592046404741497839485731337406975361735117551817279388666868);
  (true,426135969297305335777391151775550010303196914667681621025775474146311);
  (true,20813404811946240880143617252782535100322497885252814408259941941988084);
  (false,39500950871114295143440728316281270050926568457830745950227210798568014);
  (false,52313077441074672624183715521083514587340275789277486460515344096561948);
  (false,35153951393554941235147189430086615163186688036328760545643930766393754);
  (true,138410263884334697668989585783302797008286071685872971375087258913406678);
  (true,41832835943989741901730126654307403538393699855890783072761033985881251);
  (true,147860880963161488871598148691873729884102879153389967580661187774800616);
  (false,124040740800502784159158201309001499428680217044235259742974989680252);
  (false,5502118735217848572772976548618763168088411846233689071287546854155947);
  (true,26087681199082037160337956481740719429391040715835570765273587255223214);
  (true,92232718261552073960188940938004804758259176366793297784778916704704998);
  (true,46546674822451590717534199232606053465495981671076303325335704820198264);
  (false,43640975046147379448907198182990012079866321109616377133488698686605918);
  (true,96913994927089439735818909119857892936373873868475114751776280327832044);
  (false,35966503527844003029378274477109145875613536457707873368619714971706678);
  (true,4292498439772539875113245926749808401244742909257348505721785574529891);
  (false,789026550744237461417279879360768391737729621402180595280289091941320);
  (false,180545085764386863080941208067206450607736793694004694604330827698515);
  (true,54468357969940630847903070755584533619290143295762725935134971578551561);
  (false,24762576096899098336158060060456886499967271944551491259875345372347245);
  (false,26415014557319269354969579381474410077524440398545516613213450453762340);
  (false,3332277669552274439986146704874254702288430677915795500904412771491518);
  (false,56587323233587066496277858691136475818689270052206261830675480492579315);
  (true,1349924075082780276702753767445467218150842080270606888311729582469349);
  (true,143937864158956110630592553985582406544529904432008671955108538038374068);
  (false,9312156109758469703849824938210800892317925220974681000635591841851007);
  (true,94530487167808446290027239163393343673157767949897615521410548333089510);
  (false,347749991847549650111835462083637654481009403032134019260908499036193);
  (false,67054075072251032263986933927948862439647103053025031552768932082185748);
  (false,41180981408973794870941102491021225379444826167519209874220736658769210);
  (true,4032269168714558224485966390252941702192553538323437086566338828580863);
  (true,50855921097425868668342240572447226372236984656075340425431102992866322);
  (false,41246440591215224387854183769107645143015597121762276314351387414069189);
  (false,13355489776682415329489866032965129616121053900198373837916608007368668);
  (true,492455158715702634150911974863731001342068732473452735588521925698743);
  (false,14216775334734902284854741485048253965239136015444041419028832683728650);
  (true,81635334000239669851652805874673961220647979182055961350941960933546749);
  (false,62357960439539771786128189601645106508750870812756374588267956349195311);
  (false,57153412699306839625973651182967669345816692900568340219861985411391345);
  (true,15945689846035256996305345415711374281493662633141366364906721213568476);
  (false,54364411914724758443541641883992307341046508006289583044300701856578485);
  (false,6895402717148043514959193901617493506645197422235451317313759372319685);
  (false,22740888042010760031754550134738071144892501565620546614805772040026926);
  (true,1272233952449249670485281565529823906902578794808389441858449973350695);
  (true,8388338887976380979233632060637142191133287221350053799020984786454163);
  (false,32676615189626696606969688926059182374810154778338336992834428126877671);
  (false,51201068624161522796693086448446449429537990654770489420832469529821372);
  (false,227634609924105556505695070201995370181179909042028064268988017474773);
  (true,3166892416314906918693693430858285187093676442534392119535258251078632);
  (false,31561899298008145797706081370360994443202422805003922511586819844195260);
  (false,29903802025433582900323457948355307970738108896316002842234649276338173);
  (false,22354964892793509691491052911460174674276674138938529269381598747491505);
  (true,127269499929120772464615526585854164988136094233458206394173569538618142);
  (true,8573981575186599190983813337084739610965500400993071700566079170689824);
  (true,54146755567315981072578964901811582330213354162598612804536251080325523);
  (false,21314219541077787215780681680441156076396487056065405556911207908716445);
  (true,131344694343242240387140996989731845634947517757697103505563730114988853);
  (false,440904244309287667153166437186660481486210696506512803525611201829458);
  (false,1085655977620320063290744023886737844277678485243321116528451044092305);
  (true,39167337156725204457292637679172753909629793556775606512403684320159701);
  (true,17378957657975145986220623857802246461732111946846172678789774784278273);
  (true,3255865534823263176614466836109888802190293622813622970500202692453021);
  (true,3047295461152220427189866373814562132881496811975363930449659464845927);
  (true,38991398212234826587318456173136271795483567459637684363610044019533792);
  (true,12900672811037390088026761126188186993060667560218988915459697638922959);
  (false,6402583129307733717762468072347783353048882562596280557838598256236721);
  (true,37387381479768463221894128959083980892545541552905982316545567930718411);
  (false,18552234429708552230906066971278449227825349130870566166955128734613604);
  (false,58155301079529712686891825227722310086196770252801774077643867699556862);
  (true,17737162134553459723163524430514104903164791560191599596628031593964703);
  (false,6664360210452402490315611173150786364623480370785771235336876870711858);
  (false,17183246477998790248640666963798796068560927665391050837232183657209882);
  (true,9500020205533612460863607035023226341966507504527386742282590405388);
  (false,58819197280462360685460293366817666672279025779735201958445338425775591);
  (false,8525961415556822751429961544556541119070489617166438859227337066592683);
  (true,51272897018039938331575911114022356578353089632635441588719792364967345);
  (false,56054913101500797078504486632617290810907833942075047478446719477245190);
  (true,15459064423577447528741810599168204838058394903725897591957194247937479);
  (true,96805779070265861016038157719736767487428588851836723333874565562545129);
  (false,21330397041878268220440035344430235221085025770882907312885155271526734);
  (true,27132088235915598731399234909181487362125011788829694942919061461604934);
  (false,27051543909748800298682990317910115598901721947196911740163252889717035);
  (true,50607869088423557493687882383678272885283588652159591838997884593648727);
  (false,8836431135896618987616964895708495005000121305835174671583745728515123)]
  [(true,0);
  (true,4531154696258625988729989047432275328729427374141986902504051575644542707699019515846462485492387354072950503326511767731020263824893273111510);
  (true,3387957261488071308348936314669973847365759835345307782976302248016037137120023676878673372353217215743844347046846536859573996980082801178231);
  (false,1992044547522082840579823863848383951479760126893298429157976816839057);
  (true,5385196401356287366061566267143325874210662926204749288657188845470602945754918216101123716893198931813911902982797403588716821071810040481);
  (false,25811195467384353434457944471153312082667498091259637099023528689681779);
  (false,39586705650244590695114303733652350290825800877551089867879372803562923);
  (false,1719359524721729166941880383596714815496190213261955054039419103370057);
  (false,57059728776402460545016788136365993048673996778021577359657008303012132);
  (true,365110450798678947186437055039402552968407497307259876319429323103166280086882583462677280193941041319253547681002590936966121595185821446953);
  (true,255112522012186940335949574345106242290800656526754094463613264157962815365150706442344512743595945024635926096110217720831169856425369746130);
  (true,3436863748899516086308370657400296236556849104449062956665427158837935039494102750807449125571219950143730601163592929352597648004513929410090);
  (true,224248510556986024998771159880483422960093841432832246635096279344370548134136200588598145157546604236626595788757114327204378807385208715185);
  (true,783643267142441119017572809282482132975395543063543001011009352215633801803890390388516603450553233715225860577935507646121549598199800337583);
  (false,26602779239921558788100578704185384953606828239746201324354901174354861);
  (false,47368825971504306033897494700467706248979121775547851107423351671733895);
  (false,33741417690624116755479172582783739043935572728498516834502474980944029);
  (false,19152177423829149052695310406872935094047919710772752700298999907421803);
  (true,4727481686150274633765647654106139114563388553643558066283878491244143909635804881515240226535942651108499890521530359333272352214076516124961);
  (false,3246073522717165390452652653399498760296061110700142160580998009540588);
  (true,4703534903478320434176793295272576989510464102802075721894108505617235653619632927110715786519326105267334189375504619317398572534526747035025);
  (false,196352199067417461586538443491426526047572085524668185936767153628965);
  (true,2782674653206942815288104210538965116844257247325779118375111561217220815245694061305630745248828943652236824171918737884610615795591780318479);
  (false,24985600616398588476382660049299169997743606881761720902256868822427871);
  (false,28013885066242269479414017535318597878811308220692180015997314870649215);
  (true,2379992378920961590418867788636002629575984445546456408424411118203342319603286632400793536128039917151388708942449180949698379416324158583348);
  (false,12265475625868077988065236866554469718489044089065477196321414362409142);
  (false,26689041771813581363380054609209693809111114489788329739337277570061037);
  (false,16499872207280321900179574448284649955831219928363297244469708580385072);
  (true,687275155256404895166090216437770613498297020888256729923753796187702702062352863383399495015529701509776639302849791499949598428514590956901);
  (true,569124059465811427679439188901494178515903970683771405311937209691124011161200470519526455309393062548872155651887186297066970694489876968369);
  (true,1050660854655982566416208264726792211189072418566746638548469057894880171683389375397026072530546413541992379580330782258399763431909680087173);
  (false,49460243766368912895369284531014703936433329475250143928248516387071258);
  (true,4148864245459416443398836847301176483634469226787165748736018888809481631359049812013597786791997519501467396981550649228929157793441455540664);
  (true,18315305103718024353154782407414405032409966987491366631834707999193383529402029534339885491363572481856602265591380477942788624097466069677);
  (true,4601264827608606417852524687535609836693620722293611363238195214891888803192925740527220840353801236469052747394750872395757874654936737180743);
  (true,25696233558453308373342485490976238692795001741379757159260088766238976414595211319447145243245403062005278061943175953693384601611707446826);
  (false,46624889278103816124299780701435866171754795843127711460850521153151417);
  (true,77964904334252663879935805058890211887275848719188370441733628687368982126912683257795170667303904244444041839882835629406037607241093192498);
  (true,2918684267506835615353367826146772626963572865931311079098735014795075529486587184204400703980909846873273476022855943854600198094601672529700);
  (true,743866394450937310416029391568064566696043868416277201794352123675015623092467500514446380554659862751151407603222716862048342694248436362924);
  (false,20568886201696959215637305926335050245365419721114267411974152033892708);
  (false,14594552379243094315235564341915492122223041191843309119298066224582439);
  (false,856224790580052648252299607152212072189013623184275505554596131482877);
  (false,13403013605414843918867045137427116402619455850082241461207262329311297);
  (false,3679275102475609907240638876579281944543892446948478182562086072149);
  (false,54657292555168066080301140898266457306844266982155826042111064728784748);
  (true,2969965280072791346841280443828919386679844475641482142699275102728456548072421825609444586420345888856364176654920876288888524977464499089333);
  (false,21167059843573265940468394185102077516431699487291598051644216090572862);
  (true,339629179882465601020273929049350414451565295695153993305942233124797147307678423389636317934634021345376417835468166002843297699615090846901);
  (false,471133309775613513804156902465727190351247947935434179165677761001309);
  (true,3455924603909437126109895599826893783706289967335330931973472539667579892960625815077108489599910522882305776169496326112075942023826562387765);
  (true,751984693750526651396657888790848298360246294228818117281157002109475695151020036819284972847100316206877485422643778514268944997429993182319);
  (false,49493950184732922062618604491832068055065704410839160204936910378105841);
  (true,641346707733850183305798645983995684107728295721624958121201348808176827347786145463726270966120906510653733070532256110339558922413763759183);
  (false,3074592691184918147012371785573497143633698834739218891079059484857158);
  (false,8708192061399118207022194496784019117026021617358432798585932307902202);
  (false,2167227369559085140387686768707649366183382497312460294858956601574189);
  (false,41501344011055878027643310336518411140250074860301155159649017640292832);
  (true,2176218197820025035209470436705541721968215363805786245536483815433806997951938366595911950152208597011364049394172449589680336272347889125555);
  (false,373969890312900118544229126412572430169734908288163451271111946862383);
  (true,2688502796611669759291151858098166495584006728388633669300486911026874134381873843649132304402167389632404508946719115221443791726073574125044);
  (true,775119419719777065477277529592052079002158441990293460535487771947775615914364006910636139521662444480684138793572256426488757755741928703834);
  (true,4638178962490163914479361057030495975377442058850843775707380566663841543816072652413866902785066563599114635030443895596904252271328374737859);
  (true,34437832848352921105471767346775269957064968967637811828001730555852351979295671723347223948206879713488524587522694409919758270887662165622);
  (false,989704628073063231095820929019139151043285892299353321348922055185932);
  (false,18267759353532207287850845191533534497452139509581697424459241542928740);
  (true,355978614056581388570263984946711781921752865921618829187966042591077270519420927884786769201418383289294750179086189424246173647963148232881);
  (false,15184578705937526338526358130788060576123757098324868410199272675449356);
  (false,35975334465651789807785177244734236811536386770838770066952163788661616);
  (true,51372768969423084369837543523907019117842118641297051186771128757003727819789096501554896780330070617197066096989341897806614432908499442600);
  (true,33034905973196185599255800986866430769007375548926810537993611357007944061683832078023656462768943419003228735989757094925296006010921534858);
  (false,36466999030324605872082704842055594744717493798636621540665652048406948);
  (true,3822297836552090692370593599639930955059408385216254139117320101172925497217101384620241134982792397667160944081596709448377290526383721427470);
  (true,129351380332413533680255941692648699523404404605326142339529915034208733067233319716597355806928507855476953672482511719617302520501398783367);
  (true,3291620900124610781633806571061291997177333807365530158459331872133747382687495703633182215736867543818054695637159219608886855014071516743479);
  (true,3225472903652247326140691753566236655506739791498308900609697259156010410567366237582068206837059198561534701078550696131826403008228283907312);
  (false,1246914328207901965502055734768863998105084011736624059396702840171716);
  (false,411163978793913020809755564137080449168040554734500982072209574661681);
  (false,20680203824837290405677642799755814983843657334489347001551863326444898);
  (false,75029254196689794430275267164123708730657508367121999897084790701015);
  (true,4604218523100587916177153481490174421836265977846521665157731077208897046992843608976539822716214468237520472680009563981440298168445769198584);
  (true,251377057316099439844265801461411701030555086060110361269797596272233900209174328053410330734515613706026077070756607865118421953669764247967);
  (true,4955735355499917671847261232698729721074760436208545502604961156185473122922796175159794576827443424682809097544096437072469725851094991341768);
  (false,25524501183175336964893809329725528581276922837225211827632694692920017);
  (false,67545246814914206555510569272041410566927562837474306531880467245350535);
  (true,169127542446323445756569865938905071858954663021901892317798367280629928791241708022575975900658347686378926848904202202357585108938521723500);
  (true,4072006425255135528774995625199947957209266971449190967733676903053609176498439667791326664360631479701575044585155417715079349037543258812295);
  (true,775678229065172095668085600217775404966350102733648155001478720627521519419574940947512554445778504748124765436081690266577291900307096981546);
  (false,32485039313650495733778635901500989062662224396470847936228617904626554);
  (false,12015572869932427919200703816676405295190818850461994554887197143694409);
  (true,4700734346336146216397416044235336656112379719997867417777714332399822288029380221872938917454335376915116097893436899096467532129620081849422);
  (false,2404181834683087747573735740496693382824306071752325178736159234308968);
  (true,897257741958547981083305511936280878304002406636380061950096203386816843262010926862630851380923929355201476815994701433024227953103377228668);
  (false,7395346814834053161877071080853646497522339231157375605502364060337947);
  (true,387392743639945532538136168110657318137204678063392541557934934245500896773145892603447585575691559096209428954392001254543544569483821099556);
  (true,5077228886083078376259491369125764706889336599259413701591412124815320838259738082669363344495093803724993682208013212839145954961502917394088);
  (false,41480766939531886757752126080578861010283027324772500907309750197605960);
  (true,3432546955465906953907127104195927466290020951749931904648270733971112001004930083794437706565490075817421511941998693805072349274065541416928);
  (true,1565991089086045620187830796533218456597334003562510529552446667562564240652920320902721405392014272718995246604937198545786360246116798231290);
  (false,3099715448518685330731312581106687872287884043853220667458884116402562);
  (false,20801555119138840270325815258914311696646353856782977944637692196616791);
  (true,305917056617099775234476668066072852529619565317186456399010825904972153319803405060202046956127358302302157090145618002259058720157910929165);
  (false,30367920777232129737365332987832592167098977868788655489964996288999037);
  (false,11298777996592259094026465602406538519439907213081122675098930372451111);
  (false,47827324963318527226872765211885122871788173377908600896210549462544749);
  (true,1033091143973685130291297854962396907732055766200648380362471857063972636644188757389009013010590247687787856473882219897493974121745112190878);
  (true,1389969523750853252121619608335592040133778515334224243182983941281288680635361946186370009366331902721802602022527022677940497255842306270414);
  (true,4924716622894616117707523451777452233354403035982928447432355308495492092974804944327766542598570766745897282549671017522550931909787440006743);
  (true,423534118457945026883226817456786175270764645559844978439510877184105891035694783960142257838908889480789166137690095155968143955923576301770);
  (true,156336169775496644338604481613787887621715570604681066533038752552948900445741078344699704009939840244824687340128567925842248245224827564673);
  (false,101817610682277321359453038157104900226200602485406133978052427895134);
  (false,62272853866573745222688651779577081439260343594998990237507930535249240);
  (false,20839886359199365023455090999758192084558698981523213750387234013997285);
  (false,445583823130102042323416983019884121463496204912738054085708061107101);
  (true,52940601375757132019157067781096664124856069001610421142215098919097023712078420747106071244830335813340889758557361839346499546119820366037)]
  70463328703800545008217672123162676565183935400628861884889913886334520
  [(true,0); (true,0); (true,0); (true,0); (true,0); (false,0); (false,0); (true,12215);
  (false,289289893486567805868090728269776518266277212560413662741652971696644);
  (false,3174278557827222526107292405116414999257705820633601479067590615218255);
  (false,44380731295738604031217392185683086777349348121820202495428108695178291);
  (false,22815980197101250396353439345019791913419994164348262890903783749068163);
  (false,7742215654975168201809911598809088000000000000000000000000000000); (true,1059487783963697360434252914274111390113830566406);
  (false,4628638295785084893889451665868951448329240826059778624661076752504728);
  (false,7090294910619748390873257264641946082797972629726671066270942065486944);
  (false,2861047923544484770963286807087786429260562555975460421288474399800722);
  (true,126253508984900373354894381026556239490875790012191310470543944215950217);
  (true,4646794174086721182574813275080574011610525751401744707066584651780110);
  (false,5426939556694593158492829974889293897153386824601573955133766377775606);
  (true,113965359000850265500475501379898387801606939683658142839113474071742806);
  (false,7610661562380469182187706429772284095640119586126409798233905499992688);
  (true,1802057096280258366422318409445296181808458439402809291761354300483179);
  (true,8414948443304004208377296041950108749011417039776825210267541608986450);
  (true,21867228324295757698424031770360050426719985751073422790390933818334810);
  (true,4717690901373996224545563920339630105883539908989457187338350096159787);
  (true,2896260472794487072834764081197825087086219409236579974944177308289603);
  (true,87849707460638283582040663310452147561727958065694330265323838437427119);
  (false,8108198451125958728243069729309306779934426031820993775425201082515915);
  (false,44385945593881917678109450023528970064193873808447348281956677181305848);
  (false,14106742651680678881231215163064095388364561891079370352466739291393256);
  (false,533960691933374887117170649062053045108925557229559736765992858062559);
  (false,8297717270267020319423526823271646156295967462149949919078816131373209);
  (false,2292305722456473688039764557035625897552157670017815108944858956363);
  (false,4489512278388218762246303671360266340972211597267651463785352310666021);
  (true,17968899807470580714141723340550681164582422670931817930760761954139069);
  (true,44957131610675095031255730070583083281749073793569577713573758169051603);
  (false,2077102583144541685242326127672162811647713990422651619505854892412169);
  (false,18568133457470550370777040577134308829285887907753606579000865367363526);
  (true,79097958693432679668243128677238253014342254934894011126043702800806459);
  (false,2469168021283752410045389909565289833859967097509021997008509955452717);
  (false,6520029009430488931262510949138141787328616628130623655396124800334453);
  (false,40099874421290504340187538185617285456326844351806929734499171147174200);
  (true,300978060995147545441833166969803906961763571229604732709914793424780);
  (true,55128228379873794493023451068970309018449561489588914095850358748740367);
  (true,17001138123474783195659206062376382745404209548572281437047941991774898);
  (false,2855269623723579966550247597830641256128266587148771158916400279213662);
  (false,4544784264834926983471176612646611394478991574621241456337662787999083);
  (false,401376982992533921267512837329705217395970707643497608865068155509555);
  (false,70985960408552270512257613973153696665374176021924420496983989056354645);
  (false,23590938297769025257350609883988914696325603026261888440487171577370445);
  (false,40447966978247294471429758181847003027684113724936888807286097294640580);
  (false,31940620809837052685532854334485987923845457375964309451959536526787031);
  (true,28103932947924152958568233603747755856523720923198329223729239517512616);
  (false,16104831457917155487947090163203813410013277337496650015491013158244677);
  (false,28627674009785511873408953310599454761089369664240943228112994979959481);
  (false,29058219273279549620232043962920005585761822011042624151113372093434624);
  (true,91477291711845453117543010867639101704696851923500383262015351603129772);
  (false,7775971994147089255172121501948519516665230751954317818886965694141944);
  (false,15452667154552479117107796661539700549656603670573182241988508596892387);
  (false,68922786810941946472402910131973171096285919234692883434002606166247200);
  (true,17447022126012949566229890284461315328947227518565930934691319836051188);
  (true,67390953766965726180723078294745559273563073828075200480878732674237704);
  (true,8375789368983653899108393696229725780619171974719757379839924572006575);
  (false,9689862966995839431746891580240697014075254306888873815680736103536343);
  (true,122788729293153482221397663909818675452932321035539722313486820866865055);
  (false,12160069202627568826768925635170203097944076071368026945468608781916044);
  (true,4937877755663982255414859388128517380901383347537199742509518653019080);
  (false,32113166706449857278408108537660862150949786827887356489590268411960754);
  (false,42786373475997192366056389435546215041784759307172639035452978688310192);
  (true,141605428124094160127696051237130738741294689332582939549791155518714135);
  (false,3725220905196217926987936659760321673503953262316346065050446772032281);
  (false,806474834831817062245357752294925013392455561811990818145222136151768);
  (false,14702124677882099711576890093211156815047128536655385694965810102295148);
  (true,27004466216437862716813113653160490515364571609130839941541039813990);
  (true,93832270252768267045241884392711392277937358282070450456510946269989);
  (false,11065084788384638720774662473529561443632848024689134225127493801739167);
  (false,13657682487182926999483253099115111144353355767747567851330477906861009);
  (true,9977081133710788878485526474363420629491015063254761544021916303032567);
  (true,100433783128578596075660806593151298307391274749996097749833075409486189);
  (true,2434095256696191210425617451567549021243371358161409553576415563169008);
  (true,31359307495677893923776046633313933209912949013680927524003958787110046);
  (true,103229415642173157332354731388292763624024471603445041509215906481121715);
  (false,19593187686733661777179124367570306802826125902673235613780615050313823);
  (true,1911240254425378198394069666322209062758283115833186340756343381492217);
  (false,29068379314717853493542162360855650911583375388995232738741341263095680);
  (false,58088424427398887390421738175633245779690077504038796011149788900762317);
  (true,72951598494536368442853167799595569172070949922480415073401006051893341);
  (true,30679141737908042974541609281600598861056693571474527201873994475459461);
  (true,6578217960375540432540592136579209082276806818183506171261852720236680);
  (false,49981134028214738225382228819800608877294010371404312491505000770877156);
  (true,3393748964112091712815680115978767796354162236799456625737792077547311);
  (true,111632560740644715262469357563434341425259886502961409882676947901799077);
  (false,58028777363401262300656498997494618029694395334940420642747655701797475);
  (false,48072463457446456042174531528150491318497362222841198371994029972178126);
  (true,128485386786078082077997155462607710793785404711978971514549341896487);
  (true,15648509778619134562261096402222013461505232876840768348622742805718902);
  (true,8666418152886246588920173943680706393321348206460280069608117129750659);
  (true,3726744517950470528587764136716307820738736654655478185329452673567);
  (false,11896554199748784873370513820251028919381540430158295878868795670217483);
  (false,1148057568855933585365137051191848748038273768035305316328413691795685);
  (false,17300944844960312723884608215048401310858970016077908536651247554015185);
  (true,80932999902248468300140484708958273679120605613601074079381214884534541);
  (false,350134274797891328558426599429231013316711410271054919481954330883196);
  (false,54977989104841849702467888481816180570208579150423492501256016086916437);
  (false,16994440403407721095180102669028555888129994255248381400710365588779318);
  (false,6683277410459305693945189275478059230743375277505621395135183221794089);
  (true,59316918704549776903951995802729445429243142322064680747842771604196845);
  (true,42887610912355370015888114187438130839146419209063439058190216577855108);
  (true,118904075126521311668244674786232120397609892262779498434135373874161371);
  (false,12124409179007614758904799660461443281886896336870353894168351523299318);
  (false,41693982270491235626468547074978269675489815906770234181207839877212791);
  (true,22516320845520512438922002336095406480062694714654069063788486020137599);
  (true,12457129540433179075315357907440973171955336139097326397920688076702739);
  (false,44205162462187774578243397150906005315376262742905674936391271963664313);
  (false,18865725317628612289742045265138668221658491394939474687962686433483746);
  (true,1336693931119385263280408430137987105443356298827608855859412689711823);
  (true,69672164746823250823516556564095626911724196281838181570851449872051530);
  (false,1205571610455113189981588535391267288854845976016400096653587335283049);
  (true,31665561113459065534266705461683568934148602871803704960684806013317803);
  (true,4532317768640775825270421807451857074321569495346476720971889619678729);
  (true,114391629319932015003163795194559478888348103099460613753702987044236185);
  (false,41806752922252158735596479174163529461356403712226178273903218759619610);
  (true,3539021305660562191999783395918862747168363200382171270428034792484508);
  (true,20835333617295470855143312424381716154887940821417030786255438287687357);
  (false,21333564348093961926429523082724672791810150060330214511904012628521992);
  (true,73510822719387529850489296395753060385937702661971596107747178078667893);
  (false,74774312974357252137633898932304500715453093311543352621227682470558);
  (false,54971332931636024280426825074046159453777899469404178702163951710453047);
  (false,5293355909203933438352634986306151018504358565628923629904904434711);
  (false,29057031859227493852266308409074861207991107942558299955656666464273525);
  (true,92740617870119369668745050242639088461795947722020802733360176337415);
  (false,17458637723813285065138791757272801454391709755840357215103144007236507);
  (false,2960405626760156864625271605876512786590740138580979970811686237055276);
  (true,118886174569593929341682195049628978964668654916786429665844807138992149);
  (false,14150800884747508470947732456307022066365304082157526922933190536408789);
  (false,14743607433844453272152371810057383954043066064353069740413925056151192);
  (false,1811409102704779249029401526406743553180501091481076882641532959048827);
  (true,20129616641340678067037797244560795859005254776208234714578649294633163);
  (true,54942053059458693494945595447807063674377921411159363806588286190025115);
  (true,3797762108068568976302454833587514878473904658124609741837010814679179);
  (false,25269743158984758228451521196446114751408410054336282179881244499513720);
  (true,48373693745898277032287970570038675460846786508684826675655875425786258);
  (false,507818250026469689324209658195430110994438532854668710701813408286861);
  (false,36351660077674794459353553932430767993937784602915847485834149109561934);
  (true,29746684931495388691628493085791724300422628752477270454657922851268659);
  (true,22626647836705443279147844734272476205419649885257686257808192343406103);
  (false,65833460147817795911791652320291189009223681026777771519878090484501812);
  (false,34977700858864938848290626201430506115828471939274621147291211568964424);
  (true,20350192221754119901861332669184747915475586022127161026725137460557278);
  (true,104925194951775018922431486257493154316619262420383503350502041714678503);
  (true,123660534929153603953171358482755215821990937304580891081787771202504209);
  (true,7070515363189919197201295583885612170130557483168536571884249398304446);
  (false,29117478680534059427401300385442718514046663951617747741647854723575635);
  (false,287463552840913016074676089086878835924494597168463829841462645672267);
  (true,35349011045273933580995719120250611256328896255596423504691270962671496);
  (false,59776586058182850195738120940399189034211244870270602024576258623581666);
  (false,3064202123144257133875752436949582284389887177835242866259525688106178);
  (false,47449387729104467184769564176575990418930694227434410184122241356277951);
  (true,11356295891258121486153372028982093085975014327421594348089246775199623);
  (false,42837049962896452722328982594077857896854986435168225520314096918435483);
  (false,68886102048019150418790140434710688719715605809539799104289227233685389);
  (true,53943446586067420974610678965091634003468324309760035231940365969664047);
  (true,6574015808137739710967859373089481240629933992603236535085615363979918);
  (false,1161192750169962843865903453472105257014596667558364102500607726991748);
  (false,66306429104769339488936337081166482283677644283007426828043540882635747);
  (true,5686395862768587843066433539489329222067225831633110943352416020439609);
  (true,66760147308809251780071736063550526925870542574672137548337879938548554);
  (true,16578908900369354518254541934570153708355215919024080091464809233035758);
  (false,11075033601373041412661846728414921298080877836754276180785666230635341);
  (true,4837101310734918797114316701476581090360198562645569122596520865268619);
  (false,30241317014421415286831014750091908379321879219355721136285242509847384);
  (false,14613660865047996262795482575979055296300180208236562041827007747246969);
  (true,61908838658553896780964453496261386802865247684966131926051865095109242);
  (false,8716698187003605968920797014723273034828638335227160721477247278420866);
  (false,45176986031395538946938580356028913343968550981403472638362960881760874);
  (false,65233837082073076656520398050464688750222366199495359011406566433509709);
  (true,4343411686759442018080762121229260591210238215793903620571281355112921);
  (true,6275825646349562875542860723600411650996551915151488639129719752422868);
  (true,138583615160479809560034963871452750908259161824293588883796260572835388);
  (false,37896314400964765887697272355304545568530099034835275048797323441155253);
  (false,1050220691464953650079042283070608766978255051838413705695873118230603);
  (false,53445677240379603014502806702664011303321704712582572098431644455970374);
  (false,6341552666256282314713580885011815265319622175597899443429754683221209);
  (false,30230738836074706891029202410208279965400971969166871244391439495187206);
  (true,39479309796379809129611735756360718810119034473621825901809617699309342);
  (true,18740113554514870869022685295414701225509379963160564210805404736455884);
  (false,5709543471879917066919053490882991514023224675141840779218256514787748);
  (true,1284276883106800510536245701210732555347355381867082183902455919129326);
  (false,56829362574056432745216415320614330021786633040205600814182473719099018);
  (false,44530187036221492969856947398350378863655475919913390499204559555890388);
  (false,268588751936908595670426710425923510931638869976668730379277935040847);
  (true,61929153963128065607913293274239194351547214819835482165648339871764565);
  (true,38092011318510606025749967934120300129414187725968381160172876860675557);
  (false,2246941353318782075002555254433772431291292761630154236313876410339338);
  (true,34642052193630154975055039381013290843893399962514850419104161256064008);
  (false,6964996788033687110325645405788953319250937053291919228737158335739891);
  (true,33445139488450832974554405725121852470707691920190860735169466093318723);
  (true,2278680224100430626051639603860028983830817913470935310970898867450331);
  (true,12645073154387183679835398003695119246394575422633111970335020785137857);
  (true,6313342231188228988786324112506105749512539030632878352591428275619042);
  (false,9574409894615395555665040991300614684233230794749678494919893844821750);
  (false,43566650395102310976939017577196204175794383952337922455758021979060783);
  (false,36189664774745015968648624204716943539415473283419829094416352821245656);
  (false,831145254276915383771082263331854857234225563761833047377794720719736);
  (true,34089620070354844429175994708083366799804649260081899579752981343015680);
  (true,45161756404417632474059009953854559906387647220453277771009049131914001);
  (true,58732071471639693794714070493736675179006875286083744721163605789223311);
  (true,2081217378705819918947979522440587317151491730317446653454693353252618);
  (false,27380422028751217842135288746132709076165806817820814704100458199767014);
  (false,59647093999218639721063414982967700134800166938112654256218183568401638);
  (true,767656471568273161786462420567970701532289280890140415344848122551561);
  (false,2676316214465395659683621272418952095356492362344408073831287299426183);
  (true,65421244052282379343272204262619076524169700747057758374444932680293910);
  (true,1796694478568417886431897533707137244298432479577852528570076412132511);
  (false,7414726941427146900160989402489161233918997662185173758158321202089766);
  (false,34992271508324236463999505286980292924110077295756354663577721689171617);
  (true,19368818157189543031186771993446766939301900279879436592672367896474404);
  (false,69073816556593381106987232309692144585304886737801033222161439736667023);
  (false,1593974499716269206829805050555781098113515926362814959940807772099933);
  (true,104336037166510182854375989103820988133003090867079671482271055584479246);
  (true,8331857352549403176711054629940944240751053207949383179210916877082605);
  (false,34468186440100928947827365128929908919616287024146760054091035271244917);
  (true,147590138335746401317321989853089706382967488980365680673441764939057403);
  (false,27294542230877380581320241156882998978864796723958969590123338442248351);
  (true,2930296077125953899085710482706011428431587986971336322078142600629895);
  (false,54958231424967718877258341434290271805353661695748862791366131167415119)]
  [(true,0); (false,990079869685274089067819496795799193426049271434876125113348038497139);
  (true,30169160492865393294054143833401762548208918982329592005660227869004719281274025612133219534816225468054389441639174688116868354607966756625);
  (true,73262456133059995953719285988050171171837018829497139122467050040976296774118623241088425066893638730490919989607843143335050951779397211136);
  (false,38476664613835196748834781468705115678974470112494513702026977008765452);
  (false,27142819198696964090932012945428575420921880469737623229143591720974848);
  (false,60850260036196156930366811057474256033212425607645421547079812641604177);
  (false,20346677712519600861533358236967420646558390703252951092134017590391550);
  (true,180496812309892443193697792878939623467674572699199295326432597883446956961395001597358992175585778875269285056957973826939049435818524457)]
  37940283535957283147790493383286696582099159842122763948555891970476459 prime_75445702479781427272750846543864801 (prime_check_ok 353 eq_refl) _ _ _ _); [discriminate|vm_cast_no_check (eq_refl true)..].
Qed.

Lemma prime_r255Field : prime r255Field.
Proof.
  change (prime (0x8000000000000000000000000000000000000000000000000000000000000001 - 0x14)).
  refine (cert_prime1 _ _ 74058212732561358302231226437062788676166966415465897661863160754340907 1 2
  [(true,0); (false,0); (true,0); (true,0); (true,0); (true,0); (true,0); (false,0); (true,85070591730234615865843651857942052864); (true,90);
  (false,3618502788666131106986593281521497120414687020801267626233049500247285302104);
  (true,4070815637249397495359917441711684260466522898401426079512180687778198169178);
  (true,13067600891100930501598068315494625343060070901292077814267399487995699632785);
  (true,1180076119303530875144116285532815935167358627057121551494565672490314011965);
  (false,1731074615247051634489172293683676124410868977223555680707173906843900652117);
  (false,43324204993500061597826158612414131961250850909546105626879919447147686421064);
  (false,3075446206036701470872393826992783401752763128678510908850634197157076446817);
  (true,29096143762806239262705528706363760764796179979535943756800641576788782737836);
  (false,802028749036987574340757424989663227075669220565584140869463940457761020232);
  (false,27665405654990747157847101006816744579137975244959593346139654333549227807747)]
  [(true,0); (false,3150637590592654334320754968479746427346777037100630980895979758125526031);
  (true,19122898713820190329974610198547799634406486053254751779104550199729935567181194322952983629578287373685612093583034941220140085677074844221190833663107);
  (false,9616201986684590376680605754811504261755830812300445105535925344020298548076);
  (true,291192355655273489078477658639163129853789269967919071339099943600453614714660615433204771888265127546118694601084483931248488951526998600694970962143);
  (false,1907180345243924633002650275388700005337052027404957095066991422045526743377);
  (true,1608413370678505077703574556506963349088910215829788284985573210405425316824475767201198562194873564459680297693789597300851210789720411475530574161234);
  (true,13617204480213133766939808916691050894577972475965435111293795204506827193794579950998438306926385669235846622432222036836141923915117283180460238420712);
  (true,1587925398576573070497891888938335129151859164480693899515404405949930577606291842001053640236855589782736163702915898575170391729340651622583359000603);
  (false,15628420897468739300123722640238358520453795101807137299209688076513566941671);
  (true,6235261909555808746415188735216085300892566951805741036497118597564379850440209526397070413295267370553109177515181939573008460892882433304696660833088);
  (false,298595192486067746484317186230725753016639740081907774676280104991358461495);
  (true,14543987507109817128024729026118725831858148310043635660883441144648263113305095206251000166017764050782093346978895214961970937297561839378868925901279);
  (true,12064222871790123151579517254171329935543930456886565359974545552447258537838505652226856627875526608038844192679975617079450919988413465658640198189411);
  (true,1110376501614605735805692533232213155530725698412639018111551670770884262464544828070598552349723543392123818565874297427020826237564474226445490823028);
  (true,5281271107529419148381759584096000800314207192631523926717869148299071688851598795328805731414794971340122415763850923058541166355549733944232120989030);
  (true,13871205658810931758035208161764328044773895227631629659346997879822487418066200311204995013012917876447952944892440127364988570908617774135552696287778);
  (false,1261343725630453943657074733263010574466460609355322978398332221792139554006);
  (false,25208515916266421934366506811632867469933007761239260334068037161171325383);
  (false,20529473765930840830914155294935347449435434573955338930805647964933890221543);
  (true,1329439647357072493512136083350881446102978761377155218130614274440405574715791359356660409372502590093387039811989530286198860112471362946529070905688);
  (true,3151134796737409740496796463257301587521493690372009714644294536868351083373389554295692447560401123843326979909011206794997579430047015870177344241600);
  (false,15723281633878217993404065769703295614316630579252663923083879596622324942068);
  (false,813004607494986704028453109224715201042243939346673336561022390299247741354);
  (false,40248593242447984729110878493779586422682188190889484224730476491804535282992);
  (true,9103766522473422686914611513540241529665836454840394001658743268857321271465207101676522482141990067501872966686375699376276121361999316004165049090215);
  (true,1253196936799814318877067918706802931777701012848607849278900449479898586229155966159497438424898979565694627007111796779176570830917824390038719589291);
  (false,121039943449892933672858437804681909439015642372141446100282398276675860713);
  (true,3435788834118026389735435725528904652758354780875588553396178859665845452352256504857325753451772056782399246554526232469624434516287690027070685223191);
  (false,43048684200751966953744597377782461351140684962161044780609093830007239792910);
  (true,5200911978106877863605237441918286437648718629812723806767964094106785939161146865477056140761101879514159241768686462181007688047976240953210835470818);
  (true,22163317493628917220506525889661387033075270952600544728062962952693960524769645193343775269155215290944987277627129613091494255860024774710135721389426);
  (false,26424802070964274223593872754697085976366071206284260542934588609968797871071);
  (false,12726117778409090951197271288374006268895662448936623910340335503944777033673);
  (false,3235321094933717068080726514643410090634788804248881566506945308935919932852);
  (false,4423877558911564575260251910371572591704998049330278139353964052242059041028);
  (true,2622626639331781732751722877954948625646511206025601469279358590183708067089465532765244692818062244826701902916709214247004258400913384044250580807440);
  (false,50177207978150810803433176838235070899336019099653000611048936462025689667503);
  (false,1503017215688275928748318795819038342513836572057099932212329518971550992781);
  (true,12275989766756878455951218482678858608380281623102839785434422910754512194641471308899736367445985149145692513473356084987770738742083567547001404464137);
  (false,14981852433189385759520506689976419947561278110057760253001563388892221939);
  (true,4051338652186779463264514280977195241307819408983122103251647543429043462816286846215817476054114519656683743292641518641011769535739603418247356845203);
  (false,4845277128244266589949491794810706980311352844084187271306104256275003881289);
  (false,3131851863858128970155380661909862569823747595593387948709931870757090332833);
  (true,16539842258479880250393759470212698758140139368706120595695709904339333883129755441938955619561088585041043397459437460405094628307934821776553233074046);
  (true,2466809229889051773250241498993505565863687334684269175219957809631938115153101528661134421839670990770708255328209018363889276095949561003600943408516);
  (true,34115080946205732260199801671905297239675646816109958436714672687849826963145949496909280039267838936521414581548990791203989908683893033454369531454);
  (true,2795936973914407757260906097215755033814206516352511990062420237005904694549115737519546108474281994897082822446247852219245190873301046667085755691);
  (true,7634022340353181715715782052977141127677083603565282109540491610904261697910483359283275033510439324214503753257462174042048937041357811023201335868911);
  (true,837516839802216169832377415951197098778993459889943082272978330371400496438922828938827798785526214389525634517312923169000563939513560768765346274586);
  (false,48433819331889319457271535187319284747173943567792522840297807553754653220089);
  (true,12307418412705051540575683912852634064653914978424501246945915809395992742774941844803692500391032120929821527737192604375649453661450696692509023786999);
  (false,26533255645172668828843513950524132438661545874922365997517462307463338165676);
  (false,786346041378244500991708048586901306162218052458116638376521860151437295130);
  (false,42231569872778540443994304801458290872143830601127170237187838787579251798185);
  (false,7387174297046515438107004103234897267141418247921205966914416558742370062464);
  (true,23678195383264538281018167574770251362620363903372507390997573171349679217655458998451659836189013512445768808761652392631056996372026703130006714299460);
  (true,8136407105253233800324498889128377526758384375937082749551111548204816794039044867341456434248892320752787648619716469386392624267316096849086784458960);
  (true,118867367700432709552845755331378916193501989784053921941875552278614506508956946373069885391943754308529422296121378050839031820304271364358829586269);
  (true,23806762208953219444814304908554275422336492240249534431992469008595734212526967382033132580957473114227891770238291916534408545604306384981726623155334);
  (false,3740236346821716768109651494587045546547291655888629848437968396442092903643);
  (false,1200680620001979761196740184401946558241943914479495206374763876663764012776);
  (true,489295537188815342440232062994929952739100258180875454501910274039285897047770161912135879813451003150561814475090144559398303702267728873715421952018);
  (true,24066524506821282809256630125196559686399578661089497137046435806368978118546789092660731735265409749426658908482009192977716612733536562937991528327083);
  (false,14721881451826077552579437288799694496219268992829178580290294255062546687364);
  (false,16060047081276711852194290681714291034056398524332594610671752205044953800397);
  (true,19532830609876372705321588506396769816088225848546512504287005594153425577179055574465362422661514033731695613475479980767031097778086827040098301896313);
  (false,38333714836909258836130866561074050888202375457540225278109218145026013754652);
  (true,12096852273259905664649127615185508829515332671191430543581293673909235540283778801089737280993370392083944150157421322094267305128388827082498583234035);
  (true,12871518819767727067635982076025175684095568390503084204203448816903911495869079045488434813826817462702055144072444846862451218111611155529755733665815);
  (false,39987316656042731687783280700340316539082118248450481860664710137643260039875);
  (false,342020825222180042457931467903687364059056676774574128372632909154332248540);
  (false,3265398399886285860823305494487374781491043760783956163705579583625756095867);
  (false,8739246022430769673591965509499920461465314993155484221949230367169643250528);
  (true,2453456617296806802739615426645276050193308925964622234290178943880484026976358810390730975906278944020263358993112994342279038993232107409298905093282);
  (false,9310741456571833889407456879667892229643858742884514771036149769235996272173);
  (true,9924933888532751492661893640638302559068684074356636154159776204377399808783012999351310552898150697217960256463310740430777362946869730270668275758890);
  (true,21799516408043000328378332405242011753664380161670782637746020982561519097398768444375155769179820952305395159545971081420796515924683527199978280461416);
  (false,22524671112235632527911490902751162963009240110377147400068631834413427630966);
  (false,278838779684077698915192423544061168786103455922314442211078957662026663905);
  (true,5131832570857484081657816717066986597548500114628199673681332578690224662919803527760547357678778126571005793762888136336465512158188064375332517570628);
  (true,8493479743929256139157313422754397075778532553206606743133359487425299241369431078777074810522349889583430208506954774533679334521135484636473665149748);
  (false,3846285626047782772615419666255990867229999336932529858269635568636791324051);
  (false,16345213590399119653266314711991569012466595036361191587692950972689509160927);
  (true,19864403934338810829619194092901785770832332775082183926701375453314295818464403918711118635928771381748853420790389742498431893823776953347810910677814);
  (false,11559818170149248519505827855717209849031926692596904238805548900163351301250);
  (true,2029475904743236202476900519226209099992944477603553523212796441626118018562450591527575467842777578511222729355642454025537039882526469283356260768967);
  (false,1513463233179562425602398393479644871028248342939763937742376129403363684186);
  (true,3473633820658278266293202068772041160523634782113478324971824043364619803082794510966203095519531260678717873841991648759616425754521448601374485724289);
  (false,2992177439813740531979551517201991163418362143640063262394893694585701916413);
  (true,8921879841378575352573175335447638334454412815683177539109155569476231609550869818751590175623592493620564189913139278434232429782162284528076769527111);
  (true,314952120735263312086469965393514980191144489395174801234909648008688788553084170094786565136834054361911422763297846404720785416699214137028696585719);
  (true,507848289529167361777512009452517865694262617291012615953271696858925841822996570454522179949592673088524241737730772036417441897923322463688111492055);
  (false,5507745805520728085910810303318107822103170643961704754327495170064533090176);
  (true,7693563833308602524105496302775876453337813376961475432407171066031933882691337054144225700677307463702633208097770423241113124761014541860325625073235);
  (false,39124982514141250351978751753120083667498453034232110454552594549729419793343);
  (true,8388308685067112134122999517432711977161128843849307339505993056332411574973398451577064428002604782911661509587521935722504793174204409618133713134);
  (false,26379041744813668782643426693396689686226754946725145332476123671711050055878);
  (true,270239717101504014844060667786764915806503544609367554122196404569346963032216499867642299364866556599601191538764212114436986760859013733629477780722);
  (true,10278649392316730890053030876716635375669336436339456877689157398209187401478812847312560703326622394711019863930119524151153572936011706983369156124806);
  (true,20574942709158473869689863332183073674359558247071109615212487528865532035577304040934758961428774186634407021372250194518006260561659882591278838238311);
  (false,4632759103641923191455752914662689345435957443728777125348103144245651626676);
  (false,790494890569020316100494561211084819852442534973152320161852883663597962515);
  (false,321842179069766167147592822896246374428245040927856498108347181023074800961);
  (false,44498033327974260518109971224376703425463250780548782287776643365786502579304);
  (true,6134676817583822969452068012819818803420955152697561924144608724369423333773577142458322344081656632497635429520394476878847347121122851180894872579813);
  (true,6692830361866299665188816314174056132475805014511643002564415721547616446256420732028405750415820916706174458820789480981011702170604517795696939194412);
  (false,34517109559667088554874972404637037206035968805794096462878147506644866552);
  (false,21195772880689628444618041689156830091868835053889003754588957015213253633222);
  (true,608625378251830436099285967069459531284275153548797220881640604716177467313313309051835990255971562771432610416384051064351878919858757175931401832295);
  (false,14347061617898377715167457258199156320958474870417846720781631317916109629852);
  (false,13944221521168166848713887575391239450571811389566003646857281167400261335595);
  (true,17539301435906030451514000264715241702580081656991531620750457692156440631093512319436287803364391177978632034384632374820425432197619381465441402673616);
  (true,148577319187822389331828304941490872570223721053668539731917897146777517705994299566894566680026465343545393905750484818435503421224685802531074087774);
  (false,53394328858606984166795016420756487851724024641875546890714214498818240501494);
  (true,134897019189070602914143312182023343713653224696459635348660923469386955958849106378693840677528429969296820203045976289297722141403049961251046927857);
  (true,316402187586743318816900225379850364765149353463192149038880617502791700542496881361434581626786820037227546744128898973373576248952553628546774631572);
  (false,54229952247284725296263653679397523653209410511781946693323426078630947407456);
  (true,11367975760839634011014232354831799821911776788155266173338060620178163217344518549277630778808963283071621001981087058584423338109804062239884473408953);
  (true,19569040871921309136087761862767266021307914684435605116842138493928097491489082254544284778121711579393862565758026991846050069275688980795506823218340);
  (true,13345173864469011621446774648737234960679469520728925008162799317686092406417903058577005936840111590679751607044680476087201430865303272292736399415451);
  (true,5957805104230254791132569493347866508894151323086443429994822146624308441403999873524210762333483209606857207627158664003624237179980307924249199876568);
  (true,20572136135256967895736139515537300080703199818993324746961236977631987786542721923307916442192005598480473670432029709052492428351009184859059640947);
  (false,7312758194471782110967432783389957223784982941259519745886317632514624629630);
  (true,2283753884542317653719774566411688983597690623601659658404496419768526872904990220156434257772815974926038108365346352179003429744219240717325834693992);
  (true,1353919193902692254150683658073989021764596113901999825649386928965907619311715790414702405870451825307518065707771701128853469538087009375479073206796);
  (false,10452343727678235598287002851871755250082260133176572179388245444716668961476);
  (false,23428427212871111435105741093974815035238575392859743277581137271268392130142);
  (true,1542850267682900320108254380567752538976216683114014094639044401019398552609694034919770541560599059553777772277131507491956696789479935863665194602827);
  (true,16344413639335092832145911745626916027269237385637621236678328176299401055365028197428584349706886271376573236535834067510016531821342684220554013824);
  (false,14075176346746733096241894234247048789431774745121333070471244567979847633084);
  (true,10268975506674148146671548117515076623094163311985825047494419237546065855200720407278197756491225331366366524618728363251656289606713609907064083985679);
  (true,15472024623948425138377466035733812439447482367655923217107513377501599847136939121497558313627024079047601981408520472439295488265625572072645185241078);
  (false,32955653237942512999689784667268727252121418279896033747205436823375942472323);
  (false,29271758756750946715845270818751227937463879733326852806024556015788426982389);
  (true,381101442590998586607230603627438360295947621834052254033338746184967512884917471836103226380120994356980787686861028960576131680860010341921659879210);
  (true,11486274137406586368246903727242426874818088989237096242318463355182241937705548665297185400197244664958919349252036792393273504571585269846041916938);
  (false,10828878320183070348405309596548929452729539475539940513377534015605893682486);
  (false,19293355487044621826960031902861723900823634451336418241978235905421334219475);
  (true,8894694852175307650530075555159767320940178768026168905935547397723021958330030655726041050423656087535903267096335466413423283067580376582063231810769);
  (false,30363567597961453407559812003091611514560072314749610095272089441205621358291);
  (false,11925608954963139715321057727353858719549320101623507375375655981311379857876);
  (false,9202099140432510726362318718152938471278041421977837610327996951707101140012);
  (true,21606163266174578511720094343909206745044238871758749570185631709955769814585391248817940992328847653604146163508816464479094413711015431996806566644630);
  (false,27405334196727355752537429886141394007990217728507849219872230428483733969467);
  (true,276324420873394654460194402449956930899411594994709744511404799865265181622807530690070030601262285152157762278804885397729727890192673849967184629707);
  (false,474706810203023277936461867441555005610995383006612698782609344313339956715);
  (false,45658698500015704214448181612585687673342570790460708759545519171546404792020);
  (false,40204986792748121518613041666539055566145315061155926544691165282147165022784);
  (true,1333119077501178069945861297319611894410234956389053436922558441895621619951685367835033892295972252524519130336104741538885755439376423752692507631983);
  (false,32762230090743959366202423180968306487635596560962493544788160674360885025097);
  (false,15916993412631827241130562496147367696101208215128898403257611716802495052754);
  (false,46977325685218787317587540638700259190177035493539546795777454653154679247197);
  (true,17017018668927595676348548991014301777968027772380540118605709676766617708120345190604333647324108494336776171313265534895161840754323731894776574236049);
  (true,10034916782383957197674601654297214754057927264543685487431986036937921869203624991332415640726791506168194141771529595129705719611685264323198449918063);
  (false,3117287273716137739944218638328785722181272560973682849290384360635770186728);
  (false,178581142801800535493597141965987011068291955971679443738505920288701349041);
  (true,21580874915012566950110674814176526265976335235469770242399857970563877094235050123015669189402864804611006561448573073831696480206796309213498307094806);
  (true,24390969918836916559651614404316911769712902695153329965633928714109460843569717479902130999198977950978296468052657356408323684346169395246466750171934);
  (true,5585101029354377729281403209414258260670092692048207725016673915343028217046266671555052494306318420140652807727499050299546936577287523669470955353610);
  (true,171787920760417399830696349164148528949357433364618875099430160225106778420473745798823848152987353983242673488053579820497799422820927320828865612);
  (false,32253276421740521547156570376566498382558732840441707285158827587464792380005);
  (false,3032093574208861187593580966993022108434757466779130470226674470462206842640);
  (true,6270053888895356859620491039125453297453868645846978056602302482537284872612504241472419576791763756834789482124100385913513642205118754710625744780507);
  (true,10434230739434414371748048359245442559268708877245374153337731615509712511264206573981364317908917807109122516608103256987168713011331169168377191311726);
  (true,14018633787354247046638699138982266829681542357003322348191666605297042374512601868382893119599141054633976219993236373587233066126736862755636283967553);
  (false,144675211192139245306142339499618175706309222532105735632285165225178793539);
  (false,30397389436389432567026934746774708770605638554000649039720372634044747290361);
  (false,6343648954812733815721375808596905762106239348603753483584017887515962606761);
  (false,35446316015118993251574365073605618049276374309689497522490046064515410064811);
  (false,9399527107929818346241657393394730722709694544977945986728486318276299763165);
  (true,52631106155314479028151432700985450752828317035864336764004014711919577944765254766764852993919914011469909372459510466027208312844920448302758852328);
  (true,17622263438074535768356365128931037356076022674697838758830600747091744699518655689056928330334471726240434643552166932880772666799340476538880428538217);
  (false,38228781437638635122760255568122318223298504934711314357295834981642795130522);
  (true,7750555864819544868455620341839711352039128455376114918893980397385003788978429783143174123031793175776557744365527143247245717751386177423764016104727);
  (false,24398135829780696356142788409070892768406201195635426873502837959635797173);
  (true,2440504825012911933369092857288859999078589753230961984855097468636910145404978954064053178206520313671099248197084713538787699559887791163983497473394);
  (true,15279124462116361516824554921461272052312880008900541304098050966410491502654515234747033888067496687673261960579024062923597015364040582835204987704777);
  (false,14424934267639179823932267113193697817991404039461003813650975885458292123391);
  (true,5747570997182778709031919080605220911366232849588590418970614303985452458338969926834902584472298737947254513437435745084733111152824124908902038727489);
  (true,873861479588106225666673234422634066962719847249123037178863981680952713705336628796788730986708800336735813884324391358306892330436325010157754899366);
  (true,877983870030545555870859498203160824453456573613506688192855983942777946127344809492616832810360570642300482302989352558019808311908818106452251751874);
  (true,9283028072995260115790876703661056002156639240937649060173902428745953036939551604582602397449112052052482813790425906093051263697848636400945310996421);
  (true,3383599022321638444631109354597007500249942345887314611904949572971861770388282764652803402155691614238914885280698607929055848524038764109571707154704);
  (true,21646004008643589883201200193257547718427350503326236010238277788517851300779139576333487726947509165621895046352779843122335307725797564358448739190377);
  (false,11470632870189232219137225478771776492252532914450042785287691091719545081876);
  (false,1367067970833759384595572217894411464042371902470998212779306378328943981414);
  (false,184763030466131545934206004493358452287520844856319539914957381395058132795);
  (false,15100678561204028498112102702371750756992268721259942894514223251286457893);
  (false,2540160839777986396447814597075710141261097349436101591853564666258372016184);
  (false,1360244399212190677319719727911133961114880447261963357754850759881433847919);
  (false,1360718386142323360280095013548507000203633746294978374408554987905044082495);
  (false,6276720833863451454794841800892061907566058118687767418352506187456656137945);
  (true,14558180619365286583231085273841856944892176882016950502151391462621452649506949395362004572996218697435495512738528678088264364084569596213634538052681);
  (false,31256462876204889483066961722689053431060941832764264106871902355688116046524);
  (false,919941807822989997879604860763829922770032427425733550203898901877424453308);
  (true,4580671293190071463866852406472410197877688258101391503036942594824721020096601322486465372137055580714486235385911524324661212953024931190160103494422);
  (false,24812493402429196897732660122947474993703572786006153877405863801606217133678);
  (false,4305282994189534983162505518446641117440299552593877655577584420325653403553);
  (false,518087205736281062878471680795892974561414485741199409924351354018246049525);
  (true,1444724465095828731092883989591202346313297841239284255136254299140250530546226870104784369646686299682615093244226420219421469454487020314213364999718);
  (false,1048951113782316991441387534284542571826855170965262698790245712259538097372);
  (false,23024254528866841599420329197159677192198267390635507112468576291569186351052);
  (true,84848527819318393114450669615432511725352586431703847254431447232594923065439683434273980028223598539937736069473507460565527643725115284856501189726);
  (true,19749003145632958225307692000717377201832671482606704413926733037023265185568548195224221223742460727895220609041344603709556479158889729100945581462747);
  (false,10064013508951831749947208752895622967130791762471772742304166034228988405043);
  (false,644917834685944213871681134341102591953583400410625445063081394738076574596);
  (false,28544706199348058174469562855336296759063128515331130111839326110510761430807);
  (true,6880795621216070664832086342934458695883690614233231249004654835391395733720179497154916179835994110019280498673595809905578428524348518979021971710546);
  (true,592936581801221462129231062646596461364200670434194458878401315687602460828594874099752558942954433865869696251518218792231607173919965520714710676666);
  (true,5235520425778073379535234064234922224699936136949507509608751738582863742903639791778009621328751510018048071653764010901020094404515598554574208623094);
  (true,19107415473772374599557188976733085109053525660124166924767174968812433996340273581718022712728680030219396477548556196636274123746123057810870714548747);
  (true,1373883574394970000027924861675934932793831839765020681512116064146736751327724780207009781326825811834517164633880316935971553414354710246053214879774);
  (false,31748975071621241634873188247579946719082758647475465438838016783294413863394);
  (true,14800138600953400536741033100727554694069856918057207241302748928124747392998063282797282858886335242689629799556610782220151868298092810230867927905304);
  (true,12765792855360219736091341671838780776609334672176127860298237431868598258161817732533397714468400162759557614493766670000900096803804402748676799711797);
  (false,50541295232327295700936205515514365607122517313560104581346781331394428593855);
  (false,32102283728470370531562491409344880670623982526737329503046822642992371140868);
  (true,2640724616851788043781436816570884240285310851188378687725912093543479745821978630858511683286895284401334820560457399952555716976886987902278895742715);
  (false,41154960977233389122323515598353722100538448600798868150618280058370562405677);
  (false,11284659374395861017132139170338387638799611682419069986428215825665546361153);
  (false,41160570489272557775235086631380097848527650703120529338764868721977847185457);
  (false,20878168768828784432037656245762244636740521015047731058322842255524356679652);
  (false,2592221047833537589098484870861502283134897065883559842019426040289582237569);
  (false,49535149307038770912016505990365514492415977547551005030419558034954799216815);
  (true,3825641178900480296893475601702685301991404297661499174911307500442092627673604786703781407873432814446386935024203758040365497897624774633541242487310);
  (false,6513512428398052380096985014916199300353416275471964708223060025052912219238);
  (false,31938907410689933452261764950374238184186443654646567865965552321720467666605);
  (false,17814171175573310412449264902201781681702078853277850180590568670953740277943);
  (false,5454288073154262696948589165469890352072840368335157977244050814370841655578);
  (true,17042650457328589801538739426469654949774208592123740896442330543052980995597348078665434236994427034029405702400029362914711789269478791009115054398958);
  (false,6094000977384683517738450990482428505176897771207788089964763413251812253050);
  (true,831350772868244027202601764622331977644494175221473028129852321687302703529299469931764439581462384466527188595385233874123071113401054950860276581900);
  (false,29829276865256215350354873961335241178012813724451567548589619793170190790560);
  (true,2109174832253991930418141630704792528605618865742442307572167926984220696692817054930183782780251717093688220190163551181147799383452115654375686555);
  (true,4502202894675279782394629363056251410881943401038569576789675347713330342348306853215287147998535433645622094104042545016685213734316497032833513240175)]
  55540832096118778044507775605005710249233119951144946814680141076505643269084 prime_74058212732561358302231226437062788676166966415465897661863160754340907 _ _); vm_cast_no_check (eq_refl true).
Qed.

(** the d of RFC 9496: -121665/121666 *)
Definition edw_d : Z := 0x52036cee2b6ffe738cc740797779e89800700a4d4141d8ab75eb4dca135978a3.
Lemma edw_d_eq : eqm r255Field (121666 * edw_d) (-121665).
Proof. constructor. vm_cast_no_check (eq_refl (0x7ffffffffffffffffffffffffffffffffffffffffffffffffffffffffffe24ac)). Qed.
Lemma edw_i : exists i, eqm r255Field (i * i) (-1).
Proof. exists 0x2b8324804fc1df0b2b4d00993dfbd7a72f431806ad2fe478c4ee1b274a0ea0b0. constructor. vm_cast_no_check (eq_refl (0x7fffffffffffffffffffffffffffffffffffffffffffffffffffffffffffffec)). Qed.
Definition edw_euler : list (bool * Z) :=
  [(true,0); (true,0); (true,0); (true,6199754079642644649308062856516650998815366350873442848996117313337428476949);
  (true,13620326294194072371169762325337544096291102813185080236266227508170399740826605167519);
  (true,666148005931460937456531183047158790646646656647017864529995115680155283559192879100976);
  (true,526805944193671185546115185341485137603104776254368603795664336989571798863808674539979);
  (true,469315510700347799559494751915005315522264410449378153725472083783991634657528316688665);
  (true,1849718587523295764365955993853103102822307467807977863215269981346686248259604471769);
  (true,383866397253962803826788342170961429933433412875492291871053439494106606235632616433872);
  (true,4016169890084706756885700885003667014126741334933875946413748091545170099544081088946);
  (true,597335152541093257084141579658781584420047857779329344317143258159660339146387021060459);
  (true,2928859736439499632795017570823472417721491417136161016708162803662291700997933635638);
  (true,88410338894389260909861534375855155819755043105387524748933160648421748858554064681178);
  (true,103046120618867552573512080761312674925935437382272357596405927840438514953242039433673);
  (true,62816638299086961847966494422350111118301115269946807233856215293711880394017777382605);
  (true,767399411166617136358079533746637936344327142636213137117401441257587319381454772582916);
  (true,27204687426396487856971207476033163405849757919996293630500274682628222428203862443358);
  (true,107857564617357388365650502260106303396948414755369471891503529296353808965329372030033);
  (true,2019230677992512075828095787868458459686954133067887612662906935988786844349062216406);
  (true,151737465088355400109518659116947932468682152858778738601222753418583711492860985778932);
  (true,172223061871697074733645424246273126044359901920835771295106353832312817636508688148269);
  (true,316265157935849425261872212538745161678151726840233979787527324500405518959847047905349);
  (true,145591951006656294553661320124678067527044989094053651907707816946899948200607566271814);
  (true,249640884502701796633122150946844886555630221533229189375356023621106484886292043041641);
  (true,308718796316576396932121051812338039673850726490876862433869722388738814118276563760592);
  (true,695234055044451871408286729661149001075397254214909568368321838615451663951137274584444);
  (true,303001532023546296728169274264976353557256901654650092282947562800008787085800401288989);
  (true,24247741437581049073865969244117322415865414321724463199197211493289557487701449693786);
  (true,28060572652151244458313966815495718667586554643909238507917550750743647442594335446603);
  (true,326530495637065167793269629164524646930965178433914878124347847240833940477200147746202);
  (true,230263615193500431740323968050308916668718744861447041783714128530246117186603745550557);
  (true,3315912831915947362186656516322560631119141875991664758387729237291877302140056142571);
  (true,97448926990141716730196784364737105087849100039606636564410925563506804583521507584101);
  (true,580092932739275218766833610779780939363654260230815860015792087475828273029948278335115);
  (true,89214556809291769242662850117203929623895056931248401061053183579069633386758766971781);
  (true,391327705233320437474321664716813778858788115179563207821664009616084545479980723416729);
  (true,499501804354997700998693749231436178514773886585118549646283280007092157396727508607355);
  (true,84098215447673448472360450723627398431333859689722853847650596449800640324526566516937);
  (true,135595080884910380919672874398077568333641118229579701540190053945771479010459762541801);
  (true,136799298955620588890713753888997708939957481461205662801890911622109836642236417640596);
  (true,106717325409855258710886023309722409831203393749047386353697968784079129322760765506622);
  (true,583050830286052919647678915349033764263772513430167811940920397396807391066328183865121);
  (true,185973914313302633472372707423903977636548251296580112511213009602741969742363912972339);
  (true,3300793431976512568711987008400102894563889089070355091204784451652641054219766273781);
  (true,72518794321377124291387190539934202914021378297155002425063750210317992185930208641430);
  (true,162551243724787006450623492917080612800774893182092596888534223779196008311205068922168);
  (true,340774807731884694739364387647607683933275181189752285965421220964848219381937251718935);
  (true,17450365076396534783048783831588864304981381806463176031360435033138281720614384292558);
  (true,572911289475996248922120223548459027488144374621940587114948375463011171312039613517757);
  (true,44865694793133264092609674621169476159104781576368791240703802533687437808754754066384);
  (true,34124847072932133776346518460507941154368389395716614389115436558433328187913521197928);
  (true,388533446749902493459236689146859507331241715659849212118781229086142262108256829206966);
  (true,544692313343675634347839101132599192369020833177508225870334926890804513258075268453069);
  (true,8031213867271302359332154987146057113401866786177140458591511119692609830423575531585);
  (true,14480618861394258365384731313622423594229593036303529186523883436125230145820827618400);
  (true,310542193951014448561818938196186745352645007048272282586284105958682299424145667536157);
  (true,63986422111087563453069324511993763672705274222423387024470228836093821036705925908482);
  (true,5839950015142914665266618961882100127215147968654001281082832242280337312150372026899);
  (true,33557662634575731795592872095627137773431135240034713378785409432337259759630215368865);
  (true,49325629226240151650071545843644689801062578771058307768191685881271256316027994595465);
  (true,706211134267980513671040849365813093490563707418976725122319476241257959710294509250717);
  (true,189774431182487576263605306828985265516463093411075744672085845048793338694276501303372);
  (true,51716623818779822926985064347477000465686296909836166039775588499522021340138172398938);
  (true,67334744321099691933759461225380022090896383580877533996404598560356655735000194796464);
  (true,789346612465732462792449059302952722234688424495878715210896931688918847809281495829873);
  (true,11293509744093416638289233133118253467493023759812766853155834593990378878556956842953);
  (true,40019703424269264489149981093505740907119981333305964802823573757913535260144594472023);
  (true,241198046579873699535916312745110302365514682623201862681843263805948153875229892292665);
  (true,294131405227199916207362056939457392152002818062946950911952490285384516123335521119363);
  (true,654806248291775528275198546913495546066466653493331658010572159387058601635339020800467);
  (true,239735570136793883752392221829130693272014702632132566909410475623396663329192059572828);
  (true,514016846576902279601715098985752511850149028430839652893262776929489567859478091464679);
  (true,93277286659011002968180094729776225358717123854230319036583494708142912059661506937519);
  (true,684486209695141247534886770915243695175663951030332154388973118470111021665001160147953);
  (true,262913163725609901197935995678472042375705348236452570714820412570584958482987729697700);
  (true,186248594570949215760628219675992099752120448082858062444656898544672889684164735186516);
  (true,733019273900756209911573187593789276763823699304739168024533303613422311716635867887966);
  (true,113332178423871117835983687663801559542710594815909634769353473763633007820556594475668);
  (true,430474348481779818307986604277908613017745348469215081094122860691195514585623828604270);
  (true,288662192241379985477727845275136455992591462569013552955566781562339977663673450831332);
  (true,557224573724324786744384598648457883756385539956117230494702705635489723752578407169750);
  (true,93122978219019759322950989081055718350623616064402358399770995837336338078708101860742);
  (true,23911330287550326753341411193819802344338826772502168439397944763533990095284733134077);
  (true,778431352506694128306379367812142446937509452684304986979053679006339658894728909242766);
  (true,314642741771497790355719459944412767612200180976577319297840142421361904725942301259077);
  (true,548362867967851912649679786964282374698517661415697018417168271038220713069708528664281);
  (true,611778619452156245170801233113495154243102842825962911258371843877085434056084495025171);
  (true,107113692627067825056802668023848545811717385376934406535129523005638240407685772084334);
  (true,154256882043839062682966681075665895348157384137645560133298856270897020220686732857657);
  (true,809713208721037782203720841497880531156646629865448340452495567292246387463987146490362);
  (true,74102097301446753134207154578455717444005191264244138309545242892483514337119162594288);
  (true,159148143946959269032127246238024304335744581126513624506623387043146415720275934124648);
  (true,12468240147681873624676163031180610822705088183150170285647987521331594641836734420);
  (true,460719422547199262253842968454636640569494092791939328573848363187065470452155627342814);
  (true,353470106034683396175375427362219585208712942493917467849448187482230138387718922290999);
  (true,46280398138948114891020251956465289836111433850145270688726197826506669609523392529390);
  (true,664184612413041418294893128318142025789468052584629969269243967002288054904104810609461);
  (true,281329505109966904429645013785648589328352847828112447683667477196153917074081775305924);
  (true,482696032660303941481292703611604145947392377341720674049985486206933313044995749882119);
  (true,913569929298547695257286672886665544155257238242438964660023383729476401030545637832);
  (true,432572924845036324893153234722763875555809748808652506142107837523738044304280645638609);
  (true,304009056130320321221018105198632248569546629052364511977448238906075776535463276200287);
  (true,348169278034901720664946742948951480135816235201945583201190354955422337356914563342);
  (true,3777445513010804913574778305083608053942230143712464761899897416256324476112802590486);
  (true,228476717832371972651463316645773546379538984130752249500609686044389099694704901853201);
  (true,81039014839297103199935170477218667471592192724025719772026716614772129582734018600841);
  (true,512328646634854956883708015834882815732903328479400108127273008102823044264258974598381);
  (true,126873421670686246004875813001298613879155866484812738915011381174391844201490271147534);
  (true,1624435789568337383255908198988417369123455067979363367954636640277003457417264349124);
  (true,59869278762453044838732048202222840253544683454442346810246520787727406077043814547253);
  (true,99776882899517657687614540394694944982505584127210787807347706965206920205463475721555);
  (true,27625587041436208451675726734988426117545206109796994339219733335193772247922707155176);
  (true,581820792833638504532002825126759939827455515492738179538540219173152221273876327194307);
  (true,26494139564933346804162525295321169757062512883531631817344023880228923117716283960343);
  (true,63187275106321056869541606261032096051837144630281314127825917018158337209395679066028);
  (true,20729007004586099435341688859841382378567515544168143909239914867458773446905581515020);
  (true,338972641902224237843700806389305478507372343089626499847698379177251160233455592336818);
  (true,592627146941458861001971740793305847137012997647428501295558992826619344835431791261976);
  (true,27699926452873816692512758740471747868121317541992591257685971170730797285518215092267);
  (true,91392028772683925547910567825478477283625476741028487639487681154727553038466573994310);
  (true,28483485964045264059426215184649568155254364300902131471607190468103464916403456307460);
  (true,31387203905134288134838520023169431138861702410880182606214634239949154197309418778406);
  (true,363920020567366623083119328133778273928882926662628631842494999930447514066007806915903);
  (true,694649612114719824878765488977146680878529409018529246317905150325234002473103038453442);
  (true,309206145005800233338841850406147331389655282123013618631964704903050702267856121763819);
  (true,568361818160986708567465699561282571633914226106842510883136982707061219017667111764566);
  (true,6655262094458927232004461086238870657149260107999710924267150669219386615700511958096);
  (true,236891226660626297764854920355657947452095654689681002467653754826413526252194410999104);
  (true,460811964800760448504635032466933977300534917411976732114882442398940022764527344920807);
  (true,50518726273495528116717834436925626407756511189928346281831880334559721253926389823291);
  (true,123979962387915221272183905444115357642383789094809810343136190644822743263928719518191);
  (true,495964254647633131278608163346817079784401301889194566921321632191257186366584106452147);
  (true,357713888231472702125354826592253049774255312612375803181447869694498354519764484488418);
  (true,66856029656324757776357641963050554910230696022302843115773367628301595756968405255341);
  (true,670730577577617824457310612073660297757573510896572371378561681860086494630103020813064);
  (true,608341808975708516635461330864913112645753853086577590369811392169126738336802349872523);
  (true,172319856670295107996643782696932620525278178196067892638437415331141934122399045163582);
  (true,594135057177951868001132506802674232069806500949762556567297954635076940094852832060861);
  (true,159328284422319634517290983707590237492961588966529968592690945367096832519961118714802);
  (true,281240545956801296536657539314874003022930300165399592978596296519554866749350955455963);
  (true,515843935562338583386870266125842286257856114967205604925199553655841761020688618214695);
  (true,104475416896294426751731774817013424660308257963674026905794144399629976498882975644092);
  (true,270339582111104907833120757239590530433399610332524239575852321644513783396442943602923);
  (true,37674314808314667833058126827417832561440194372746962900611882121787228458942053069141);
  (true,251468620493973291397324105968624034440269251118266233344513734940944849527232274778676);
  (true,309459686363605888685293244849750956428549862466228492454413978323538450579381821003405);
  (true,831004905079194927422833713538331115731278857574881612683568939191363530236045636480566);
  (true,3021697770280695329192819205050825220551260833337744881845186576588915644864962030528);
  (true,310286017746654490811757351517963209330104278217313844193818065558735824899170329956708);
  (true,251260029248709496285340128689251612871920735787655377021370433796580377584963699760100);
  (true,95112534363170357505916951509877484842548801518621555460556473483490566889272541528102);
  (true,19595735333481825567214505066040127898458588881797185817472547677945568848676009966001);
  (true,223621588764204106918808250866719758562362836117062663247497275755234959648469469571908);
  (true,693381982714894311375599076210221388826166725708253011146317284483315935686484102736869);
  (true,641375445972430057358522335416706333465372681678584557599659467804567272909630184465587);
  (true,552568871258328157183608123033745242520678959338579094959713044827075153138183279080601);
  (true,198086659979807774829869447345786632039658905885340903466240623769211513771479892874884);
  (true,752087730883572928046581576042738893771234373857873777145640730025036973658404918791692);
  (true,118176830681540175021306100100938953111832575593074557869881781822817896579610207827406);
  (true,515267892641936199235989569273910971126997355614878266254717588175298805572794275815314);
  (true,360855929947428668712950571212883456400176483277103052848680745017003071344274687021029);
  (true,355403566394356531306296470599555923872943534089787338398263942490572976212227278193543);
  (true,49592279625099819687780435246314381987797550465279664794053025786738204318338288089373);
  (true,37257353176807237847608178349201672372580377077160473433107324319643636094108669158377);
  (true,69013985752919480821029807846119209413740458245971363234422850431549520177707766364278);
  (true,63693001212842759063863148777007305225920958417368536427819461609098110646764149113104);
  (true,303325749695923333707688155566793687034954054088917768986987346075397419142060740660474);
  (true,326768220453982325172027182376377964802260775706519011541349516741426957167028447698494);
  (true,139981202568392806053830358236109888022609399654328128401695082215796561648714024604744);
  (true,610812834043575134265306021314789247581791025674401554683231621354612964580018232022376);
  (true,156016709732003632038709313306955224160887326320800034318609926037536651516525344969973);
  (true,669793968365750163738669454238165782643990347597739176247672695876489498329176059523214);
  (true,521441541295170469419781167492695212676637231569328308387822002005204626435266332742959);
  (true,828063276746565020230918140779671892051083879432285757033824416300350088652728457170410);
  (true,499752083101847667413295094145228521687329970641478550418007616495858152325027448507872);
  (true,149502847600484830694486865528522180266818729297738712316008163674631033912940118265476);
  (true,286871691828480913836757107634438772943751596691250017843784661297254548621899425275838);
  (true,363679783990768026908888472936383590342694491616446760312631416696881749280991335271047);
  (true,48741931067734872746758072115586126380328340361633381496951182896635598736222264040836);
  (true,494743953832765887817067072312773630580603899286283867997028121549400311923985515886211);
  (true,586765245475827438991466289408572281387761702085422962757152865380065814846991486423135);
  (true,34455261075885001157755155747286890141624731793358395714948542662152502477408048392810);
  (true,17405711426202413180875335332557374047668938898735997315677809921043358978055306119771);
  (true,52978791834584520474001789834868727718831653049837427142627895189676767189889388325);
  (true,307332062325987625929930181623949851754347135477071941368536223737454377873948695027260);
  (true,747575192250336055923657306178367748149770327600605096459146700460532708599356919467092);
  (true,178045150391316224421190257903047022628541683277927060169001043751293941166643987637979);
  (true,99477357491671354308101066426446283874175088240205732126526737562604308713997748234874);
  (true,83180165787997107850523076090849831966622306741167385301062267137371580560842364360062);
  (true,723266858215093309119371798706239789446206367231998401583189451521046507827959193521921);
  (true,676159582921556065201554582311760847257569826743181843516201964864935488103838240108127);
  (true,467716468277443887575602455955560273233724881209566210584520077169442073814838227315821);
  (true,3908929607935247495549903985731111772663381000844359152167685976131046868599533519390);
  (true,260852092560759782314801946619188362899117316453530447091222864634175760492335721873523);
  (true,233987206832860411032914769864578842627098328191375362922822854878325233676632281438877);
  (true,272134507487848787236853063886021660551250835695764408143906794909900129200532727282573);
  (true,142864421979913182152210014560059963851628630148513398473332437661249518905834891456140);
  (true,22006311214347357206913514681928522058752295984188303999639684914984575896393774153842);
  (true,216467585954213334527849727147971893315174305353179974275700370586552473286422743874852);
  (true,1780666367645933719612484492104963673769149142591620366918691426960122053286934247557);
  (true,164292847616592301788655445843987060309364444275110625865331433317860113801251904389751);
  (true,853032158468104755501423607918173431832756206921117071038101623629983023565121584859593);
  (true,2000739679116952081532056438237433251057373572611828248839661271479457986031658382737);
  (true,435466663043069440081848096188364937827012489256641479776353739067556556501394625904675);
  (true,24773352618117032976493227261777391310020706263695805561467837598534942544880422913210);
  (true,5184038062572897897961110165944025067258648635128140257385501381169881749214602429176);
  (true,4949911602200390556422623279336258542505491931562314016420368807079861786271044357724);
  (true,119083827449181636706158209339482640824652827780590191152561365310637860804695085283401);
  (true,492086927949351254601105676116167055490103294218284438816280871414580323184587945627032);
  (true,329916390774683642931465920344394889151946249126102117773304358307764602740161371017439);
  (true,13552260153904403603624516810622902141246602015771560331048572730880023238372541273870);
  (true,56123059633699728502546236894777437235759725976390160203561814059911009154014614155430);
  (true,220464358871321519796344034597176329676129251177300770696592537251939702431597188760246);
  (true,281891035539315275716245628739916016782985842578578818162741174121135413853970041033275);
  (true,53891855636104588068495023064554390348783929870954111480355131513704378381757650174357);
  (true,855908722409413075822826260798632270704890682047464704499114895875639404086571655898998);
  (true,531281753836593645894424191455685560700736331587924723391783030843162068166561915605487);
  (true,407960646439148176586895212300438355704670411386128781574767951316038741955413670853);
  (true,526737978061055004662875149651928671224851782188355565330667709050212970381362072886759);
  (true,106533381130841818617860119526129650797405097975829549665835207064994713098942629980011);
  (true,392868195238269006397255351870856773147969766273989890291683966738661078963213390249524);
  (true,859239964559421197828949470554411798845999571465466973277333239146365660576226318496);
  (true,221992532993449929362968419516486187464135642170559292169033348996522882681686123704480);
  (true,521559186766713281895714343109279888000052346627760158861570578025131035607557803017104);
  (true,296388670535634402656384762840100067593571613394777352660653766743407747455254544218826);
  (true,222947236582795313568417577857896320239127189752885003873005516831901913789324975377212);
  (true,557904890025228089168742798304351976046080114688093798207189524065636899772015204065363);
  (true,257215187677769545400361279891722092225948578998863267892540565071079828160604731678309);
  (true,143211361641572248630303492575664927247957991345644584714717669745882393524388958900317);
  (true,136976560406848369787617198759884858422059641443489355502854991257951011791286649967);
  (true,261057040980931647450424553928057678554676736393775957652151630350576027145158388716216);
  (true,351043290515997228985539826206550186003563295598120302981009334445501794913403011260936);
  (true,163793878903532712885659133485347580662828428383423818921303225645279550240345968981864);
  (true,29273548780960869642876645311118891689122126409531498216916034859507188032555514892247);
  (true,180678470400550860833774317919737081551513573988220335860025146625305192901953549776069);
  (true,390936565940898663322183623362360649629910655201108728864861425399649622581746893197335);
  (true,54265291516101253673503091775340451058084406102805196721999251924612990047057790201602);
  (true,753657979347055676365786685550236540411703678959022471847900514943253379244605192596517);
  (true,197138113608558133955566681057465165048874659465068435044829856026540248562935914385957);
  (true,418129610230982339255745498969904390983342504102383085988956899852709545385384108412364);
  (true,20261209381585335140013315684165056269395300614191671863961899647007991030383117816383);
  (true,562296090567181247315701379978476519235852133417554538176788054845705197980273924946365);
  (true,40122015304491675082375117332806905781980296926763886282092495313180417307175211288053);
  (true,104636546777861388236915833155081086834220860573232736593320834669329927746963351201206);
  (true,829797574545638920740818496019424630409344134359933293877366444567901071506357125424318);
  (true,11127009340633248118750445007597162333739814473601881361263875935950055641650721920644);
  (true,467926454588168475302911309910581521074660703995614659384891346573172215768211348633616);
  (true,638872037132446411180537734907032866174900178253992851041302349143091184753193977172492);
  (true,532369086914882121382094456900517361696596666758263144540488927813883429789387875456294);
  (false,2535025769367363451329238604477254297788397361189828157361684270865353447902);
  (true,23996781167091791264948656468134025075748842073574539660270952139467657751510964581664);
  (true,1272387571720035101894682725643465955550004492451466034974875753131299985106747700207);
  (false,25224129054323719816679133738212428264722732144896724537772123696950910136689)].
Lemma edw_num_nonsquare : forall r, ~ eqm r255Field (r * r) (121665 * 121666).
Proof.
  intros r Hr. pose proof prime_r255Field as Hp.
  assert (E : eqm r255Field ((121665 * 121666) ^ ((r255Field - 1) / 2)) (-1)).
  { change r255Field with (0x8000000000000000000000000000000000000000000000000000000000000001 - 0x14).
    destruct (powq_spec (121665 * 121666) 0x8000000000000000000000000000000000000000000000000000000000000001 0x14 edw_euler 1 0) as [_ C]; [reflexivity|discriminate|reflexivity|].
    replace ((0x8000000000000000000000000000000000000000000000000000000000000001 - 0x14 - 1) / 2) with (expo edw_euler 0) by (vm_cast_no_check (eq_refl ((0x8000000000000000000000000000000000000000000000000000000000000001 - 0x14 - 1) / 2))).
    rewrite <- C. constructor. vm_cast_no_check (eq_refl (0x7fffffffffffffffffffffffffffffffffffffffffffffffffffffffffffffec)). }
  assert (G : Z.gcd r r255Field = 1).
  { apply prime_gcd1; [exact Hp|]. intros Z0. assert (Z1 : eqm r255Field r 0) by (apply eqm_mod0; exact Z0). rewrite Z1 in Hr. destruct Hr as [Hr]. discriminate Hr. }
  pose proof (fermat _ r Hp G) as Fe.
  assert (B : eqm r255Field 1 (-1)); [|destruct B as [B]; discriminate B].
  transitivity (r ^ (r255Field - 1)); [symmetry; exact Fe|]. transitivity ((121665 * 121666) ^ ((r255Field - 1) / 2)); [|exact E].
  replace (r255Field - 1) with (2 * ((r255Field - 1) / 2)) at 1 by reflexivity. rewrite Z.pow_mul_r by discriminate.
  apply eqm_pow. rewrite <- Hr. apply eqm_of_eq. ring.
Qed.
Lemma edw_d_nonsquare : forall r, ~ eqm r255Field (r * r) edw_d.
Proof.
  intros r Hr. destruct edw_i as [i Hi]. apply (edw_num_nonsquare (i * (121666 * r))).
  transitivity ((i * i) * 121666 * 121666 * (r * r)); [apply eqm_of_eq; ring|]. rewrite Hi, Hr.
  transitivity (-1 * 121666 * (121666 * edw_d)); [apply eqm_of_eq; ring|]. rewrite edw_d_eq. apply eqm_of_eq. ring.
Qed.
