(** Certificates: the orders of the four curve groups (group/p256.go 209-218, p384.go, ristretto255.go, p256k1.go
    199-208) and a 259-bit safe prime are prime. The certificates were found by a program; Primes.v checks them. *)
From Verif Require Import GoBase Json Primes Toy ECJson.
From Coq Require Import Znumtheory.

Lemma prime_155317 : prime 155317.
Proof.
  change (prime (0x28005 - 0x2150)).
  refine (cert_prime1 _ _ 43 2 2
  [(true,0); (true,0); (true,0); (false,0); (false,1728); (false,14637); (false,359); (true,41892); (true,208097); (true,5680); (false,17048);
  (false,42816)]
  [(true,0); (false,3595); (true,1735790002); (false,690); (true,2170388301); (true,107455347)]
  148074 (prime_check_ok 43 eq_refl) _ _); vm_cast_no_check (eq_refl true).
Qed.

Lemma prime_191039911 : prime 191039911.
Proof.
  change (prime (0x10040a28 - 0x4a10081)).
  refine (cert_prime1 _ _ 155317 1 2
  [(true,0); (false,0); (false,0); (true,0); (true,0); (false,1438); (false,138249128); (true,42664104); (true,237176592); (true,104092862);
  (false,93863941)]
  [(true,0); (false,30428229); (false,2186026); (true,376643444974776); (false,27997940); (true,10689264249439064); (true,470178273463409);
  (true,9870886970735853); (true,367624830621420); (false,12521764); (true,5517454177688659); (false,49383814); (true,53585687655394);
  (true,9475196682625548); (false,54311441); (true,2320901924744972); (false,19775696); (true,8581278077161)]
  69522358 prime_155317 _ _); vm_cast_no_check (eq_refl true).
Qed.

Lemma prime_208150935158385979 : prime 208150935158385979.
Proof.
  change (prime (0x404004040080140 - 0x12080140a401405)).
  refine (cert_prime2 _ _ 191039911 3 2 2
  [(true,0); (false,0); (false,0); (false,0); (false,0); (false,0); (false,88); (true,161040375906773865); (true,15974101444085083);
  (true,137317275925342795); (true,261277878734137050); (false,1133449278327598); (false,75770332058939447); (false,960312411509754);
  (true,61529163243672994); (false,15377910412719287); (true,50594506); (true,6692085772476026); (true,157742418988575085); (true,387741264328299495);
  (true,14741664768334294); (false,16872360987182242); (false,48294403788806924); (false,16709698413382421); (false,33476014286555374);
  (true,156665868396128942); (true,92575458067397608); (false,146712245845813268); (true,183737312226670501); (true,373191389342874869);
  (false,9029041094215797)]
  [(true,0); (false,38662994691918466); (true,14428104416987368819391196624689940); (true,1131091576088307623340117580678466);
  (false,15427327757368464); (true,17757250360849288173067895895114450); (true,550807494948840131102474346401010); (false,96518054480793227);
  (false,141911973372150052); (false,77843101219591502); (true,14435515243823603707174587073978970); (true,13117763047352009723147975149538002);
  (false,1449594748849603); (false,18680266840538313); (false,292862731052947); (false,145501646510392859); (true,7610960160722178821721216528402907);
  (false,202948167581729097); (false,186996737225910346); (true,11820372686922818607731916583830996); (true,7422185785397704381889001850264602);
  (false,15563070308056827); (true,6105092107614258463845646049893274); (false,143322701850759954); (false,804576147345932);
  (true,9178471912325182920140081038555709); (true,10974366284540651687497588858029451); (true,319778163902834418309039616443731)]
  133855595432530999
  [(true,0); (true,0); (true,0); (true,0); (false,0); (true,11); (true,2516255873543341); (false,86243449710478055); (true,403951966727583494);
  (false,55947504682865585); (false,37773645828028550); (false,28558438946124701); (false,4514744401817917); (false,103502110451794888);
  (false,2849052442656471); (false,2657439480565382); (false,67283986679951712); (false,19903493325996226); (false,15557471944616617);
  (false,192059886502821523); (true,56374618805434419); (true,368047622431674870); (true,3088057628233449); (false,63565955283214202);
  (true,521638401560972); (false,14242421303146905); (true,20785644414332475); (true,113113270607154136); (true,347772485820013695);
  (true,1207628607603219); (false,163005289659714867); (false,74852474096806508); (true,109611197170366752); (false,4039604644974408);
  (false,73853314137628618); (true,265035389705675422); (false,70756887833352469); (true,225339766231845050); (true,377149989990614259);
  (true,318483114929860369); (true,43312141707970159); (true,41882384424342535); (true,48346401877050915); (true,315303501210835785);
  (true,39895883470328323); (false,55760910878703036); (false,45585560039990432); (true,42711879934710500); (true,252197026751694822);
  (false,41501936079919325); (true,209727819045414152); (true,390818534549028225); (true,268811802424010082); (true,11616195925468082);
  (true,268448173813324531); (false,173604356546787217)]
  [(true,0); (true,33001228895499364449483750045536789)]
  75402465335951546 prime_191039911 (prime_check_ok 3 eq_refl) _ _ _ _); [discriminate|vm_cast_no_check (eq_refl true)..].
Qed.

Lemma prime_2624747550333869278416773953 : prime 2624747550333869278416773953.
Proof.
  change (prime (0x880240a10a14084002aa441 - 0x500204004022085000100)).
  refine (cert_prime1 _ _ 208150935158385979 1 2
  [(true,0); (false,0); (true,0); (true,0); (true,0); (false,0); (true,3); (true,3137801069035497007253918331); (true,4635389028048446119756318778);
  (true,247615776995804527149219085); (true,1184841113331749964116618045); (false,582024781886948104706645549); (false,11418768683932192379569231);
  (true,1081886184772827494799340165); (true,793157755271632462167080728); (false,106712083336691757470174459); (true,3757977489517488633627695153);
  (false,1371314116926851724570516713); (true,3099753905928521117000354206); (false,597317226131232431365555329); (true,640039895415197802054104574);
  (true,5187893040849011068352356079); (false,3654099063930626777301917); (true,315339625258484934660438549); (false,375407754260245344808765580);
  (true,1024149925745927855965125300); (true,514322446772344663445891349); (true,449896651943571605877473103); (false,167738216745941937954894166);
  (false,33170259503003974455603694); (false,996493225285811103097740751); (false,2210738032173751233595808104); (false,2057470532034023342225242312);
  (false,287369088792988448444817159)]
  [(true,0); (false,32768183859937222229010); (true,5665464806354766246024533929393880160566241908660725);
  (true,17855838438553003203945186245320505809906480564228664); (true,23634164526524230553126837690019596105179300769405705);
  (false,553749426206286234238603375); (false,1948359359465288477016106084); (false,2612729772034040065014346855);
  (true,1151179268361836666391775923331960317782969744941661); (true,13372230553308670690277611860035582836753501517083798);
  (true,11592517621678633349359766406866932808446326662537056); (false,1115470325505228009763417017); (false,58801294082710933979758475);
  (false,1230260660995361439381823403); (false,905200857223575938899369381); (false,27789013493048895425255432); (false,5450406835490154869849046);
  (false,95229248063682454127648071); (false,73182519431850685798005668); (false,1663037507181214857999219573);
  (true,1249580783467165232524368274506063350830573401967539); (false,18460396011632547031511721);
  (true,7148553187704076562265859854199940852940814549233821); (true,10024898545682291249475660319100810831051909898966737);
  (false,85493760339537698436594211); (false,399145610861272355925818259); (false,595139207391555969073642092); (false,3643468492223761182200318);
  (true,5463479384036612062312817327043129883968044366173568); (true,17324506673080308097029116430984151292738041233151750);
  (false,400755328143653704152545037); (true,239883213109059936550246572032658858408951362607450); (false,1351146207257546452092672);
  (true,13854969445198115071690164750840983474693151427480301); (true,11773188805956255599569658025848524559922607997721955);
  (true,198217464558119140784374302893794507833931236986112); (false,1533525409977882455548902960); (false,521157471333774724992658304);
  (false,774737183161158906676228974); (true,286636185630385923947473179808291356745585400088584);
  (true,4601449634451399605082555255297658710063591940682378); (true,5092927677433122583269206599167548314624164106910208);
  (true,13375456603008293092144286552584352655974578017635518); (true,4537829384636762860736097687296550822240469820309525);
  (true,11698472580864231374935853525401511031738382684018546); (false,1861622008667546208832276508);
  (true,9792428434977878013768441514188930852600568464759511); (true,12815104320202480022212672625101689367059774623858903);
  (false,252572363447458205201652578); (true,13739188113091691725482335598912534259684066451028626); (false,294507726496968291365643166);
  (false,109132095803082761759788779); (true,3349494458944919439782859575007337334519810277109621);
  (true,13383466146421165207442376350210891430906575798230573); (true,1770219831837509578114314533854362766116455838648212);
  (false,1347233237413155015828225293); (true,5911115221961593300770906379882130403465024866571152);
  (true,13593729027939284502192421403722008819178080831869759)]
  2035673288804527262494271578 prime_208150935158385979 _ _); vm_cast_no_check (eq_refl true).
Qed.

Lemma prime_104471 : prime 104471.
Proof.
  change (prime (0x22020 - 0x8809)).
  refine (cert_prime1 _ _ 337 1 2
  [(true,0); (false,0); (false,0); (true,0); (true,5); (false,35); (true,122534); (true,17829); (false,66242)]
  [(true,0); (false,16675); (true,3250280511); (false,97148); (true,4459634); (false,5083); (false,20194); (false,35910); (true,31575469)]
  27776 (prime_check_ok 337 eq_refl) _ _); vm_cast_no_check (eq_refl true).
Qed.

Lemma prime_3969899 : prime 3969899.
Proof.
  change (prime (0x409400 - 0x40095)).
  refine (cert_prime1 _ _ 104471 1 2
  [(true,0); (false,0); (false,0); (true,0); (true,0); (false,69240)]
  [(true,0); (true,2333418188548); (false,66252); (false,2955506); (true,6161837674933); (true,244340878403); (false,2577487); (false,2514430);
  (false,1830238); (false,42491); (false,257664); (false,3278788); (true,1626589764481); (false,63); (true,5578402844238); (true,2761622953286);
  (true,4697562030301)]
  2243650 prime_104471 _ _); vm_cast_no_check (eq_refl true).
Qed.

Lemma prime_1002328039319 : prime 1002328039319.
Proof.
  change (prime (0x10a00082020 - 0x20a0a00089)).
  refine (cert_prime1 _ _ 3969899 1 2
  [(true,0); (true,0); (true,0); (true,0); (false,0); (true,2300487); (true,295799630287); (false,45595775151); (true,22219734060);
  (false,455985396356); (false,612325328186); (true,573970601260); (false,48905788574); (false,466135778446); (false,780572053544);
  (false,880485660206); (true,700277980268); (false,934248825571)]
  [(true,0); (true,10892465889308128746937); (true,9311595490939589534727); (true,29148214172763821117); (false,421916375846); (false,736598573645);
  (true,35460423649026718651955); (false,277023715249); (false,43908090473); (true,219063799237434503235470); (false,2071807117); (false,936310990128);
  (true,19258872774351380527368); (true,391012144711517990485); (false,154238302490); (true,17835931300860361203899); (true,155600102573976890447146);
  (false,660576387181); (true,178559233640403325872350); (false,39163426508); (true,134977583375833676782781); (true,2545696487922406536734)]
  718861591819 prime_3969899 _ _); vm_cast_no_check (eq_refl true).
Qed.

Lemma prime_p256Order : prime p256Order.
Proof.
  change (prime (0x10000000000000001000000000000000001080000282020850402100400842551 - 0x100000000000000000000000044210552810882001048454104210000)).
  refine (cert_prime2 _ _ 2624747550333869278416773953 1002328039319 2 2
  [(true,0); (true,0); (true,0); (true,0); (false,0); (false,0); (false,0); (true,0);
  (false,107839786693710966120214783402060550919461639826437404699910127744535);
  (true,124223345856056692485227824898083429664819248301453901963164424514049176325171);
  (true,84829372441157698790860763726245795949071286869693081451537931784933119873100);
  (true,37147729345039137835715867526055896615464418157094212678924877707492534446704);
  (true,16602859765066613125465317296442306074503036729273207866422380073049585111681);
  (false,84410873085989011557943841061994671441773480411920216501082540768306697502533);
  (true,14502044134051901610483888660517070029554742864011884303002996806823224276290);
  (true,99362427598947742168477847260936583196919540153278491084476497941297766045464);
  (false,318779735085775566660447846030669812787601034874781946513359235407863991695);
  (false,68551504359737172312411367543818449965417445225072087465818168000214133405989);
  (false,16260504061585614347846215253392997806287448774942439671900575598953524870);
  (false,58107544698836102530714970119622365689412636967214898521043067537109800656955);
  (false,9276452904376741307266871940254594970486071289497492847297305342812172191330);
  (false,685292227438213200364086997502431194773887094972978626142377987202815804398);
  (false,21419939904175118898999739155799443680850280971269346851378532164273269259161);
  (false,16295526101617735522598256759506977027826375721264403355026492471690646288338);
  (true,29126915835868845990292026929143179829289742774595339131170427404985475662293);
  (true,178154551638201262069042883261764959051386887792843088923410436954704574340747);
  (false,39345045014520600625807951926538155259227936045541266580792750338986745671457);
  (false,57822779334696520187496518406670964614555617616748842986450926952448084463748);
  (false,24475847460280743807888657044755187814513218589487454650382837043715265767578);
  (true,9476231960721255243694989002010337955061860297149215490043247926012782933914);
  (true,166659900745291106862869596569463422748186921737347271956322794057491474693059);
  (true,161498276895442033272236414497973317706719174680703623513218349106606294265158);
  (false,67751148912716718775934083480037310255846354906404456581463633653950183866);
  (false,5889596818717280673267027395604375451833989734925149723558205738599424639966);
  (true,17140729232905586606893909181070450296614187007403365017849041574895933392724);
  (false,12470680444765551176291150965367982326658408343553058644702756016015289933956);
  (true,170074423915486215998719709953967557843921356134106502911308917117228448111967);
  (true,8439788271189357198697363942609495849479673873995523510464400670367826420);
  (true,158438701438373621984958285300053930934835995046195131270125886718441529439881);
  (false,7663537339180695186464764380917355606255251557891218142348666893245471058075);
  (true,18501002942458934086630830054737399645166368003764435348717096953029467993202);
  (false,30763405352079613591777685212747266330194343710263767975475514112693689794818);
  (true,137080106880693152268007395822155291348554509061837687214622364171304358315262);
  (false,72268094501593684577892245014825324294757728507989560686567833892707139649445);
  (true,60386339267737546444859706245679682303541089890656867442603573536017268350379);
  (false,48434677104355882355194943283778672093012483612183346158769932487240031615984);
  (true,53662785779431734286131631649138234734516769071340149217398717037685263358818);
  (true,133651889602945119807201427155066207050978028052755617081158830571404462751);
  (true,8241348801755676226410518622459961820894578545580014463468886514346825403332);
  (true,154698774598700008324198223763230153002048491827112191978054120908329064889953);
  (false,14259113885268566409536678722256153994345540197185850185153257010565394089281);
  (true,92964763174295192798463344025725385133611905206147966997374137386580726582555);
  (true,16889363985384441653426897481105884802105921879475854966011913839006273050579);
  (false,79944989010092991075655431037429453752203137738201959821289938366251672550461);
  (true,68422040340547701183855900705945720556045406499561359598564705911083111193286);
  (false,42754524069081936837030047201430052391753107339270360376974115635670994601664);
  (true,265263915536176993546366110079107599309151114912050278933528616289879428505);
  (true,80960095433564553280574562988248287104778109069253435554498398502237008489401);
  (true,66811420074370051445685579863231377047415738802302492929398829373238270247054);
  (true,30200652881874720070088866578344162777441979407887424500889972728200290860846);
  (true,19211625172992369761880845300785966522570514410214529712466270036693671819698);
  (true,117661955109372148606833961660207436968431389002957616264583057605245725387490);
  (false,109519412586738273013614930843970659432512659749002524548070104583950775839397);
  (false,91775978837274486782246270174925827078258661230093040755992999561066701445751);
  (true,124035449667759073700978224020795003721755571770510344455941618931657772024600);
  (true,75137769398145807405130278498366780333047120326472650666972679688234225362828);
  (false,29611900180527700957475547551295776920450842621895697491835875375462915537107);
  (false,32731982212842776219202919312588717644506494220327517513819717872518430422083);
  (false,9558418622679725116567854761397698257703972829140629234507594306694492984580);
  (true,44994333018285369128311794161737525478994378846427962403062407555329817517531);
  (false,20204063335552728363294061469932999387717353298839345078781055357519207737496);
  (true,66481461984351580709823417098894800342225876524573352421899732252677115958203);
  (true,187970081149087024368924377496256718758997369337096072154342067256447923737370);
  (true,21598712587273233537718871015594410816665845910820614627495344566041609941358);
  (false,65484627077509172957909521834440653976916237254874009369391624621815601779136);
  (true,100149968156139736644016080305995666243137541375886142162817213969999529183884);
  (true,158327642421072382590355576531936737331574805196368133161682183990920875537642);
  (true,74135232091690581488445089020711729382591936761754301483243888843480853624735);
  (true,54401549929769478984146120991126881092841725751352527970653016233996503487378);
  (false,41779568990456436259433743099125061024678691815132014476855376680305511138016);
  (false,4607947973049658780755784783800697851058696843853881644115723562437672383605);
  (false,53048253985787340239476842516042665272006130462502025156329035543057761782102);
  (true,99781254875578171771484525742794270715475529325973931879375677464969418613975);
  (true,280700304155323378756673530570219114609931856853449583815837915344047790698);
  (true,154934044801490063689216172481478491831597405539604744330861322062264388408951);
  (true,102077148702912873291702431174011221929659404383090020800989102467117662474557);
  (false,929587761717214537852898054515793088955764488282484454494760142748231037480);
  (false,1018152974146894596436179802985314053870345973197835522944343100799828593488);
  (true,54772148396699375580077184034961892485159759316564307789702463994651687581762);
  (true,208178858294913039138224538814651721516462200729727688298897993907686489768290);
  (true,27142235103298155195891555528294835528021114870924464513306344267834283654279);
  (false,105936509993228039026839769692018210780131430320755036333156018108367272694330);
  (true,156354376272351565015506637294611236299628006739950903514624864636905924083605);
  (true,155280370628279489270233410701739377131242892231937637083454185611997081913102);
  (true,217247674616343330773545868637489074047315538487438740433857256078689370456870);
  (false,1195000128260716969359413429883655519156863047941530822172811941854789075060);
  (false,91463197861482174069718358339832281588182049806589924761963008935282162952286);
  (false,55124908897780767484869887126967424080799358554460313794319197276201585701312);
  (false,52954359718218971081308965004552342709545605046258153920976003180750400164696);
  (true,98993036044639480982856032605197772764064282625429807921928314734859280997578);
  (true,39801847726011452564708556317651898311885624325593932430831254963403653648930);
  (true,22018676504325701569129679649362885451267585919351711197381980026466452459485);
  (false,3998275530693729236617193463097349819355909742670765938480168301278240233060);
  (false,20824211136909954272839041759553555810522113884442411944489160930473479937233);
  (false,41166392554913627939773777373400609362810714934865848264088883458318476934);
  (false,29619106844758290469533744896181585191788353422809127610906517969620745604110);
  (true,73678565724590490812731746104726028303332480596569441084493803954498859519286);
  (false,25656318731449636332844342267812041775032717644793312871973969071522916765393);
  (true,125208078029393690835509024513698706045255494086024910909165452811631251137191);
  (true,45789269700950495177655621598347463585789614380212265831741686723411206052814);
  (false,85666007383424037418533544749309745206751172313234014764876637412853938808686);
  (false,93598213465897721525108243934129965785556158106931404838648415102402805017921);
  (false,11832888727306248530622791599800098076441533559152104478724663473844471841079);
  (false,4121260983466067556881296626676130758127856492398537129171505660596386611176);
  (true,7616455471076402735473687725047675172214621928020917369172691528719975628526);
  (true,44601560528275182859586141492473510273529206762903021349375740298666906566178);
  (true,16657912659942171547577304415965619330924667368212746111964079164988881789572);
  (true,12689202401324244837374491893954880997273551864910686689024003537347028118839);
  (true,52689372900774561976294528786773787978496145481106499179045092702990207927878);
  (true,198201426162935352533000186330649700942834216743886606543119499880620929179797);
  (true,15443416731662785376143839292430418842531069653912256230912408891891465654);
  (true,72082989824071043919331836119170866646356830599658518175008077171299777650903);
  (false,58978837749726493992816058832227128791515151151548895686733862211151186923952);
  (true,6703749197103988167702358260992381005217328804655478985569264679234630290249);
  (true,184117792357484242963506880472457707888617921312688763001800229420245208183);
  (false,88418129218798213214449912625199621243911327782440435372727074448567066150901);
  (false,45330703537038414180548301197996006820469483985072433221022836949993467743834);
  (true,863787086243476276042176182264587925392439090752115172676721332679727390895);
  (true,29780876909981267847068925426067114476591699411541389900542472259007376031747);
  (false,16520636475243379457380263234855732522287347734674874250971049354976012958726);
  (false,94110620785510248560614398818964929698415952810311049503161285799758422529106);
  (false,53381800128916771197656603244546164403600736611693072730455644517768204167211);
  (false,485235517774004756563649443468233983278443392130762744608066676710253042981);
  (true,30069065673873564286583172492292221435691740973699518148355657732424505828487);
  (false,48604238334684611157401320712986013451893511525358493786808013067819501798167);
  (true,215770623454773900519143490186138286833857664126615639557454508954937748574393);
  (false,4400965791445582309933598631779119393134587875751094546877696522659254063293);
  (false,36702275390808953549278944706753689450403485594412494866303393445727244643684);
  (true,3438075322520823140040076290243520690990099370129780949070481087686837180408);
  (false,7600686878861133160090499845490712700145620447911323325266829784445022499948);
  (false,9872234811567976069683406399364069474717333978375920312525359423356008085850);
  (true,92527489572212138201244350707720406207318684919117337407594900710678612663879);
  (false,73462765996107829120511218301080296179915778973272952615776689891261508756067);
  (false,101833820327836891744162971619338235813031172739739390415998209850802954168421);
  (true,98652565263804075073896707537081425664077643070972184131025067863007238633603);
  (false,24221810110510009975202847195605112740290124184333551661436848618576374266772);
  (true,125537552969635083959827369908971027230513388649695758718326285917188699542421);
  (false,71182794253127355795994452955220150031501916667896052970265703128447322061588);
  (false,51376112572152151294230128029871084225698586125296626374619707747327777683998);
  (true,35424551140704603374826713160548524172524268559592726680700817397856502711564);
  (true,1829289655020451741660418930184779844054909867143108371603127628507629994648);
  (true,74106078097987531389681640032887803958980123032429005302804397991178770999568);
  (false,12838618158727612439687446953189137986820301084872036594624887336929775666959);
  (false,1983587004919348425328948353800731147781700702795961472463561031380382233608);
  (false,63231427226977204024088419223029166082403377891401019381308014338071858820441);
  (false,97341115160245403349343815531213218531899829556376741216269041220086147456148);
  (true,95067916271662996576661903165160339646199893365038815638728548675130630612214);
  (false,47138209763032206979909895159756971965600055680635410009732008684337466565536);
  (true,94641855189529562982435195132309648079367503609993938516081053195205728528568);
  (false,112275162879794770070332015827132219056393553341212129060680324901161906716651);
  (true,4813812395586049119021699583366131679646763922037005624777618972127707019458);
  (false,27531811360964569632179133895277448133229000161897980738077774457335167213537);
  (false,1452798468250227462894132892741435976838312094043692823617338782718028825174);
  (false,35583748933860915968603464650571272252195703470239789648099320030545387494413);
  (false,47907820956752374225679948987970527929470526399853503626549546280340802002449)]
  [(true,0); (false,65518799311832325030846166508389095140620151955677005097057111205800769661160);
  (false,38061355063979262664472905897264701402890066988586732804058302112668825872024);
  (false,78611011378927703092370003188206140694909541337628911854422307027940275251144);
  (false,1962043178215707730052981471341535040262757455659937107466066144906101627294);
  (true,379557644287522292604435310610812600759876333688104939968830603870511777952588645298312950882367575757836270002396408298373162436692777373761133051734304);
  (true,1660395345627504593568162294577099337790334445843192165545858504672662068489180243786737137205317067054914697072780752589321952413099379959556962416909899);
  (true,468642639786195347746735785779768474530675708164067163687133643902653234241984462053037226531032835340198086373213909113304289244574497827775657289921548);
  (true,4382502711301585091415992230516857672239494770924375896372377270781249748357918365513908552759611669712738580253584371296305674869598687886010110549340140);
  (false,21022647587245427399886468171492521376746692929710437243930143723396722559688);
  (true,25654730287701305489858587245554868194000537876975346697674023126289168139289150430816956863898674733240530283840075620460298891064221730412347906881109);
  (true,3853947467757099796838080961896715353230161267294199561756416725186197563083880437030355822376801693708755093781339715773997917081667019364042996052904712);
  (false,8003049231113811383379293204078699755081832640666350106715429066427989424849);
  (false,103717718007891009958459309695627572276311622343242766651919070372765828342635);
  (true,4260861003314404386122858810320537379844995781302768946966748688945486325964270019958171270141191709878377524493840110645824313941960091580891651228241113);
  (false,152157806068091204265620581013402101816218611769330132644892562259218416194);
  (false,15232822992771569156712868528521240691441098713965461439944592549703480446350);
  (false,60427040156137267207444498703118056233371036285588465658395305777543693864639);
  (true,356574747374741384217988575254554215588684565873737640330937487644912277081798668939988794413402216521743607289344053475149815015890769388856172411048956);
  (true,974855253980094288077583671068748472359504962994683511769456700299694769714930460006588821621035852490168098748024267235352708978917112274065404522095485);
  (true,438510839483791500942312723058930566188571696958310784587197261278714340676521767085896111917136818336648791200405682714534810206416454483686977211089263);
  (true,66840092982953722065940574445055492055341611715478295208414241455520055405787273439602311486636192734508778931141162349920873722575615270420894482024438);
  (true,15032419392567086090787524361288767269194972909653180307250947214994288755839838342228865452732942341557325444324485826812871677968466010574739210109236);
  (false,48318040300301117916187815684248228770368877927737117967363668673636184337797);
  (true,4259742185105955553850215948797592375703170948004056018209194947068894205538008514220669958233859507198426159169173906781281693276130420904277486707760700);
  (false,2346148107011372480477534167222064190706836213148778478009511082540120595605);
  (false,4602608522133200094063003697334246349735139473830931511650913832500527556940);
  (true,73725563852395176427674803220125212485188167322409565262719394135168903046337657287556124586551812331260216982300649403806204608655844047082548946340875);
  (true,1261091198132671540794877936764926240687638093353484627059377678833903364829631813188335423880220202744313689458161795771223628779208227429530628064612984);
  (true,8253047538056016207354037843769869602141594961861030216009923796197257894570094609575013115672756314634184295528293004663943575510049216468651203919975981);
  (false,13542016815580886420132939531341905877923723033071714827163255064664308549778);
  (true,8258665616991314674071970031594597284709044610559121994574817411921153218989047658804857097846735858929192892884178268096587219951754251936845739006774082);
  (false,7917497407842232929300514920793914717780996472785926645352664479056138967023);
  (false,2297437634062954639510562173767555643176649826133475985332472947327726418498);
  (false,31819852370159259945662069924263536247149158744555702205093881409957645034853);
  (false,32500814223487241891378136983058850838145730537672132951458970324931817618050);
  (true,442798422143354660976264386670342630211677815806996986826984533543181725968769510376835988934699837503604559082135641903940968299432175501943585791473896);
  (false,5798606289534041306336386058885656524695933010948538787333373612434603262141);
  (false,18043226101475447022390986163974507963185368211273491788037528725330103311680);
  (true,728649729286624304744419034472108631742136193030466574833386457650012744770060274793519782613715428814894949136250800681784064586969424999465516541942877);
  (true,3487188145011054979636851663976493463973876232555308298067268202022411763412746218935154452916600270253286376950338645602846620912110185249697529924991112);
  (true,3277941022981788809263376769309672662254380092972332633822366498889473945864782239846476449615422789439761934592544897739794850538457203853540106639982900);
  (false,3177687029723611959266876846315432133082671136561318811676768613546994568452);
  (true,3624513119018975732403907673322561360616638092879589782952798529461101243441260021823875031772091088229247078937664250605752328920723870427092259628661463);
  (false,20489429101748167966114255127887376223360026017147140939996889656861700640655);
  (false,67854192133529312346539214164235380185846463248759834681049155117869443085390);
  (true,15752577304800545298230747418762332618729286844365129489876051507871120073217179829473029774248555527143906416811688058586662513715856872568025544997425);
  (true,7927177429622142665882349016205319382739289958775198762848780139562206794634388757657626209022789006442244125549182376662988266731178406019201288216620903);
  (true,9877282470061593365194918657299084426951558743120773756542615179255490328648496193611246668211996173558283890876373428126159168184460406126723771156954451);
  (true,9289992223536522964531726236959544124579198387266673778681545372923550813691492081042334460418709944059937291006016706608947010929095458005050753710114810);
  (true,6544413730170022723808747781863739015483838275055100687156965005055305196998962288085218270072785437623609701457258121276997534568245399918940094176615424);
  (false,47257278962638713512975285248971689650292144460578082363493015275976677732688);
  (false,3088856512508709387447757670721443871232169330960134205569279997159260285571);
  (true,8186209031320895565281665169402605254117037761499656605666294476524884437072470959481554609234332762075931601952409818114349574537868574027602505081487256);
  (true,5311793819640694196563176998837767501707739074240939362241885792576461224521785500947425735028309013779288539484047907924887377443532366973436583484637758);
  (false,17754876404395739047076566153365907608201312344329062208136814180856614968264);
  (false,11776846579028114639677610289131172917599254829092059973341458541450682208992);
  (false,54513077431280776139684207965931325787341843583741846917943659888833153262798);
  (true,51264911052812755584084252968659834891828392708689776212799490078156456209809573867757509750482003268728679925561518427426980147888144759671329825901186);
  (true,9793749431986897925890488048331373362705614814558435413717877990423480140737843327922650322960739701161814187387210785144396388457514196467300239009400521);
  (false,693653907581106834329816753070235519885356707130720200363733064822942761383);
  (true,11730479442989444922825483607382470489234096894330108475233039434161043993312898928248717914225068329843328152000974159175139321830524257800798436957893);
  (true,3601709668438504957142776062052037989767131477810320821786356065573279385888861335477008201725482842833174476852630556499547396010812517764539894544712643);
  (true,3346139977014145582117513750628965562556585587567807920071276260946558977822763687288655426501879302459451510181970486422083872820006188479806645501989986);
  (true,3620882259700142182621616470044862187891441283252352272130072416560697604507533134136012381870280125798633537160367198410517787673171126647090692130520132);
  (false,78167337559696162794761091749734788536326426527840735574563889313526702593018);
  (true,1401393517568811634609971003540647924680050072801274927079591748064790673845236517174446458806561310030425075578119263260709383154482513871854038768460028);
  (true,349843421119351485500696361851580685508714913189092806221257791903013040524146704421594075291913482499144988318586527692216342527964058291025833504100088);
  (false,16200640583113768408805461726352934749041276825405477344928689379943180290658);
  (false,113986750715629115840530644735513019369378928473827354952893005002481397174268);
  (true,2193576517284934265772626002565164813894257348176627322612028569576155836114449048013399406974621859599431218189559690198003431548809802978495013004998315);
  (false,18046780440840142876132481600578565018777399973566339717175102494409800340891);
  (true,7122650312065175131225795207291582104950363418362122813671183684020803966823189651653537317524448886970958711669385405394128373501332836346258436275728326);
  (false,8278085843575494868356852397898530267218617805101153136799225616799804932869);
  (true,3913260859461171476777924450889150268377337605535240413587255082552047745925339950620755815404143010221398614223265636715689440137147756220306256522122402);
  (false,18975294766862525647971380148260980538781609217473296752367975969482866764254);
  (true,89123378583312361866352744590160464100028333269473035368712515271882256901713374525792469350713845256522845695490763568583939775976941253783927066398596);
  (false,10211385043372822211935755983937812545209931940735112974441461573797308870964);
  (true,1935839959401757301500165236636319835488311757930676352167554088431484997615216973905580155966118823300870607802278307367364148757700027448596933712724833);
  (false,32509170341606350002224053728702302350558680867581188021760016174600223939408);
  (false,104067472479201220668158220298297443939859622711449716004178010282548122977538);
  (false,24110354029913036531709350907944004638687541490275594702734256969665109900899);
  (true,1681501331801199384682256671813691069499341466964567642635609056332616877228047896576314490981999554734544193657846548856999135654245391025549693102916511);
  (true,3024652809582078094610925714570185943002122404011171479562518927365578930810013181219877937787036289167219716891804784193238896942755711847366072917401385);
  (false,3094550320809539319907449774123193681405291240723841687662429801700475837370);
  (true,249696512288352837074590202617078624053285803259829065866726813485726970059069774229484809006776900773601954211744647615477419878694871226009689850446732);
  (false,20524028452856341979093883237742081266521335673450578887397565526542634585409);
  (false,86353745939241908247385394576747579468799018363659897256900879324560765608803);
  (false,37006245982461540493176839758298482873316422831769877211924503255976972085194);
  (false,10452710072042958400120417004134986115402647185968864737281654094062536930761);
  (false,56449015614307492191992620930562598047773511189720146040527471151672741585631);
  (true,7958266225400348511711021800932661499652419851028685681004305474292315667023549712838281605347420513919448215523501669536941846529223850633178685606098539)]
  51921223869577043025896233410665706485550009771255122920941358412934482395187
  [(true,0); (false,0); (false,0); (false,0); (true,0); (true,0); (false,0); (false,0); (false,16777216);
  (true,3533694128734016380314430037823496482255855742009158337479542988847363445);
  (true,194286209555859936345840881786630017359880309792181186562891434596979809362);
  (false,21119529431353853980554262535130836018408130353867491967083988726259585096599);
  (true,118494597421790783538275099278965555255571992807873253578404173604916517010978);
  (false,81969743235033229110645964031610628927756942540746458021193215702257661081377);
  (false,45062096703948702215681691058272668527941001657888873513380119539683921034177);
  (true,23835377101068543619995561387551448690669407793080925374704821567328287625972);
  (false,40065827104997728066246071612675038991461650174671121990052987594957827662501);
  (false,55962551091293961880397126920713077709805191169469166339818386426417929549158);
  (false,1463560472636683804443081008340786782267484533361110130568905703233903712419);
  (true,15247983835802949760723056249283717459725745618274941686882811560811955796216);
  (true,7309963028674313374140305110570965247571761109669017464841258575292334388021);
  (true,10659334243651135444359963285046366698619176528254574371783085840886233791160);
  (false,19384085279744709013265812636109297811082331930474250835681073022185327521615);
  (true,564531696541647213756202375747235558825113184680502438958733115867393302487);
  (true,894116085782511755373546914913454305237557349111210613575967901243507271487);
  (false,80049892975130413926162264525381915728906226943002948418215629677087865588371);
  (false,7997162386040348219220140029836220388857667022804232730294402146564363856412);
  (false,17118307852384525432337181201950738605221632651063535331707091421223834033538);
  (true,222391691225126383229746823287362640826960963044667519502358864715021053243059);
  (false,40139546154609585220618953898103153178945722573213525729224467647771809963550);
  (false,10914166515530763666366854272926667345258082758677444306199736031387519626233);
  (false,33380875684046138723166319405534074718869299082843846452653631843492401993442);
  (true,188235746764214537295196582857826243291520023811512733369702045216527572565901);
  (true,79303686777562054112542559640069122128412498159331851982285062590691155206269);
  (false,77629196961240858143378642902330659544860885751037977273930439935567623756024);
  (false,4230620487951759395144457494279548992650408657351817635891668821814091533511);
  (true,9866510166282576691063113165579935385499244908846114904453942208277758607328);
  (true,194366745323501404111708641678813728284661170755228362996929361699684478520893);
  (false,105083448716215189497754838752939546514717883186583044934326611012491655779373);
  (true,165034084748842776981047946094614076630925601296811036343966166597489533734364);
  (false,28194116565373474991119064329877872674781830468245903176961752718684419515779);
  (false,112983300033995595370852300893495788302095510989762908772036111747713680027303);
  (false,18181085041600527788523755895032729555356270584308716287693326580433201233300);
  (true,169957612645115828996311746331860729669353829720025752922414201565170151573276);
  (true,124314035570226080147281617519315784796772606082621451871111691707098223296932);
  (true,18802441109310725500115864005904191412701899057906651829715108616387776704467);
  (false,6427646111026654535747880180884680815150147533998729419763161070958912752557);
  (true,138075615240307207772569748922914825004043547085095766103809162041381307833417);
  (false,30211042117475961870459934039159343551458203684941544931610584250526506012531);
  (true,91679061568939603082796209844205202122334984795340912675082210779002043411903);
  (false,5180917971555042892632054917247475120132109227395250086153747144512370711115);
  (true,2709268357655625488146145643519255280453269463577258915018084909529608144935);
  (true,72552804516594857485945237791971132609580162590945540300706742021300286176562);
  (true,38470434859245167400209999952583240810751117709985982157194998585923136562328);
  (true,187378118465078948075448862429899674232814391342064828919250162270177863667265);
  (false,70713590284283515644519997845005564338015994842326319763228787063137452947627);
  (false,72231244458826668547756408991377720561588733235458750228170397716602331911089);
  (true,7027865923520842860052791562299759638742657255550927893960449553821726037084);
  (false,30718610394504259048693599981742250308678462508656609979422729448483845417512);
  (false,81967365278640662934224425357013497345147538075606493717518704290424915786508);
  (false,1358550181931516858607642290401468524597595177752596551053445753624852941106);
  (false,17719987977828248400483491166313877313847496931501924478371481972118751641215);
  (false,12029577922487996427777847767567487182412345985815069742238651400655640853119);
  (true,50878296655641141444596525057295136481512083334284441976462255253874877088);
  (true,60132343184232602398105201930212106413210588158426117211262207411069511113385);
  (true,33246673411889566235103180407224647825676255413934235769314054647327457539552);
  (true,174111125266543238227913283205457480836154876412124935028689280414713012536313);
  (true,77789057028138432088341018096199824753704366948221614196220553077920862062913);
  (true,25884671322476875775680680438792048392869763370058698514223425214257855650751);
  (true,116707542172070051186489089487395003779813761256787415138874904483388423929339);
  (false,176097135961811417512632414448820581059179414882474336530479333590797526398);
  (true,34830879907241791371699594083376997271763587435335922221733145646780603293001);
  (false,44166888360303014856874008607605245418651329673844210086987094295115133475957);
  (true,17185391349585051405535168010157307314849696749098726099383630919146567788464);
  (true,9825527395310575848780239721181348496333733764087290502522742874316672682193);
  (true,222993722592200624613669021478226533982642249695823854337599674604520974519942);
  (false,9745950793635881041088326157168716947414544343919671221639334452783459770467);
  (false,4434953843332583106081060762921525656090811736975394020639579920748051721972);
  (true,165925115492198527162632947218802705499351671578083934175126278206367600619248);
  (false,10926714127554805306889332482161030535948334716782093002566742097314633143513);
  (true,59062222974991613064129380202041515414090841119897537179841105983921924693048);
  (false,7257368758544241056584076538936846763788262992553059515025769467933539421121);
  (true,155545545018919213247589962772693007781856517683713331734136258522804504282551);
  (true,107046438651433820368166082889735379625707512367448349589719285039396691630507);
  (false,42741017330070075883498494287093389525637594743510033880070212857193269254724);
  (true,11282113320580137077192943486772309466349997865569706031978507765875452473417);
  (false,42372821654618264367315632992989316260072737130726395116572202397214703650676);
  (true,76594594671726643279914219601673410003364793136905039964684270571910790250817);
  (false,59548082987582563324964239762825760859106592061373506830961441204712864772616);
  (false,18108157038002699207134176435899625425666512928981217222934906868260110440249);
  (true,163070722727549513326695506041650866766193451313498765942414024093940771098056);
  (false,34502422001944416514719425130258491791670488864919294101631560560987850095103);
  (true,1747628176724845952275291931452900652331866847725295055982565820660215487453);
  (false,32902296698067229189152818397902893131610953836635704580806801147561112402128);
  (false,101339551983059011612306264182625099574117513611621464169542525236843869312601);
  (false,7852558212637390697140435474779226920486896682831214749638090688613349993525);
  (false,69666773898019484069525624845037091412033371004544622999615806729514361440262);
  (false,50659259131877424525550364713577314850445076158427292285777084041748239077147);
  (true,162370120733591525472235964425834029350962460738202179783988180998224319252897);
  (false,7343664305487020390569662247513386983465872037054679439089560411617539995987);
  (true,47553264689083427476008523744541547658368953553562576422597761275360551806140);
  (false,1154955199010473796653160413904587006841882889562352807761567337078226935953);
  (true,14815530384393706955422842156339488615678806776001724374239086500474230450723);
  (false,88889210204157335104566356634997130236789184710463910150767709714723431903921);
  (true,37595125801848987607312822493975339681266650522879143253208678294844756674513);
  (true,25950842119507968368683358897559296681970909437247364558510428896537639229232);
  (true,44123766597365130160343043877077736962098566783791962600794259953606082875392);
  (true,45935842134585493270035183423691526425241777409657888432322420260255228436505);
  (true,633656628366591633288775481240474657490436358563125163076727460322957305294);
  (false,78450831385443905658743229598170429918962291611112978427589573529199495623);
  (false,56076881677829942091222279504103234081135140058540636001579620784700982612004);
  (true,10102351527926030268011010501856410181846822831502108494459187218754731408797);
  (true,47386307613168366906547932550286066668700492851802160774449215461897637294292);
  (false,60329817266611101404726676757357789858812634972248930646920280357359221707972);
  (false,13721982048461332920125019551013354335308955514845761845400887497594170817782);
  (false,4104865755110237939059107083419215189273810003138958345667129186815273535375);
  (true,126355780512904097367898048425327767519956426301175240423860520766941347170316);
  (true,20583038052405888618183128567601339959848697890517750531959275344263139879228);
  (true,202358755688703080706871532201010551381023522490876809330318103651177403718191);
  (true,130032137728429877079394037669864364035384137195122031855781324726880916917491);
  (false,73804076182668792688642940336302279557465765832116075570963553423290251778692);
  (false,20369836014711936065019490459142206233050885942180613804646356565322078236447);
  (false,61343724826030019144713816987564722246564274368105776963736264397665187416738);
  (true,91816106915091234225210676661894940730761814696962525182747425419125607395420);
  (false,46546012785813402813486621651519952078897160945248174134213580335304958660917);
  (false,59832978033172531213583736650568609189085229955178570520911756992609148556192);
  (false,112318675768534439925304944991214505541304402250639910382171532631454044692094);
  (true,7259837707016842412492565969104262290430451181549468419986120863772873023336);
  (false,77452430841836509947507663358018564704090296709598160929887007699142354884982);
  (false,107204568801411129004793169258598457361942093199835843887970820836475651636006);
  (false,79605110372133005470424982714250052723505025707829156881978809508940043960689);
  (false,23148072928872338984029902228423336263344451094897417457733630926214812088335);
  (false,51042411096823014413830393458257349425539311489627804188841891596711218389737);
  (true,50454248793882878759896856814719568577159012341351894261891776210831321393439);
  (true,152655562268935580845276302118775940655287026107705081590565212585606399890921);
  (true,122372688135317230027034598667944989251783549210759710207923250713942188530);
  (false,8240258219140847501736660417196372845084840046410381537617674997294947538336);
  (false,70878743805732887738953777264119626582168548878009297106670261797996491824659);
  (false,72575228824231801587180978292405664231456466625971315590610644381392455784704);
  (true,7584905431663266847187087091358842782039431708701402726781730039966630223341);
  (false,3950519035728972971643534637489192525876572737319152114171106923478150794786);
  (true,6308333020313699111676877516008361777555900249368150064375440940801005722258);
  (false,88025992595445263765493249667319304264184499218491210082166874260866464841107);
  (false,2452082836865614377534137781168576641674104632863205778067486648040309348370);
  (false,15303664305354869678794805838140094841169757616557931007925069701807931352119);
  (false,25076076023933519278134539744032701256410292793063841582508122789146025483082);
  (true,40789049100917104358693722405906148290555211006679945222111030606068919834434);
  (true,8680320062335693429413766981957593008035657154422811630568377675028941422719);
  (true,63985288091920399132853352307186533499649730932173921760362768265785716330626);
  (true,16985980630919069398144651754641833693249896055637302164110897799216073656072);
  (false,37179599365960350310981540131589850749366765117266869890759683589433821300727);
  (false,68358454668178772722808319128434785491621017202673700043525492557808746);
  (true,150904633335790096879185820056824943954247164149965459308590732742598993481188);
  (true,459339996704068244287002705779950784777856346723708314078949721969261592990);
  (true,5262115275141125197030090976561071967856230120457619560036919785651328919161);
  (true,52508114037052541872722765884150916193227166538932045878634539938332453896616);
  (true,216885795804786902342547052946139888958815840798299877869868050779588921672858);
  (false,9310115484729473013307671095003581803249097069403604210075522108219668715973);
  (true,3679583990717236539728017769624232697304862101255264759382521418833794906589);
  (true,30308594772047648602779497600995677683469890874920456893296934562486516281342);
  (true,61925467591300442561369620190017034550246359466199344272363003127264893237257);
  (false,20607757055436911467506047472649842077828269996335663846220328983193840141183);
  (true,18566814572309101284370099948161919237787717370768695486164082070232586377971);
  (false,35546756383863748905110615167115655041510180195371628552875150639047733824861);
  (true,216895878312702848283297583648501037911220296035099807493855879325263980323071);
  (true,55707301876190829341047149218610694275694539849845905485908155051454848414881);
  (true,127700099397266213799432677670737836639955184427079479804888426865202187667704);
  (true,1001866410940180737669124860461201569255237881860719120997904098257213520139);
  (true,79456311981274475832119530276565204608212334861365418100600633437403876696162);
  (false,19013959305220237362757391219286631894293491484739664543913286745522559632711);
  (false,380082314886953753973842320046425140831796802766439268945044812183406663096);
  (false,33946736317180713575527525422746389351205546585486256414928883371162173031143);
  (false,46444859191170290637650507921071899432683947663421642860016956143124396937074);
  (false,18484520678684460121579112617247317309738775651454545526943636832670804087521);
  (true,32908312863751502842746308380521547152502557327710159077137422909867864419331);
  (true,62355148896266976433335630301947687606987171025846556216966841579627702372397);
  (true,15978772844472643422395781023786612578222527313294404879029676423939460547843);
  (true,13417672315755433704651309653610781610690214766006856377192094533758096259146);
  (true,36104960450713364435005675683445825754835172231477089711667693815151934664107);
  (true,94870044059991693619070928692594544356047488941199609349792307862527938227095);
  (false,121499879534910858683014798294621572618915060017651134966326531407429747422);
  (true,61932145956383804380832399293154353566813786776853009710486954107491868274829);
  (true,11967593291814734565606518227107802303814543634169971537404829897359089428994);
  (false,105152514543201280410372346352457009928634601367703250188696367398900670575703);
  (true,25915263377220856173193195100794280153547645079015055064313296682904337752049);
  (false,28853705838865415727131244149683733994906872356571142025239924671544347213982);
  (true,169900040942420283696761888225404285218819280891187666707699230346072960542582);
  (true,6986788613710299744246309272979588951228333860856909495418254611963158459964);
  (false,7434558420207495514716630524302840487239068978669164014494439489310597232573);
  (false,85410982488590383365939697965523177103843691599415028009388079407288923798685);
  (true,176766396823245120616171024545209537113926250934289083026315749021785412249560);
  (true,137237123574965484093136723653990450534336307409455483078941799676870022894807);
  (true,45054477259360652190839854078555020991906048026970229863146476177503618487580);
  (true,128931910280521077912439867141277316912585270652330198370028814824312450567);
  (false,16813584516209771991340460014736024071144969424298498750404750082477403734302);
  (false,1729072838631727648788335755594683902031854174226912877034598272565282727863);
  (false,13817234608375003018441066040868965317605111298860671517885170076564233778606);
  (false,14939962969434068862875269747286873236977770270105226509610169255107987253978);
  (false,110946056576815790895124562887958924320273467348445655194727928396592830104880);
  (true,15217101448758598312256570417274552055353659936039182274067902135550688725955);
  (true,24213657427488849210291598600735897945248818936639354692290156999188707909396);
  (true,28394201847923082360494855260710007740864405894754155909073646469673245781228);
  (false,32850747913455402855772267842223224082848799464090947805728571249385524575151);
  (true,5963177389233448788247555809478224772087364018700953185212717769407907642698);
  (false,90101682878514444505976694424729597369419314126487890940333551817804942478503);
  (true,11611421026489536537335531105793905632215426268458416802506051308441784126323);
  (true,203818071959328132278845753059770282331390351540177495440335742131945131181100);
  (true,1431167381924064967254489063269515459475392369434197826942453425231329653825);
  (true,4797790417624758912992369027331510695314758967013742412398581136053737466526);
  (false,27267271232064624456938008813020729355824769949895609877058686131199864213941);
  (false,16950783350621170196528397788794228054661801057342163245832567238860875043916);
  (true,53541243997769466208858916116988096154571926754974596682175141693625851529);
  (true,38670666241835603694455895283837754876337833071758137022974122872784413280);
  (false,61793023348572078816496641015168977188301183915483050522039247847939588621147);
  (false,24776789783601286987768224998431106732472866629768140135019387829752386082798);
  (false,39003891945037350536182537832103844514522377833245698619903247153271144395372);
  (false,9894589883945503744339126553621010644644720973793764261177850383609449635632)]
  [(true,0);
  (true,3765118650255522184337497173107401138529496180647462052692337610874581209371661789067954064857043046739940160266688358626951078536047689134302201470214051);
  (true,6553490695545083729804395589890279626176413847160120355480442484549559118562757506537742818062719547279705678299317052661640554301805583124090238071496839);
  (false,34558703049434019266194420097985362619498250720029850783923163656577033323260);
  (true,3881568256744216914812135391702200747362920810052861699069763634611106880309266959098217590463857993353239783931478694053478368351870229509263920215032866);
  (false,5646954511175047048626757349350652404604978992006491597311542043884756246499);
  (false,74633445057098815263486112151125137198074203015919566105784069377687454687400);
  (true,2418159096672160917078936234847138669874709528202833514857601804650642827665382425843894744662198660963614921877029519178025846276226679495348622994053607);
  (false,532540734322804280517179495689091560018872162533705500880693855558070023781);
  (true,2742988841071250780772693318879491555913974212560951271261768051058469391136772636071522612062808657829069552257214555263273986185038764273564046389146430);
  (false,20447618020862970707415436284796176129587247944707170027924971210380783767);
  (true,3771311934252851625499183852689825571735586219868792796945415444233873510854549243893961223521850971188294474008138077509456740694889491409478135467166259);
  (true,3430300023800284065437233628487857947041469536868703092613855668598992668121711441357576591970439743554692927714893926191290607619356962543926737128330478);
  (true,5686037647077414295427112072488445735748039788900976682704495859404828657885542008086404485360832863811636074151272495458520061637943097976660565126088572);
  (true,3877250646766630007172514380252535515834073198844471599653481010697604959564649853051341683931916654466169202683200304232147254549407301184687149983500785);
  (true,2448607178362152505181287958100844793253458679257954942898652512606325457128629585039579187566076462396945859792085771522147660022049657663610659501672289);
  (false,94431096549584065470552047364012495826384790147660013007292053118364602715827);
  (true,4360632004592532311727881324701356277337462570428363275755039407320901001067811052087021738705712575815113940742037707350750975053203012695671024592087242);
  (true,7213170385768267876284312811489325587490198929414826510812620676348593429243601002471503094855571631584225667563262790182082747866441720660112859170703710);
  (false,2641798117085953313791594360537796853581131213806096980213148480039753758044);
  (true,1133515225708351816269293332583596010713864422696306896614209443164236736193624089056920222614930783216314918209016194627941572488725545420832413521736077);
  (false,3201494635225015679604362719789982461819058338006881364249751346494802423808);
  (false,5877325959470698552651862763289941990937910345161475148008209947737440259763);
  (false,34173058099005127113536656478061688823378646773666731141058163205963321991370);
  (false,4611838787019458171558847582684308939568075322276440519864977857875503584080);
  (false,1030891849425980535091319720163831861721317057743234568394806575020989568684);
  (false,65163766200366052119837142843029707529237127959871409199734226994992680521551);
  (true,2113139862257222433907097322015195725242539288655431505839455580125098378344749968044530243374190376141587324285647670381446533988686081030305840518683447);
  (true,942526740437713806671435660838731273485234857784641056050608387361864375351273878299375965716827741748686210470179238287600882165943942213343014634981258);
  (true,4488747596187743065379590528122764952142972733088851639413799221818978650547532633520795716895483641577104984818689557323538630213907007498451987878564472);
  (true,364080904902177210081617635507589493164538880216026598554125382411565257680586656095506143677325079927240568023366905840926782180772024316654364665735413);
  (true,3762131657215009012318587100256048928141801889413776500531794420382752526852235540293530798032237558097991468837142066361167358069430257046501772189388847);
  (true,3312898583713221235403084216817015816422464213727346104919767369139678897252600187755489261122989193720569011941637722301134343983992344238183707030741689);
  (false,16906450540566022233778936141905311920136068990692518246484984694086068844461);
  (false,56220759255529543245863024425344819374205564728027188897923404595028719571634);
  (true,18589023821786912927932054744672235607609921566362552035721911191827921671485604462244814971763605119817396566970115721926688987739231290711496604010134);
  (false,44732753683254728133129762477673679940879013155519464680445269271032243510476);
  (true,332235178173217116920777537547323795707322623095824318596108694834427778306333455899525169509730176984859740322313022761961351565910947021964175177872246);
  (true,7457289383139729032196301799964213924034590279239294136704408571404932086558525067761315761086806979868876365308325208808152715052008455612381027140403226);
  (true,2493628676655085348470360044582942840776829115748069537516563460582960630343002406694543516100428619105705063924608747223304748233865994452357948828576296)]
  9631013060085677371482002832704039550345574303883859918124457045788451041694 prime_2624747550333869278416773953 prime_1002328039319 _ _ _ _); [discriminate|vm_cast_no_check (eq_refl true)..].
Qed.

Lemma prime_1627771 : prime 1627771.
Proof.
  change (prime (0x210080 - 0x82a05)).
  refine (cert_prime1 _ _ 1871 1 2
  [(true,0); (true,0); (false,0); (true,0); (true,82); (false,336871); (false,52199); (true,2129814); (true,427466); (false,583048)]
  [(true,0); (true,464162485433); (true,43396666915); (false,782419); (true,969730512339); (false,23048); (false,483359); (true,1089651169617);
  (true,75073220403); (true,819339456617); (true,146088797105)]
  589711 (prime_check_ok 1871 eq_refl) _ _); vm_cast_no_check (eq_refl true).
Qed.

Lemma prime_297159362677 : prime 297159362677.
Proof.
  change (prime (0x4540140885 - 0x10000010)).
  refine (cert_prime1 _ _ 1627771 1 2
  [(true,0); (false,0); (true,0); (true,0); (false,0); (false,59); (true,24055001016); (false,39355824161); (false,4871706503); (true,263953801992);
  (false,428480905); (false,14437622595); (false,61676121905); (true,434605337657); (true,31590432836); (true,36329447055); (false,187532115597);
  (false,295275229167)]
  [(true,0); (true,5008143806133428825160); (false,43107778617); (false,37649768162); (false,956946952); (true,28030545261039798928986);
  (true,32933238716955257519629); (false,49194776400); (true,3558286041469330007711); (false,11112452126); (true,8952391528591877004483);
  (true,4246548263167146190411); (false,44031095339); (false,909315067); (true,27208480504588746678799); (true,2854134357647780361531);
  (true,188748777812243195307); (true,2890008945223163500639); (false,61650553337); (true,1193356473838255357766); (true,1130853430291978110084)]
  44169280672 prime_1627771 _ _); vm_cast_no_check (eq_refl true).
Qed.

Lemma prime_305873 : prime 305873.
Proof.
  change (prime (0x50011 - 0x5540)).
  refine (cert_prime1 _ _ 2731 1 2
  [(true,0); (true,0); (true,0); (false,0); (false,877); (false,111693); (false,35521)]
  [(true,0); (false,171241); (true,56328305235); (false,671); (true,28191122187); (false,228579); (true,31573908805); (false,113991);
  (true,30951133184); (false,117918); (true,17893255342); (true,863223499)]
  95101 (prime_check_ok 2731 eq_refl) _ _); vm_cast_no_check (eq_refl true).
Qed.

Lemma prime_29047611873442575647497758179 : prime 29047611873442575647497758179.
Proof.
  change (prime (0x80002014000448a402402804 - 0x2224810110a1000020048221)).
  refine (cert_prime2 _ _ 297159362677 305873 2 2
  [(true,0); (false,0); (true,0); (false,0); (true,0); (true,0); (false,0); (true,412172314377451172335427); (true,21547499669111518449704595884);
  (false,13734674961577328870413340132); (true,1084075823852808954297447401); (false,10675324859446760331925054416);
  (false,1720630543186236149496421517); (false,55530603429029017130145129); (true,47100883082265783414364232800); (true,2021349911614318434730453623);
  (true,37751446849918159627716199318); (true,3562241278817477574389899055); (true,9218342046239818543976710020); (true,57479715783581048265816823206);
  (true,7415357779087573383168888984); (true,4088589574703544567906174715); (false,7215799993349081808709194708); (true,20585394806298948727750082096);
  (false,14313960405711049954625329470); (false,26166098640426846413067752671); (false,8310922474437598897586329635);
  (false,18904456153102042378208186468); (true,22884060350244481488614912196); (false,16492554300130556120384483809);
  (false,46127430365915148860874877); (true,54394623941873953529212840824); (false,20158277508770135421358304172);
  (false,11333528931835745703886451401); (true,34692133222589448658615323287); (false,396179418753561925343849733); (true,4728280711843469256932347996);
  (true,374101334624863950943054908); (true,29698548645664177995064598888); (true,10567562744378444625251182721); (false,476860630418258405708613285);
  (false,4000891602874485130949532846); (true,30760022502032019477343295802); (true,11781283909713273712415976551);
  (false,1584780022696900408129628143); (false,1522440183074181188445270690); (false,729521965113138019724316788); (true,6574386219372375350143097087);
  (false,29005215295360259975132032287); (false,4628378480201492339243647161); (false,392454374442532558952065650); (false,61941548771013599640330626);
  (true,736979870296283289661911602); (true,25509452045953587064335804083); (false,39352859295724770980679174); (true,47112072564701988514494361147);
  (false,18985453312980023687652910498)]
  [(true,0); (false,8882060435860575211001860898); (false,6711367484984969150973037199); (false,16760076964605227903748362209);
  (true,11022333347570851269810019843488055977352309868531178064); (false,721642104178783514616319177);
  (true,222002424200984523392865589834255748439282749429523196705); (false,5398320315380473924469402987); (false,2462193300673668519985543222);
  (true,378800724883181826941982595087114245325153139739946866511); (true,5275545941655636306913136096451511151716155089370755);
  (false,15164084645309386128722764178); (false,9326050951819181165697077109); (false,10600099723913683339596083553);
  (false,223043639267519127203191653); (false,18364370328388745871850078021); (false,10285740659665786525326747414);
  (false,1894189607168221851461791992); (true,179410085688311739389039327191909409286927432095070493216); (false,8322302249574951499000144595);
  (true,82836666596927543282861693191692864082905698676249635318); (false,20512724209775729128514939304); (false,14479245574647727547658315758);
  (false,16540260105649878626986932323); (false,13001631102350075665283204677); (false,218398182140891837854133878);
  (false,24124879178467778554313965557); (true,251204451382873498034182680385394034046639684518954807635); (false,3746394990140354196678004244);
  (false,2998117378358065869155737897); (false,14633278367427527635191025491); (false,915131467745843036073612762);
  (true,381445225033015886808455208720613239382413817562866189025); (true,154796462321844871666729289989180027664193269798838294678);
  (true,51159945139403418811347980898441009764281234802786733457); (false,8148008534001289933205034268);
  (true,101562781027221714193615216403822698216582940104207319243); (false,24587945653017704634392264435);
  (true,102779784804682599926864955234365793881150040224460046902)]
  7881196461825673388358983901
  [(true,0); (false,0); (true,0); (false,0); (false,0); (false,0); (false,0); (false,50314003219903707560); (true,13218517405278771194053490498);
  (true,3329302745143238235155291732); (true,20061438243481370806948428642); (false,21996179660126965783845382554);
  (false,2243456799533185743996128590); (false,15937528622540047046421483328); (false,759842510270003152732222535);
  (true,40412743491795292355562686797); (false,5464105350884939914162157071); (false,21260297057941671772822206889);
  (false,695402770772497606614775608); (false,23748557063340508784192577728); (true,31518973418979389895969809433);
  (false,10599627050155581334402662243); (true,43344819387791275131987661039); (true,15542215869655184908931819302);
  (true,18755658965216843267867232419); (true,14079938116489463988379823520); (false,4834305392625587062245506569);
  (false,26585733489033525233807592029); (false,192976358964116893915716592); (false,10436252656275864981673152060);
  (true,13835139606854800869626885700); (true,31805715262743499180012911422); (false,8006961180731593520805020292); (true,6961743960992886604540143086);
  (false,1636633303164112343187162598); (false,7391689474817407268073005722); (true,12821230408843794680392684819);
  (true,13788349568159398799517170384); (false,244034275543117207692667605); (false,2969347180172816340132296355); (false,1319598688503174516877484630);
  (false,3683540799771472774659166012); (false,8484216121802160020023787228); (false,21765626155898717564907919551);
  (true,19798611012959877753706868707); (false,41669915110092150537155127); (true,47060505395068683205176817797); (false,330101319390137800504810638);
  (true,39271782264156633954894209457); (false,954609794182929971097161331); (false,7199983319953602407216242940);
  (false,13155629576098629426472232222); (true,35765884776468751147224298254); (false,11532857548150637790465465817);
  (true,32940187346468801147350226524); (true,8387625359456324331774368238); (true,22530040153405130580121507491); (true,40299920284892289352059282226);
  (true,4318375927526371589371249623); (false,815835770147270913288879142); (false,83306887770442259775710070); (true,94918592266636631936439);
  (true,6401879106165989552187419549); (false,1626535238397357203760078849); (true,19954419987087024086754107961); (true,52146556931801890157538948761);
  (true,25646155927145558465759338658); (false,5401566672473179801081081947); (false,19821305086932057281285988700);
  (false,12601098132097161617732870834); (true,54279812810528809599283290514); (false,13008508647773433307015150266);
  (false,16004292861347342509936774089); (false,6474254644421970355642231121); (false,15770661344163264250445697086);
  (true,862164753881692358622220978); (false,1839757530081732134171164721)]
  [(true,0); (false,8287367312958135010644669219); (false,196944073484105933023528629);
  (true,190009943724201115462056378520491422759930850909665995807); (false,18606616968117272403445923001);
  (true,107593011163521818493004200203096740491484608232470101881); (false,4973919831351619828956265006);
  (true,23783952703167952463494235302487984999540102367264738645); (false,17274174748929765058260108848);
  (true,97816012101630344898133948088103160543161245784742583940); (false,25288529472646585982520126546);
  (true,6772603041997521186361409658751708853759601874249230); (true,259147795705520517238830021962002415751733023987125837735);
  (false,27001447816187291538509822567); (true,210838323871967847081135056597081090376872370544306455453); (false,4169894182080022141858237574);
  (false,6700407987189676296549747872); (false,14504735097199816882509590901); (true,67006649992308127694724437147900866567112348465999820112)]
  10871710434968333415178461031 prime_297159362677 prime_305873 _ _ _ _); [discriminate|vm_cast_no_check (eq_refl true)..].
Qed.

Lemma prime_341948486974166000522343609283189 : prime 341948486974166000522343609283189.
Proof.
  change (prime (0x1100002800002200502040004285 - 0x24010115480880000911201010)).
  refine (cert_prime1 _ _ 29047611873442575647497758179 1 2
  [(true,0); (false,0); (true,0); (true,0); (false,0); (true,0); (true,0); (true,35853249228891437348919); (true,57170934999589653723165675108752);
  (true,575984658091120919868318426100985); (true,14382230913314818927771572120809); (true,589428626463941289258391267129030);
  (false,22320537711812408097590378815919); (false,22591068681600116214586567535914)]
  [(true,0); (false,248976818551566027545203128589342); (true,54778775079397328382784576961971968927542343470886028598569718785);
  (true,40634853278505306504619951856809905153322305118702119247495742813); (true,24503418323419345553182821228285469289699391920154499146385935871);
  (false,134501434176984797917632551678694); (true,66493918281800471333569788814554146815522587686105969714616283072);
  (true,67189602140812027591819398563924388888265393559405357166875716338); (true,2148340018711314460519461177860493487249708895664869067913949454);
  (false,111702479759299557979361425553370); (true,877419220860733854996565830363801351542402912869407778959275);
  (true,60835901970877841279060561321576040380434443531205740604696725717); (false,69750938948602057905085327361190);
  (true,22055897609999291639789199317508060201854226940781355926769428855); (true,33902873409031211967289505714566996074976216845301922854099985160);
  (true,19164318414253521312177699323783775830109111009750019707186392534); (false,302920938809505320934575866575216);
  (false,259316576686955929724789472928981); (true,25577293570467773185980525564847961895389303484889583011967056393);
  (true,21564318682768494685759942741746090071303066518159131468405926272); (true,4714057682840185788731632649371170547347354232263179781897115657);
  (true,78849851162882955837186566971424252189704082726921884792008145331); (true,3027567444769911008253080462002938469901424316319951868312546107);
  (false,300895276680337265577007318808329); (false,5304974825270822583781707514); (false,9530505300739386821783068019710);
  (true,37274493429912853613245855913563725628840794494627238621565494782); (false,62738139033969792774482380156305);
  (false,162923847191310896276654669780428); (true,12474185812310833878267414981668368386348743678455032396738634680);
  (false,123622756702052566354139219899861); (true,61202947824616487409593975780249524952392462681486046138101164399);
  (true,46820160168882486749553086703913646687386068205494598757569686636); (true,11004390068912141442235749967249781175886852766997146475955317322);
  (false,32444713359183293337624000274986); (true,17073372978493429253674999406558142539955650370502028093681828711);
  (true,43511212858276633749461614455891630399925763032646789044582742033); (true,91597235301726201358699257718182460894656937563134875374170038651);
  (true,34008492676112137168059497697325887979479806627211604370036212725); (false,107999515000830085301073251538858);
  (true,42636580000487344645678014496669878458977782004680651500230923174); (true,202713124186029616868271561758824439992144772588277017064733859);
  (false,2052053827125126991584231355377); (false,270084699647022823487583724960151); (false,443261992491723990808735470972);
  (true,82084278194016160238683182505069051498213056876982057431763047675); (true,43827332161488393404802797961140852232759669209944375622403046670);
  (false,86668573598783800618038410164072); (true,69451888105986961845426465445599161299433621267499810291781085379);
  (false,103965909738840391548276344415846); (false,33161649477969561513259216466277);
  (true,20024096293873963628721592857494154685270708984144393108746282168); (false,100696374668604191521475117928230);
  (false,215311106587136663880692768864231); (false,4097570457618912373448723173597);
  (true,74696693486555112619412878929224184796945965077902969256862551291); (false,39542727595567132825455179340721);
  (true,50326897823395970094007518290145384253721732360322132746359543569); (false,13108262676750088967300352575508);
  (false,104004390238240989994927283278063); (false,218914843356573662466196713805172);
  (true,91373492801686081891701575945735783806140600698571852786123569038); (true,39983959778270295799640648070206977958609247525453857416738769165);
  (true,45840296831749855415458454520754859665738030929044194535055474189); (true,11637555009748654223376544255311680845095392487178375481528347446);
  (true,51098259371935578026350272237540213690190747059969427952851896808); (false,6301936298123714149413337170240);
  (false,7965474415104893505056175658622); (false,51459128945702089614904433264131);
  (true,13755803408178096061717921450999523041992417097732401434473067605); (false,233786446252639922344184203392758);
  (false,228841876860423245412948225129591); (false,228169981594869602391351971840495);
  (true,51730593450990110527327743945347867035976021139489550736418430791); (true,12903762854682075499620159973602291398420234878975219106721247693);
  (true,3625168745882403597426295820272422103774441581783226777840990538); (false,241166033433375740169065498684043);
  (true,39905364394286002421833206039799323094808885474000523025759271665); (true,24398097122718097276442255573090023215598376988091304584928640825);
  (true,97101838394995565438368844533507807591645102255054943918884031208); (false,100149572768277585397707876666660);
  (true,97210952593126890347592542180540734383574297671765935249279764691); (false,302238181970158002466011292714536);
  (false,7440402807317577191139742955298); (true,91366502711138610924566528372220142901402699135627678023715956377);
  (false,247642320143359544784797570651708); (true,94632454163863272693074785485103797226149593274213521462399637643);
  (true,10368670060785511975503698547844471117888922258972446841216634240); (true,20500320266237316199354471174018549075609395705253389642940870654);
  (true,75158425767776369945649618575869347482430369081454647799211729764); (false,9100541390994751157079811302782);
  (false,29925140231470690976723348877720); (false,11321849461587289782942237842491);
  (true,39509663881628002993265822757110705632533275346137087746028508754); (true,84840755256867492314862133343181489471433211372788146915166242758)]
  230912421032721991545077801069578 prime_29047611873442575647497758179 _ _); vm_cast_no_check (eq_refl true).
Qed.

Lemma prime_85831 : prime 85831.
Proof.
  change (prime (0x15048 - 0x101)).
  refine (cert_prime1 _ _ 2861 1 2
  [(true,0); (true,0); (true,0); (true,0); (false,12509)]
  [(true,0); (false,78044); (true,85353643); (true,3309447639); (false,7091); (false,10923); (true,2616947669); (false,7794); (true,6591570710);
  (true,2635262819); (false,6115); (true,3136936249)]
  38061 (prime_check_ok 2861 eq_refl) _ _); vm_cast_no_check (eq_refl true).
Qed.

Lemma prime_16699 : prime 16699.
Proof.
  change (prime (0x4140 - 0x5)).
  refine (cert_prime2 _ _ 23 11 2 2
  [(true,0); (false,0); (true,0); (true,0); (false,251); (true,976); (false,876); (true,11862); (true,137); (false,248)]
  [(true,0); (false,3848); (true,101454426); (true,20277503); (true,99827901)]
  6960
  [(true,0); (false,0); (true,0); (true,0); (true,502); (true,3904); (false,14025); (true,9574); (true,5434); (true,3025); (false,2832)]
  [(true,0); (false,145); (true,22071614); (true,915801)]
  12642 (prime_check_ok 23 eq_refl) (prime_check_ok 11 eq_refl) _ _ _ _); [discriminate|vm_cast_no_check (eq_refl true)..].
Qed.

Lemma prime_107361793816595537 : prime 107361793816595537.
Proof.
  change (prime (0x200010010041051 - 0x82940481210400)).
  refine (cert_prime2 _ _ 85831 16699 2 2
  [(true,0); (false,0); (false,0); (true,0); (false,0); (false,0); (false,43985); (true,62627391479428739); (true,79160109855542016);
  (false,20175747560057766); (false,1032253619006081); (true,18963877881233759); (true,5847573045070143); (true,14226086221279714);
  (true,82645855479908266); (false,63266885966546875); (false,16783046245466693); (true,56382036428160153); (false,20205873958531086);
  (false,73413434896045479); (false,15586375710628488); (false,4307552161701); (true,79800739834575844); (true,122658110636948071);
  (true,109092140060214326); (true,56191730966555698); (true,306954454960951); (false,40402649317445988); (true,14838537833581387);
  (true,105507426285867172); (false,56724760820728986); (false,73410252983656658); (true,36567969598035405); (false,81668645086752497);
  (false,70241843224168479); (true,4251572835271634); (true,178420865567968805); (false,88126120346299404); (false,36065455514544602);
  (false,18534448239327146); (false,29518229188606229)]
  [(true,0); (false,96163292717846692); (true,4444476316664337115614103352783576); (false,47821072118695137); (false,15350090414174599);
  (true,139344707028778041129753887933078); (true,43963950451248604436001750399607); (true,154503026295488365446550246410726);
  (true,3993253178281152196134492460500188); (false,13205933231450937); (true,2256957124913392910774192703798207); (false,50927001865710126);
  (false,14273308568234915); (false,38122194054145340); (true,1570137743386580987049059521929070); (true,2689266886796756204265527587139860);
  (true,3469150594747626856043287048245775)]
  89382073196192802
  [(true,0); (false,0); (true,0); (true,0); (true,0); (false,0); (true,92244363308); (true,82171264982535112); (false,9437822982864726);
  (false,84683451143039711); (false,47878246835314954); (true,142402496522091713); (true,4842745659800297); (true,63689561088938);
  (false,96297162803216494); (true,131445916248451750); (true,159964801500096680); (false,8663225822644067); (false,15150186960305180);
  (false,33474378444173148); (true,7342503731560156); (false,494555663455234); (false,82399169503973578); (false,40877527335107635);
  (false,5392342823717); (true,120293007752197100); (true,10027493261457564); (false,59684785288626031); (true,31767912519455473);
  (false,69309571162470803); (true,16324907565458312); (true,4290187880004951); (true,110521468503537222); (true,15240499370254563);
  (true,39016172879222148); (true,114381767677154565); (true,37214863846338283); (true,48086220706202695); (true,97973095952084809);
  (false,30926866617764382); (false,55128359877108669); (false,30006119788945503); (false,87985200548341022)]
  [(true,0); (false,35461155909); (false,6279685116852726); (false,94019402813123425); (false,15653712855856009); (false,9576268239824950);
  (true,10071653466125165035358652866); (false,71579878440383136); (false,66250963952975349); (true,791917452347820624056623962600);
  (true,1208444435350410932220022343412); (true,5569908116885990384202996937700); (false,428740405598453); (true,1128572877872375258409057218569);
  (true,3266219313781840522938462875282)]
  96656339378510944 prime_85831 prime_16699 _ _ _ _); [discriminate|vm_cast_no_check (eq_refl true)..].
Qed.

Lemma prime_k1Order : prime k1Order.
Proof.
  change (prime (0x100000000000000000000000000000000000001080048a0400012809110404141 - 0x1455124215100000440402204400a0000)).
  refine (cert_prime2 _ _ 341948486974166000522343609283189 107361793816595537 2 2
  [(true,0); (true,0); (true,0); (true,0); (false,0); (false,0); (true,0); (false,0);
  (true,862718293348820473429344482784628181559610404463158724429532921867877);
  (true,219476617662692106284568735837832266853561734442008961699069506799879110104279);
  (true,161553437064860002805231715283749598022518629982857891547197884074113707155243);
  (true,186924360719124211722497720488953755182226718053319467502024379677353080565208);
  (false,63461858352561415775950620624219661425457754680686661381768922088297609992118);
  (false,108138485785366258360706303847639128783669818208178277583414454810815773791);
  (true,45469617020568533962978082295461626731132874953789016475657982430841373415509);
  (true,64666996733639688153726943444229828864849849764498326157210839489464684320744);
  (false,46354132885619366531836273220132747006835028653527149512107039658292473393062);
  (true,317642812357796729500003720576906361008253098958175982894584395974772319320);
  (true,57419223108283766281140108653812327538357948396312049747789734039199723239184);
  (true,28328229606467158819467124138863368334978147096200853480174392083433085779450);
  (true,101226298803406727350835246412797412041820133081133477817920067858798636932205);
  (false,52578424945963209193432335714075821160092227954014366429926357508822574126221);
  (false,41899596756904587673359277995757585265270318531238948682137564123612087030072);
  (true,11080072057204485518915861908804874171764118641333023698783250394004679631389);
  (false,51748188174454262718669521507047106970027346559976056899410291599329631473867);
  (false,16683790532129188747706413107887136057132934566042818978044923644683381785103);
  (false,52793300551228252206485512767145600731231533045537972260614597879398409060892);
  (true,789168341920679253522811432122425219721070155400152574322005811123938945677);
  (true,71086803659757134731625290107405758465563580331485312365932019763354853107913);
  (true,119237365377047789883533743048642467037551641812074418900157492004596969021986);
  (true,150383665055550533664652610527813321817302504827837278922639865361540295857680);
  (false,17393491061498147288949706527206894516241034065209108701744922826696899054007);
  (true,912474275100559513812506667425891147621677947505545312173517946035795094471);
  (true,43747404727992603453475192080228481042889290619451275289184156040441360175875);
  (true,40947636282996105056181992511976032848036155682191205519858982126010017250545);
  (false,62851303705765897623905132939527764555705703649728622698582673596021121081513);
  (false,58395223677694847077083520363553569153752384871054638239598869828026896344867);
  (false,6804732904690550360414860455041118046401916778120635358134616685476748530465);
  (false,24414355994509904242633815306750736948041881355039231451545718799659875477889);
  (false,86658760415484553058378134607418721075884383054801190384333215933230730294643);
  (true,14001417615774236093148002241655673299624413800906165375212056288152378042290);
  (false,109645599790374641957716183832923181086367579441668795839870515119724766268977);
  (true,153026077119881175352764741106387929726168914583061530037651406116319807466094);
  (false,40890797481411581641128420618572112682021245095434915980049474644752427137754);
  (true,114003311301978255522611566248384204843590167854056363169009726168415750672299);
  (true,194896558001368773768086064843201284558551710374150716140542556645412066502295);
  (false,90765224879743059359278825441650441689384511901160240639416907128097948559180);
  (false,15214294773274323776604453030251601736972214388554105666072920521946551178134);
  (true,67164074041362488065590235021735301596689587011621621194174333680913089969);
  (false,17448597079960335742268694048832536591129162015421820730102052452908109195432);
  (true,1790040673470971948924376343555432450854981499920840976675348428708490321562);
  (true,33993167532844914578313304581059244309720937966401366630556110775308383865002);
  (true,14359629403303190234896015240087522265278919724796688000916976426568073029307);
  (true,123310858529557370037893408426121605591657906813044319191631894618650868968225);
  (true,156785686705663609767633713244076345691842281563076464043727744968589332718365);
  (false,4811169076544512851249083672576741099189006666882127409401234274324440398181);
  (true,9551034483363894774649991503150750766453524133930014686977805262164965213043);
  (true,202010787249910478069326839632801587963376039056736624220901749698026444579313);
  (true,1626628600170319572584618481116393075233764740929842024352415284463364983123);
  (false,52266576899036630269897141971445625868885995986503728301927954824541295608178);
  (false,61942523404028387567407982698035940669426117826638351738256330124486392809611);
  (true,9372000322721972015319242425893692205778656273477835317999465590342643853218);
  (true,54482283093235226307351556298683060664060653568801383033441124767282053585744);
  (true,45236412308400015874959907595462000774914520421167894846601727891425626942607);
  (false,6344326143164645779667967608847345129447648885447295418910511125988367157925);
  (false,24044152696759282434890596862908813018875846166444720248483331760808472807019);
  (false,4247518582082547047045251779032530948251064416712633369435214904676041379500);
  (false,70304176858252263860181521968199500452898457720786989362720315924524116064917);
  (false,84561820783512460655908064896897459794279039686818867388769263397316813876812);
  (true,74174756892465932143187172693912592629389767383011850207314187577697407738065);
  (true,190895008462462103963331248892318230847671985816963263141708158737708742825693);
  (false,17505399651048346027464998168467105878169460723997996993160921764137908815879);
  (true,4226906102606187268514922990148754071671065029133460438709003849381470989344);
  (true,221890600523430212400360720907539964833846676092507406987567916021457744740116);
  (true,111478852752181303970636535676211960418883337776029044764424506107552056105216);
  (false,109616930409595401449117175877107697259646953134772771734621007159359182515398);
  (true,64894409411271991850746963304661198333740433589639630845268444323021773979646);
  (false,11535787573007328300435442103152837466476006522422184225458524549625988923937);
  (false,19636202215703750642755964813542987129844507703778442195245628863140004198893);
  (true,66195156702848260858100189636804890742505990997665142813449257282728093677561);
  (false,16361969249436501745471868972033764889805008050521722760227572292871989628312);
  (true,21060760779768910969538969074964251159076424670239797250923401907404462121433);
  (false,8601389763539045571259894184385321054361912772527830697946484026166919140822);
  (false,16595514402912450511018265448004684003788389080206017817999660780985595713378);
  (false,14921605989424056756947210235467746889919105080753708019066240916524201976117);
  (false,4217100823728375714691465469895556887463137690330305705242141471996067958823);
  (false,27647122491236587527873762342051719362629364813684894677845684032964117848158);
  (false,447782300389160091536294830645154754480391260665846458972238559499734270377);
  (true,96237442866240220990798015658701886758395453012245533893346505835164116089690);
  (false,33364834820287718350710047316950315576036090516508896065047711409188172563214);
  (false,24487750711723790107937906450652453399432018097234335137766456415431599552783);
  (false,43034036979128225292959475139479472660998225484825378969819064617613831043971);
  (true,24563465536610555545363392346714678866415992231657555007420103026702195274318);
  (true,26744546913287554341201343933808517174087148179600711802885366358699083162748);
  (false,11361281661883620446447048806136774085558878435515987684693580611686184537217);
  (false,113587109459986663901878165872780416791219407224208336277371130099622177019689);
  (false,1689884257000487779742481713375526856302112570156238946300876175665776642383);
  (true,2203087057543363840148796103848923537596157251888391728890562847348529455147);
  (false,50039992309225992229555443971513046161696956038892613126888081153914317103882);
  (true,145728252582679737151862306365652623043007553297110763016277475573234559147382);
  (true,12554519634044955161385598452054246711603981436295526529689749142496824522807);
  (true,166185557510104211376709152557267053045363052719929414890246496394735257316604);
  (true,16654567685966605645862114859411246548332052956124921039993066007357636287437);
  (true,137227909830999072837212752271046868236725148246782490834306158677468565997067);
  (false,56162993810913601020861517586397694246408628573123270784326668951836955634);
  (false,45694969696486178677727445153216852118954204896457072362155427435115781807663);
  (false,78686380393371762925880575082598520848623949073746767163393181745408271313539);
  (false,73106881759666389703127785894967484899613474813454889681396030009416410574916);
  (true,82936760665962207522586005610921168786555232194710182448416103362790796091852);
  (true,101194026002835726463498940318534671765310471685469745892829300636527077296633);
  (false,51290583834612787389087277620232530354878562069308569581213728535358219322934);
  (false,96984103851314369603189767107821808618731531529147928532180258599050925982524);
  (true,119289920542249949282219187816716572766511366018593814355539576653348045423419);
  (true,160443220967208697435831111795143837587636249557528187764021816989875599480265);
  (true,20718800571260097889720758741735346253165506459018445112042839044461330919172);
  (true,27435748098683942885042224006057909425204832485432348821571417973253086492646);
  (false,72690555492807017316473675772811276404994500753770067616588933581438044259775);
  (false,50205948896828114696811869211056957798567092884494666039647298654012207022498);
  (false,1243815180820683797857705637121371531555833089442405023323517526068935362547);
  (true,83057777675247258877900857646384436088055430791464704282205444383443822235405);
  (false,34772647727725702638863409537193012199290213903545671516228490857168602592380);
  (false,90078367740666035277542169500869769379661980177520585441288618392675170557138);
  (true,6085287717789688797761581177227793381126163917605665257560122829269605227830);
  (true,27957808638981044436132005634559087407675745437998070054884519110260981166607);
  (false,64064694903718086964113886834714917396816010683794203162244319371340681724108);
  (true,153332283726048883864289971152360417674768809366172573563394461514078022034941);
  (false,52402296629302606254197060635190113372928667472900368072330810520739824836726);
  (false,83994574859840599613204693796093301205426622840146536309005918706031927299105);
  (false,5018345515779011437778616044076901847540436677727047047781561984450518671553);
  (true,176912842833368369292488132757771103191622545650773647457671537061000524099935);
  (true,156091959167017558813171409229828356182277203946107641860711127981166234421023);
  (false,19980716963670592580965609697579877622462531487627069573692479877086997084324);
  (true,873596233251212963784345352485443093605636226812042916922330957101091151215);
  (false,34064776945035447102419452781032064606619859575746259230915250100525836742695);
  (false,7549079539606863079695808902518701160465016830358235301435843580252953842078);
  (true,231261741539069988183371801961645620924200241562440701421854858501144510724389);
  (false,31118978131194441871047964770435169896447502648894292665845007411634372098682);
  (true,707326054024224039277452632098799047985103394851883251321651625251688531670);
  (false,70782436972810483265580773157187545618591356270180184714015992219670051500249);
  (false,48300032757170655872460128325469681305178490629743521788982036614144463193202);
  (false,89501317140737082449553365663174228044548262597947488116326710635948435978214);
  (true,156647091161840875230238659780345078425356599769303160846530808797337484960287);
  (false,1535622450796563474576945133483888823774161738976103855283926753310216916303);
  (false,38097479251195869814362017510977518964854576425897132933930582495211876989032);
  (false,27923867335860094276496549175950264290860226844309624810383181405049536646813);
  (false,5309560747153960725701405921521317396170161181639227361744688722947778312219);
  (false,216490774286444681345126445274400890720453485621181855630354912888162429831);
  (false,32674788095547522169650081100712300710267119079075080806737423846656980393063)]
  [(true,0); (false,64833764118821606479233049918210874338912429109801366387343471965815698921023);
  (false,107141305931140694498554440685966027161509740866780788254252051043234415689340);
  (false,16066535098621399543956846658871141709631150931237932701309057021117623303236);
  (false,99744734855358903898386806169231386048779022025644036142544044143700396400812);
  (true,2405883034548488624629891380595218121301485583627586337511942324754700440654154163401461240612742381350699454877273924602008152753740251388080740320338763);
  (true,309967981187782485114170229489467168985711357386006345486735661956535625747077655773364288852352467678939344300726422646224257692555266630818885222874590);
  (false,16006904073521141985825372364355947431387781585311797751372854567236171152512);
  (true,7668869556321967915753864998325046910692072176490803920518772836377923931912837697661114185051966988143921408818806412252346371799455764403999754638344043);
  (true,2699266979486442458664478732255390002413949641222155933412846989228536470984924976559417446790174662021378902326954732651866590192570665916062354597874377);
  (false,86325392906564389637412429218056339794660207554514582726853928169289623290);
  (true,972843470854443655166820961757639646596119943763633061335438749201870924943131962817603846523626447949138817905794005856478574415353211483695107967919305);
  (true,2197797184818655684214116816431435930767692905845153797818523790348890843883671725136153165449908956238150375674668213354097803219719002665607306416249215);
  (true,8803843460068800122437965490951843228212048408968095922041170461012629423548418168950651802845736800980625365343231693746193606244536900073107503978487793);
  (true,2615698955933016113598293669934429866180242124659676723400500178068796186797117958117995837007731609347527738002575160193548259985087389872122032609642617);
  (true,236009472256924277104516800263761229529172299388822986609300432524165631666348278998318287101095451221987225743103713926739765847855085901182159165098041);
  (true,1750604114428251323891263697842986948753035908390804966280269722349078205491510183397810881918482216843374449234183772602271284366857902373235555173111547);
  (true,1249462895510815940860469659129510880868266088894991160078006320478364090400142540583929815350235418815035184701467500541188166388909395251752432989804816);
  (true,622469884802948241734984100090373572226020609453063767051598588487646963222865406751263462794029694929327902385720092893139958051485753425086242858731559);
  (true,873905792783811304481620896425167522919080594869724265563041128140218526575790453380526262868019346514778741171381326598006152364630138574132304302932259);
  (true,7628869793122612225286662099463019999181497494592129778465612112704581944390747744434471730858120084569212526969927197394907030260878626969138913998719307);
  (false,56485537578476095763540377374380778842744410402705219428175877026386127603155);
  (false,90142131233300815659152293863904794045318825739002764566248835330360552111475);
  (true,84246584036297977711594040931229830401143183551381382763629993248766805483610517370794812543328955864468369951058374986042346338411882388494621795103511);
  (false,12771539081153299821590976928406816932374793818185656612870319499594162385986);
  (false,3367306562580135502870280186337392881821419912340103694465657484503638607884);
  (true,1035168977900379237341648405510448426373776534132277169189929224334354635755237406069404336211246702878950483423811886424480065735864009913487416125625771);
  (true,4110924316561399170214161895646670945057205973697411414066390641915573620968179305603560574585433297411868033924222297793500223937821308569017750078243864);
  (false,10433299072182668472972111546224426252203701957204910522997257944950204955816);
  (true,2067941082394712857920335922721444901259473220666486215466193676453600659206336152984722996284273288528605604216671955739929144047535396664764113442604290);
  (true,1942049716771974243252858774976785727612743734785240025058116345623275634540864012917880185458171239633694885047731231090229543326330688413376977873065626);
  (true,3142482375062600816605519987051495491139483443117226640624495381379553556428935277481948896876435732894831900890259154607018143392470859772368461557146);
  (false,33068240981979353404032728077175688104655959062034414411498203011207019415084);
  (true,548022704644680514995114908277743456220691694924699629953383957301442872817307101673490388537285583476349775775628496853529591034056087510545671556517772);
  (false,53613610688525819943302532467489698929851797295724373562921648255539466560895);
  (true,5398437594643103607055983869161694793485370974555056641479891864793690687957500541884613528946081954515922101624691798635862232514616714626932396419875607);
  (false,9216358191399160790145082858299465197667089545186663136908591920918742869555);
  (true,4089886752352867165512079973254593837484347710135541445952603565925236170331552347489958150227311581327849540900024172720315025293400296892172390752839743);
  (false,23878525685204792162356305692251186499538609082952400287321346076461334389674);
  (true,7378486435270138910590120936183037266381027076391445590970510957168380825219572228632213154826215030067726672210419583056623676898176625326888379348973326);
  (true,356738825332422413545300884739504322330058597906375252183439631216642091094813075064940421172428695268202581535320204136532728850797449293956053142472097);
  (true,1510795877266520701379248735767390547050622734551061614121607411882851003524637358285220951326746688780935247715966390872374793336031323537837168963481817);
  (false,90090506470133012001001718880658606235268144503419075290546888399468576050175);
  (false,41054559893083105258003473064443066642210190916717288926954593573588109537494);
  (false,36980711931258283323192077427205793840864291839480569206620803398773032870610);
  (false,886074374020813114075745720758071342536821907002748253892576809578996890195);
  (false,57940170199354846121650193122035508046852628302273874735006839872105081884348);
  (false,55424331457831947963096518065097533047680853996957483885097433912599428184709);
  (true,6800068987694604430925678980611535736129318853217297342270193990225081554796613263087960122011019552331805921511995300876067188982982895385490814031746124);
  (true,6208691754948175221977161937409737790193570584783834148683649064647408837320201785708452031821385853972330865134099582799023198468065660580833156836743411);
  (false,44028908027248889867370564254505835495081296172708278091715982837787288279801);
  (false,6207914827262995902172495851601485412153350383410681531821319826764309557081);
  (true,3929208874679398343208728320070049642137461151058156399991616084458560660272732740563705061919841527543554686585787447527267274450758693029387913703100191);
  (true,563035147888744574156941675726989678826286115880041926548065343136560065971414909806950020685141420070135771217223507322196077368448989370114533059291392);
  (false,20727524059988069025133512153447864750121203714070203184462354695506055900040);
  (false,9236451444241965548760699297135798512321760872899926274478994816416819575724);
  (false,69773208421759065826279614157310682340881493233919581024830319477033116492840);
  (false,270093155221323361087156920620246727618669615234178239209621806562937677682);
  (false,4417306046106823191531424024664376557977245712723676666276725019871662630553);
  (false,74816302008469818144399804943172518774536891172535321971311637630000390686568);
  (false,67954110763684053282290740478617157212272303233675846158051737912195788659166);
  (false,8307610321567513231406567762490672249933490699722715833889623745993201780148);
  (true,4598706385215840549373032868976345640755842538816633960464765576216385133822132092716751198839992707912085707169975096753238866546857530587666866672944848);
  (false,112998320372814965702635828742799250407670113466185262185983661776723759562844);
  (true,1116015972200409901971983320819604279818679698688169998416126780592153046355313573305599547619051882943344061267339528574394815716984437963668020959327012);
  (false,96077943143291559173252752835276478798068465627025547026380482323692736181148);
  (false,21256708821865181117351074669329950516167673035108691997215688448362421069954);
  (false,83775740867667278830923796004297446921774322922573470584248859413700513810827);
  (false,44811741029712019762292287268847416815182100051651913233242350290273318852614);
  (false,84065696282499339880460140121761633265257915246575861392728373506317647801);
  (false,42280592258771026584373828653486837038200567922911117577714625536482386856154);
  (false,22578282619295162706852645564541641907603994246231085877852548811888927496685);
  (true,3776867179905961321782931958350706430811615109991908334706055586850438311544581097673959144979330677231212024898139376154449342888300957404980706341195667);
  (false,87897136494020444683374930715083764461509422452200785236444050722069609064404);
  (true,521554310407877230466444162541593012429552890642573327085442980906703244701015491909727832293205614368218248792531702107213332726016215974870058028911391);
  (true,65191874249399704764940554993153960501755218171463371333256918341162885593447553122795377097585689203582788215279883814864184225430454351840870486911044);
  (true,4273216099778095098205573899792798032049876151563413052451456778038040298463797204930423599525396610899833761492874759443391594288067209260207913863461137);
  (false,10619440020913651741819915945606239901290553037577083403601560255903216839718);
  (false,10629902036577641091554829763344221378108655713003530420517911342190637254067);
  (true,7371400701341459763165533625490900835982061629051905160990308843219518755342744925154840654224261400695344011724857583180764485572438515988223903191983134);
  (false,42874597694316242534358987734426932990864397718189890418839933386731094023920);
  (true,8563210263287317163157583850153933996938598065534232485525972675970790968412456642780881446473489437292344010352014028890857578438434796468543344226698605);
  (true,1526174771850018359858954711741331569267461584511598779843864542781978439211362428996482342732328126554428271405407777103959993441073502743482793558391018);
  (true,2329726874078079997415659083626346921810015488931012714468643866135236771316168016070639083218308436247133522319243264656286433696513033564267802231011902);
  (false,45020854546826137653032326437852268816012060499947703464438043176459809454712);
  (true,7493032498567861043087441323477317727260099768568452809773085356491310958537667010654210994247619670478126248404641320343808764774462366098032088134756587);
  (true,6504280759348872089285528855589071917883463632242581192818831301069888176345734652390678833270149572110623998282565865108779391393737164500288276707941633);
  (true,9050774603808680801999128846069130519296919245288813382457037847350116442112921954308202857257569716360841102964581335988148199600960924114161502366186897);
  (false,19652704257969554014598290764801306183287491697515926193361478010736205910710);
  (false,3844806967647894065906594327782380010918477773551139083189733948754512612132);
  (false,57467122276999148554846406031450368489486943409955924019479518926843285635978);
  (false,168985729522310101752643163578525910706464318453694718730656187027447549622);
  (false,13356425926537694621327933853073691299772079363728368860371991489663432230847);
  (false,10990588592510475588701782848689029591029161283518602562475997769825298038967);
  (false,104796588226811443267515167804997405782256900275760247623653961373813309767917);
  (true,8471800651663601888489431811158163263599470073393560128940755836673209033153770296333565889493812822771555569306407883648371563872172010770382843635819554);
  (true,9735130270868281622895843560802987632589207352893346119288146917448041246371340205623833117181891962387393373914730394892836460037306615620856577878856877);
  (false,289497012342132163133865492548445363989940490254967300271894429198509001899);
  (false,27223026547071685757843473472811692155175178869828903425499954881937583569289);
  (true,7504600940604477578233435101056354686520549371359222668892872501782861546728623611134166270717555940155982203540009270764531409531669325013965175461108516);
  (false,791819051562198625201271288308691525078813682123254599743518753512051789798);
  (false,5956958417320686155847195216244770717150890346446045569674054399782693557271);
  (true,7670642396381228848239416510484216366681667911061991081277232081255782505551199576677884837011701145453134402384741926718714727816423091021871958086292760);
  (true,288353843490797566109415904882182484020912536541572693404035537848043141285328611611250302878132660440454762326115033074343930749896826181718889104513821);
  (true,9505186639357689252634040993156057532967540612949067114911202436036228194918122994283492732769993077833461422837996927831676744183468367448186475223999232);
  (false,62850818936694122413562979734452849225782853968275768622734667455999807702457);
  (true,8421054814039598679626255190104932811536464759716598604541394007212974335993157371608452747503075661613633167228010681853762706379444438356798149264902545);
  (false,24278666260974668812112624549227085744194565090982529713151777717260510951178);
  (true,5735875187241650036434132217300777301915356908875438136367484554185305812453267571395394066533904173787105993107102289311609092930360585930442775947436353)]
  57112704531168816596589732607440886458891436705097388389849158079043094771009
  [(true,0); (false,0); (true,0); (false,0); (true,0); (false,0); (true,0); (true,0); (true,154742504910672534362390528);
  (true,77336172196736082471344908197055320748292194785882808); (false,646800524557150729410763164846607220509488262749965214775970446973584145929);
  (true,209354877391796129424784625976270934698341952675187833826676737161719792488702);
  (false,19721518159187859017324250672992400445137100804509004017677650567017110314199);
  (false,113916200479022093468698688716309092857091404769192224314392214716941034017211);
  (false,74639048374866148224795410704084579444797112288007935769254328362405802046052);
  (true,130238681617426987938945186051703019354202554925558373691885525885885080121525);
  (true,189013608182453186387943979221509674925143142418771267483730271093696681989323);
  (false,107203618422185930743665818804495470305127116501256474978488117332200412778320);
  (false,2514085956416584306079289747175867044234920287478876106790726016908274056599);
  (false,3972170877965707086970143154208652127622003980124486847634781524111686012245);
  (true,79046228109405096599850717822415687833059855363613194576717166161702154561318);
  (false,29223678560031389450216586084192429500271125896139688393374061069949547352478);
  (true,78070715998637050861576836602105536876389245316386440238685691238515173997244);
  (false,38838458375603641089529340793752196401061985447400837871365126163476662427549);
  (false,74255031851410368201525048083758520651188552781267327884204295635667094146888);
  (true,7889472058584618713145993712370091949170243338881651445883331588751302838057);
  (false,31488787475620134168211040282316263458474756046225548866254980455149909574876);
  (false,23983748306002218274285132003284911840699227536963683199582242849288825191716);
  (false,94506184304098400539903360695102829902840253053207525747163352505569582162717);
  (false,92882491631833573927245843440318515243093927324055828533468978769775196235306);
  (false,62237273085003165844570843653356293572985884241476722900808655397996018277360);
  (true,59900834497346889816626986339210298973168288271041780216942767578349804873866);
  (false,99402319729599439853992483125352026453686735547261595440214825752529962683588);
  (true,172160204016204689749407567489199784182698821977413145428102151141846247120185);
  (true,37398465285030466573421667741213131622430473136192230931134864687485796017005);
  (false,6772128630696114922870836150828408747817722932856385694936285502355247125386);
  (false,870310833743000310047411499352297064151175501694533247260235870815426686549);
  (true,16504358665446854442569287765108874164919606187914459968748733838154260681965);
  (false,71361813923444844581479339979812264984679731740199707770759899926548613434755);
  (false,53407107875247399860865347348026192082200081580811153287278170947151718369896);
  (true,41923598194478372823324915601352135475069921006159095555843232891762700167607);
  (true,73522366219914612294313870744802105579814895140596140469787223739537189422267);
  (true,12856237985535749624606867167683444155827035859533615425647915044923498070402);
  (true,30636905130369084984859590809713124772812998330893739940630721871324866304862);
  (false,106370895106232345899597849027304861216455533563951958563119030205266004092006);
  (false,702144862431938344434599638872937399586346980838937810418485165176786806901);
  (true,41310583589015777111529520254240528048251826933791478982095637759910886397210);
  (false,40504871893262508004335863006718699716726831969636812691277208068580492402808);
  (true,122209557048093795127223352985444362308738861599454977461953981410473758205236);
  (true,15793062735853168936986137909188985120641231826822800986473898698070985966718);
  (true,37308425040040056586845585158516964014663166960932529148727513215502203254120);
  (false,85744555293549582698708516771036894307181074012764194751254432763743370971802);
  (true,179631691256047871434925022802286085127843046515614045732063191926329552671395);
  (true,3004755499936402932394531533609710979622265752207957949650339385350215312061);
  (false,97393059736652886020163232516337291059738605764334150590208439549257627569004);
  (false,31601169107816074684120454046160874659608454107813670208192722410564155880691);
  (false,71743757963970533337136949844945551251859855375643174465124835227699003780100);
  (false,20953807141135609009443522686394021800165809358733114823878095051365192358138);
  (true,224427673628661353557780538170544764615918102938381315991633341851660772040714);
  (false,87288073914565858856886221087501593484280728814046040158306458722109492192020);
  (true,575263184631631723829408978147617889476038844912956955398853809360628336579);
  (false,5877175399495862457890835326863720434676359597152895321490301989007844963854);
  (true,37394141203858543270645995997774799875773346027947044093648542182923105608265);
  (true,1653034154533782086733921068310391939367606870152329063719974556059871144980);
  (false,62603661122093117641476471180454323450616296980844242619721035838925000742985);
  (true,189096199759569944551734506298456309236827779777477543346702357213035008094413);
  (false,4924548882635766619090474297221735484609176342963368490070529016689494220958);
  (false,5933290462597029797399706026662390633459951066661446996262454435175862871196);
  (true,50290941928601270239082317317204164780954018416760907334653392075238679987000);
  (false,1195625878409080423107439818185751767850192028488494574422773479572659631);
  (false,15600234678365115042181446896581338987984129201458629136751809762341015302803);
  (true,154726268299620433171924757817843797978211738858299578037773269291352891062730);
  (true,268914260217101000640495834170834513486130982914988114454509835257664174587);
  (true,191444695563151831603549821691310797285168245528843296966931470070433011002002);
  (true,18649805763077286737230033988911400112258924134248963384460404216316407694673);
  (true,142119895039546408833980979717603836470784964823512775752305064170430155633981);
  (true,182554503310458910786443093942012135172152430130421663867497558302845325320966);
  (true,5693621474231136015067953379886490777666886282469262166808328135086927545403);
  (false,83249718743437016968272788088749158636634400322195580589920145544561405275004);
  (false,34281973614483403824663042655497837433574378609428581663614688419793759592543);
  (false,31594935269538556182347717154776078072893599358025021563017876011810747277960);
  (true,6526062288747091620224473637381583250814339052894005413663647988855708048666);
  (false,13585356348707119269164342137143409341068506382797205996260038252984916472701);
  (true,1903545468093604437986483076880652745085312083968018860120065031305794272784);
  (false,37845081921019908083881837534906233730152652455139262767478422797100989698090);
  (false,7503858144883167517635464801351586457982995796008211348757476005783479245814);
  (false,95111461937517783004740036064788500485177685400125304124621497604000061922062);
  (false,98023293607241176816168314417073468655370923707295350747216752441205182571635);
  (true,1541165413332440906241670980126861490684511866687074803812456357543995373360);
  (true,127906063189156188568944529592101813756150815071498283713956303007746981844100);
  (false,1825472385206747069907389402657773540935231656374885589189580047423451666314);
  (false,54592501363883406398572763315255538404947540890972400027488596709241027078585);
  (true,104236708553843607834666378673384192566976975472018450227614113999173210112445);
  (true,120207777223553608734488484890772331243144442626929080983658055285872123109555);
  (false,21617907958089617077602433118266044597121778905466438340958666324590415360477);
  (true,936116552951527743541003225735981013357154210929926991821504805287700561097);
  (true,198146183778775564090551993440452170450147459089405658544851863551837925385189);
  (false,5620313262779156809867952276076770146822961506035949529843009795757517040820);
  (true,39574505422849691019436684969114898506254149996119882355283435239645253206496);
  (true,27451509720239464348912817442884474644492311618171201905004690106441055715723);
  (false,30287078967964973335865081935579824681406224288278727218651779747920837698335);
  (true,8824796415649116082919283735845423032359144764020966853047033406251725566879);
  (true,53672728454967654233913570060125408067341674477274924052798807860297183047);
  (true,19030344616183834334964470187307975079358178017353720057833947397999060555673);
  (true,201744566789319676028205287325424769103817238825674549815615266348699806550289);
  (true,3856245097990614777571322590591189429964666954004683144714990201809882821133);
  (true,115272203871866999201835815207742401865593633758937474503950448562389754258225);
  (false,22087872988102238440954685290508032632078377442472625196846907904332204220155);
  (false,112925074117733473487380335752220511645858639788952969794029900739752526882096);
  (false,44849769890003159223036279080015808524943089212557271076755429338052181346569);
  (true,248481445332313799691748985706578537651149097536295064678027153235047421779);
  (false,105604911437577046011915469199098829387312414217734984379413836103507871231703);
  (false,101114765696045326280275158078745223021318904619844630811091203295436979966169);
  (true,69768624678856864237903545032575493861532687935901589459158421951723447137670);
  (true,172029388104127673438170975625280810082243815102371697463577091122819403145749);
  (true,187537236684842232879432866578127929700337145214495448328098633213435292474107);
  (false,1231143352198311329739126029938087053347061462701890198040592096950949055979);
  (false,68884813486208331762977439121431271718843713408242672305109450316378861477942);
  (false,108776872127245027913285459303285711867146692873642144898902629084132464394328);
  (false,28220648952702499094241717218856321369730763869828647568557627827084463376232);
  (false,77794218710866437888845583688555732715451097999710555210821009102780305859081);
  (true,3148073517269244360152872962586400214645317439835876807926186500518253300285);
  (false,1788777158149713744968031109916198805828103753088875860314419878987193101078);
  (true,1429453213982580776226894228413978318023692258721975501694937472792034568147);
  (false,9299453135530505995843230267149486587385106392422114538425791915170824663827);
  (true,1225655338948005397013378733984885400989810656033174704288971302292183038913);
  (false,33478731750269015602879656800497106163928553504269219271095623223689400004011);
  (false,11150248256205600586853210322435764344599225878225592351142415945345061865835);
  (false,25084646258769886573790046546969010448610113141725929844442216387481983037675);
  (false,104060613758329621966124129247866782734694304141861189404836268412030535371813);
  (true,35768809068091211091425983060554028770591647989456797620457707701158443011294);
  (false,39318535531988762882927867372071397546380126463645190851570100384968335428822);
  (true,19574648583233601137030906954801381345054935433218030052500706599791349831603);
  (true,179244752056708194483191869697596723422286554461615875610814950425480386449906);
  (true,32320878093932701194930199864018324696106227599048468815236754461477632015608);
  (true,12239100223439933950684575599702930238081259407137295326583923843125265757742);
  (false,12358243915199386910346499291686144915920113019630001966147966222571993041509);
  (false,74490458168889342885460828592078191902172227501628314517887619665559756815780);
  (true,47565829334876367825480994650270890011654653300088919316302230678867314104462);
  (false,16375184660701250515229999519380613428715263377578998558054019696268734335919);
  (false,24717098522199840174630486495795130644456675030953395021002348325396929698018);
  (true,127990865298240489447994974087331899598945131098846654727155794863204057096292);
  (false,59806668505654232639808039484058296358614781859012897956219096418995124687793);
  (true,223908900438381027660721022929595796935876707929424799681136332189467144340518);
  (false,95273990274491299637687733165610351958183631206023418962775763100368207534368);
  (true,2624406855345262856340411717590548540235410718539523252352170744216827303980);
  (true,69034988487197938997182092497088692803233632599147960993072132165898379487712);
  (false,250047188089925076929906027193087138247766516508715512579433951601931395942);
  (false,53697872246294811616801831116037719818896068247980537761237176871607416651213);
  (false,20623370325427832780091911914857310151774661816728972276847537982602986824011);
  (false,15119104074865006860441046108728544292492665155782180137667963375029872328493);
  (false,109325550120953119257247068561035890909669439525429358843710125866141593038646);
  (true,48399327719983946646711703327385499907526368167177165186443605136881193505255);
  (false,23443836838755027498303252916584057086382411389679185727116334535353369695449);
  (true,61834596182147310063482061741095866341979984198376495581378245331763847024137);
  (false,72358945783931274758730325878134747758036567076118437938729079407804564161024);
  (false,62975510539240018574953844972599695934938983655535411406707042043393058068977);
  (false,11893163503939033106546814784653873902441420722030734113044670684099630241013);
  (false,30370741943264748418982669125015395846014680753827534718359850323965695445829);
  (false,84818845771936445453194104549524336041287104468659606856323262403447609274210);
  (true,3610484242274650757622290677823155770887076074471814379124425256693170877759);
  (true,824363204049188259055511497192132295652342492004469782063680955973659296552);
  (true,65788444333444167151936778084287449760246280079133465978920762921734310155815);
  (true,99991381416434140652786246022036943958771466321756957271367773529460292435013);
  (false,41865504784394850492547874930737927592208044163267078567570214988552411547563);
  (true,120339667566827583688428872466534061983869211332782597955147258110441122305822);
  (true,6032144688194110509244373645720958080682375042071851198747908178770064670456);
  (true,4515903959337734299889051287019635169402347443584386387757843179283831800693);
  (false,41012203539491784273533520665007156943079731040667945406805214516507559483858);
  (false,11515691547134016217039469912948618136760645742554222613518118028841107813806);
  (false,71019867047447693209536183853329752879641564837813798258586684205934243270396);
  (false,110763605360119831097931672182432818496429863339032396470408012369066507857565);
  (false,36805432345510132246753047045941075394079620643535074344248741299362349108136);
  (false,5465949280842598121408190414726229658128112587960675630063102762452070191780);
  (false,11051988576834746785986920083755526022742532394962925866009136359852866946314);
  (false,16102808861194968172532192092023885004204337679497440370307415539928679609633);
  (true,16984454722487278938210803946128281480171176783512632063547199791865676215448);
  (false,2745990065418991518213778397706430943909578102390737144362455213272348666622);
  (true,102473377319286442061538543041067933834580329862510947500964595697154986650276);
  (false,100892862900735517461088035397089395064430644716012838576036781394570127189325);
  (true,13003352941699592908299895527963260949468305385110207392442011319009763858938);
  (true,205556248365445217507527524283469831209587922362096699421837853719095167516107);
  (true,109874847743942787264227009757394557844846446342877016132986475267834960500064);
  (false,9500514038456113736377932810724775152463319192052350215304827392758100809025);
  (false,100542403199509128061753522683198939121250638698827888852359544076517346719);
  (false,17024007019989786415258141298074168407822866920172951266524458240912892120235);
  (false,63388105029927533371731210707966771956880778102632114496607032084544158023400);
  (true,220120302481703585337345932134426901211834110339531944402669034654571451352413);
  (true,108511775199478988142699829299677642508137974240582610196709577120109652213083);
  (true,156660075879713313089479859862745166470178598424852937326207909427423386693715);
  (false,33173405393693386307408150725438020419982791472329335583286855442781276981919);
  (true,9952821025500306244558317909014960272462244140761940209770421418114187200036);
  (false,1016192526970347161050021570170578327549375226960914216558406833543392790143);
  (true,16788841673478656689364626697405698517445981570320247765403636605226275359354);
  (false,42966338351608320780408457195927470341501089635334269262920007487381559545120);
  (false,18801304529801264456462824274257033452430753567109920908263480496132576634425);
  (false,68896418867692562391445165016418168624983763144048930096687596964225597893142);
  (false,108071341288766748599706491515149671952524533346635533798554139399835770339326);
  (false,41724813434137291482880204301191650325584227190666880490204971595455071775562);
  (false,1695747928394078940762429585218399050508459738100914308069682482434229245310)]
  [(true,0); (false,34681666937017138595771153165441321187839234458619018606859132680934468815161);
  (true,1703124093986734306162667540498406162284514015998925527317854801827923554904254643074749634044918939029623226397197494701095570110829447798226737099599402);
  (true,3558252988508244514254678062761169951514814854410184253293162072342406583274775998160502903036352138898989497699307873108230176107244510201694532240379983);
  (true,688828468625205099228774942082894150265857949832108656663871602061429107402716296910130821987607287253469203262237980466862832462116668366410822179706460);
  (true,1230729156231630025705014736325321263955056681622600514535691796580871353464354128290883218110300055313286789049727813996704009395936369188141270876218476);
  (true,906268150984114859868088648635795184232534022738088873987561377365739493020924009925903395768498547239165384731382330002339298828967793817123168152787518);
  (false,28626833403804810848347898265966999133104786086388341667412550285312723959355);
  (true,27652296128378413256373074877152627898901353330061585857202491831994706610265861852681933901265356063809806567173715731333738359649773985770034427571107);
  (false,27112530034425862075912841782053568473547993197668341002519114604249065700402);
  (true,1525276994308967856232893251922643281940529538710908487539604641764093024122902527596707633787016332335487882386559566867114498599645231070988137542303003);
  (true,5429039641037642077433380633504449724709809241965632258582475683599087979617381344679281462488434788871821511733575780470200259715896837359483419993931205);
  (false,90996301600544074438349777457326949633751475742832214211885920659287148885840);
  (true,2201074626617846778317762340222751954551075402728156925907158863627952277328098703821999848537887011353759340022717510387865471136287352387989058376739401);
  (true,201135863788312018783527172079138088669077049505655496068576305360371781519202308827915313187196385957064013051754144906698580895857225939531875400792733);
  (false,6649451172216256902544731976825675072625195239787934274779179876769505707018);
  (false,53783982458746074666552407440931101501345284613560478681327770473029597883771);
  (true,1106014191630759638388623007163686700497506240472796311221529895958536852208653387107894122925352008078496801954204338771790108462695491331349094465984453);
  (true,5749617903834267120221139976929734211690786606524011103473461617803237011452576860973405340603297930630707055335006464719578984463300093071766139779339271);
  (true,1155734840284507177071393948487519054312927570330615793878634768162304322890985038672438406299283479225480000995235032111818519364588049412552620057799772);
  (true,3603327528238373718052624600732818864943087653871384775978131895657194690511934151943035522650827658641920003308326844506371326505450507847561370971220691);
  (true,5001320103461789687913415578953489895924655797845115095430401180073842096419718716115404207901168710727934356585565049776942775652836833617051372936974777);
  (false,62000841844601795691783994814923512296691943135067105101462868504287358961151);
  (true,2822560607737298102750076982314337065989046747865154407955477286891142149082275641066956276624524326257384563437508731026784125553265624127002842491264192);
  (true,1332928119779460233850573409452109984496515504368806265026826911240178772234961325512007405133494514488740762165815089809586845291564492845464839793178831);
  (true,652690919158039052936756774091783769063028541678794408815778397587163523342250771827140655871982977672506147519663530046623299163740497758238618055569756);
  (false,41002500781452353215413895196045036446131263861463072608017652400050746961585);
  (false,61799186222366358452065171501726804975189477291113688109061576756438411097687);
  (false,93994577421824393254182444942727748016099506502421434075251816917984764389036);
  (true,94284380034563172336197354532024323914898058785241446006397139448619899618394065303804593235183765526078581198666406134226054317152288949528099824020016);
  (true,6783204653948949986995108753517251670459359879468759489243707242283357886307262898833066153656216293040619837179930451957402554468476047141388372592676784);
  (true,20848112020548121536808087676579675366453830984461369665825732501452665461645464412791194166055915745723893855505764593430024041983791071737180776966445);
  (false,111166457149648482461298417078479631473934716728688067784487639831824499941182);
  (true,1541133827529107069480957155767328528935519104202808567418557396082238099753478824871208691073328550130870932397759963885687942169405924747105586956710860);
  (true,2199244265171107144559172739494302995413615104998043290932157351300157073684372076697340188270746004707518721896453352534980359884915441160696880444733997);
  (true,5551478438992836446337120050645949752303760319995655123418652293706574279498344380188882026180972264450324505955691651626578152227302445837241338009017000);
  (false,5531346345491688243213382976540135331494096687860107006286139524401749482365);
  (false,32897236369712233830661707255317865811920799827217512164866240862969928626902);
  (false,103354164447149657691981868505833557460590039428444065174018514696618449180900);
  (true,295608849607777747147256099201059611552508182540581925859766097591285059731058728192056478273819155559949283437815356251925751514359892615449607927079215);
  (true,3253578690337466142808637774384308021167377777367774511150634942405969007468903815455263089941866341744395372209279715811175565945476681952937851850625);
  (false,38530610988563811931485967384498172087719145442538484635484102096258839693284);
  (false,2760643888095964229607767510270706641428130087058990059105351840694303829563);
  (false,16175338059016235181297208685077862273151148301593154306583591762660320726955);
  (false,115552071890652970105933666696821598861386465257732937397812012425117035566141);
  (true,4584463048721503083243530457338376673794232954194491621220968769654626576631394487268432617650987998021518460707216997924895591833776212459160995858915823);
  (true,161321056212234854328302693533628662443197504908978103669520656320804653927386223931537096815936491580043984947592377771850745241365420637305643637458566);
  (false,74402980729312311044624959652302046362795906705387209749890460272921365877866);
  (false,50611848887123767672914382284204705802355712340126796882650511531028478313100);
  (false,10228665210906971739415459456974542417115324229531422052111055608943629869611);
  (true,3991615444093802537535093876087265984770722963090512913133807563669326493600082621313152978158296931576167955007240630051985279870391618449516154018059007);
  (false,513793519470985711000523853635431247377325884515141174904859047017695255891);
  (true,3966663594143679546584974880587078770915778812226096058486911381852940493995095759399509454470789389130647317925105731608722001567296614169801476519290629);
  (false,5133815861921154193670191607513614344964767799250032102820368069512756638177);
  (false,33246688678783508313160041740598063589396055881176499692825993724301696226470);
  (false,70546046319791665141657507442038470868881577179369448266158088517218528126435);
  (true,633905399508653846762658247734317504431839642375156803334540346631315551200286649538953436484170745194435204977800681762695336551453598835428378330069602)]
  75882924931766611973272472284568680993272073599073922898565096152986752117873 prime_341948486974166000522343609283189 prime_107361793816595537 _ _ _ _); [discriminate|vm_cast_no_check (eq_refl true)..].
Qed.

Lemma prime_1224481 : prime 1224481.
Proof.
  change (prime (0x140021 - 0x15100)).
  refine (cert_prime1 _ _ 2551 1 2
  [(true,0); (true,0); (true,0); (true,0); (false,876); (false,981838); (false,7995); (false,279792); (false,383302)]
  [(true,0); (false,693726); (false,826625); (true,67291559655); (true,887633894987); (true,68525063361); (true,591948982505); (true,562364099514);
  (false,102843); (true,251874617604); (true,451954762932); (true,4288155178)]
  1100631 (prime_check_ok 2551 eq_refl) _ _); vm_cast_no_check (eq_refl true).
Qed.

Lemma prime_3797 : prime 3797.
Proof.
  change (prime (0x1015 - 0x140)).
  refine (cert_prime1 _ _ 73 1 2
  [(true,0); (true,0); (false,0); (true,2); (false,94); (false,123)]
  [(true,0); (false,3347); (false,116); (true,9046120); (false,516); (false,147); (true,1698492)]
  3357 (prime_check_ok 73 eq_refl) _ _); vm_cast_no_check (eq_refl true).
Qed.

Lemma prime_531581 : prime 531581.
Proof.
  change (prime (0x82081 - 0x404)).
  refine (cert_prime1 _ _ 3797 1 2
  [(true,0); (false,0); (false,0); (false,0); (true,0); (true,64636); (false,413525); (false,51140)]
  [(true,0); (true,63398422); (true,9805985886); (false,31545); (true,3281285449); (true,6204010370); (false,175330); (true,15066755327); (false,8882);
  (true,753456462); (false,162263); (true,3437088748)]
  50673 prime_3797 _ _); vm_cast_no_check (eq_refl true).
Qed.

Lemma prime_1257559732178653 : prime 1257559732178653.
Proof.
  change (prime (0x4800081201001 - 0x84210014124)).
  refine (cert_prime2 _ _ 1224481 531581 2 2
  [(true,0); (true,0); (true,0); (true,0); (false,0); (true,1833); (false,430775269143658); (false,263836722024486); (true,942896033992595);
  (true,181116246675894); (false,64848907248985); (true,190014004709076); (true,304029965240027); (false,151131391013581); (true,2401247018554694);
  (true,527405028378569); (true,790397939195312); (true,233424906598565); (true,309541422641966); (true,695016321608810); (true,994600928503958);
  (true,481949972592230); (false,130476759390420); (true,41763677816933); (false,167584930872783); (true,112625136301550); (true,841479736506588);
  (true,329716000445184); (false,41066581094208); (false,619966417070637)]
  [(true,0); (false,1247938151030746); (false,344534276059833); (true,91630605631483123017696327986); (false,6693690451687);
  (true,566608419941724350730714758993); (false,418073088558967); (true,518199621583951383318101643263); (false,87480621460393);
  (true,1125299921042283255515293151044); (true,55713820656996783247149438330); (true,329201059046405680650852126);
  (true,70742488958691832390704374575); (false,89744415130353); (false,362067294716949); (true,557107906854016703244341355337); (false,33098046042273);
  (false,639919385336520); (false,264439772185163); (false,97053745127857); (true,549874655092654553127965823803)]
  790900187493841
  [(true,0); (false,0); (false,0); (false,0); (true,0); (true,0); (false,938795); (true,1100759481586298); (false,850619598535320);
  (false,546292524668647); (false,802506941234211); (false,769194293284805); (false,29024414843316); (false,596195007210629); (false,73352453503857);
  (true,212554408536685); (true,2462991884792129); (false,76306218291486); (true,6918650661206); (false,1052561014711525); (true,1944458230039059);
  (true,637713295638712); (false,596381985619053); (true,641026680038741); (false,485305281558); (false,5053163242902); (false,488145105186710);
  (false,855371772495272); (true,2000492719067348); (true,654225224218967); (false,210334659241653); (false,910242507055400)]
  [(true,0); (false,1033143659547655); (false,1033389706031293); (false,29434860469345); (false,344345522391675); (false,234571036879296);
  (false,898920601745929); (true,1421088308622220692288232658784); (true,1341583370983014043506669486963); (true,1024232406806900545944750373131);
  (false,68725316284310); (false,577196500950127); (false,449888501215854); (true,149318516326049492650535803973); (true,60918815969427089003474689994);
  (true,394450489821397569827034878528); (true,33018811570381972592532594993); (true,1104793119634635685109328801631); (false,804230350312);
  (true,714324026228439112790236606883)]
  212927577457398 prime_1224481 prime_531581 _ _ _ _); [discriminate|vm_cast_no_check (eq_refl true)..].
Qed.

Lemma prime_4434155615661930479 : prime 4434155615661930479.
Proof.
  change (prime (0x4009490a10554000 - 0x280000002000811)).
  refine (cert_prime1 _ _ 1257559732178653 1 2
  [(true,0); (true,0); (false,0); (true,0); (true,0); (true,0); (false,292744397614004); (false,928038625432216325); (false,454092319897711611);
  (true,1216350757486632393); (true,2172984189602079512); (false,1726834767139209811)]
  [(true,0); (false,38988145685783810); (false,2168660459386835020); (false,709128946809304511); (true,123043929189083889921236507320897564);
  (true,3434103546013970114309344888970310); (true,1088618929458135994873350406977357248); (false,10337769381850986);
  (true,755287530166478129472901229593723614); (true,672886899432712675484076901955115354); (true,194879432248520151835142600438226049);
  (true,263786421043020305721528087955110423); (false,925161259330924683); (true,1161347916426948445583314730243001786);
  (true,1382656218511578420549839286421171); (true,1622379964921300815247878160440432123); (true,907467132491284966632620465153099204);
  (true,70066283345735162934026372660959722); (false,98401769852529808); (false,111101843477005418); (true,26889900836539451354280653533392860);
  (true,2446972713918594122750566532887324); (true,38149182233640991462798914089332079); (false,1410851453400278058); (false,260845990336196921);
  (false,1094403485901184250); (true,28547131428650498098419711496789271); (false,695058069263618765); (false,3763947446807398527);
  (false,3712280126777353989); (true,1217668983553426967515903860374584669); (true,1175206865765825099566485837163596104);
  (true,221074343502090553616403939125886470); (true,67149251507758845704267740485308151); (false,3437742625414003500);
  (true,19739123628676925341986390162421676); (true,144677840038609528776152294675560253); (false,2878683691154495391); (false,795920841955488090);
  (true,463537670482651446511278409914507371); (true,67813037233184597873774342696286322); (true,121638509316522334586178173619051423);
  (false,4348384103015511732); (true,107915313598816145199743658855795311); (true,8682658674603589206256131005683243); (false,4401185454543871089);
  (true,870109144602833881660094425616328399); (true,105323986758816742325499788305070603); (true,317964486771222524949729313693325780);
  (false,1438912276679212276); (true,1360507286289153684396277735482600449)]
  1010501025739283171 prime_1257559732178653 _ _); vm_cast_no_check (eq_refl true).
Qed.

Lemma prime_172054593956031949258510691 : prime 172054593956031949258510691.
Proof.
  change (prime (0x9052024248100a02005204 - 0x2000808000080082200a1)).
  refine (cert_prime1 _ _ 4434155615661930479 1 2
  [(true,0); (false,0); (false,0); (true,0); (false,0); (true,0); (false,0); (false,2073829677966472774); (false,5945665732273380560698350);
  (false,4896226848661359734432396); (false,2280509885969109424278951); (false,130790614921432972698007344); (false,114790229982582456155186612);
  (true,1006603734303181253662368); (false,82133495764408352887561335); (false,120989217545099543588439385); (true,94436102599833808036158834);
  (false,100166145001173924076201018); (true,51176512222759079539645847); (false,3113899218594167203600917); (true,326057616572731665733124296);
  (true,23169630943894914114272249); (true,9976283397491568503194961); (true,8789300974291271736830324); (true,151765893018544748163420371);
  (false,4877625889379437891713874)]
  [(true,0); (true,3202528698626214614222241440684805817675077310726632); (true,11238750482413283939773048719713712705013638358289638);
  (true,13418797772786643177678700232367013337893853777105572); (false,13552867836759487319478607);
  (true,1703650576141478352272442975352591774549697535015441); (true,11342904018791528282054862781550962772252869873305856);
  (false,121906496237014564497468923); (false,146996382167360070926361721); (false,36904083715818543859524362);
  (true,12067819410483390252188970846466886216954561063629619); (false,16041394422961108190086408); (false,381864230957890148886695);
  (true,9436297316502891426812466980170523160368124359251138); (false,60578967260846283519112747);
  (true,4171420576752200586765845584242689021731464238050824); (false,132690517624064099618900820); (false,169437686828596750329128291);
  (true,12909386372432314411296592688316255895044580903104815); (false,94573789497187853380165676); (false,30850070827488313313375146);
  (true,10895466938542389301261717753643995168901256844760424); (false,12956240839502961208240659); (false,131171193715746322205540787);
  (false,29155242803136539978118516); (false,18521094785632128904015690); (true,519601377459328388224995332738547839579441686768108);
  (false,1237051548284055817736735); (true,1578251798142350573131667889019661750354079040080766); (false,4999436828270092462559770);
  (false,9738765200344478370995770); (false,107886725007970029302043599); (false,40227903326724553618307186); (false,134139054390448042607113321);
  (true,6194953972491913203648922816405233269692568179324265); (true,5998984787636217997544487083653114565964301984794515);
  (true,3647781524438588163799649728967058778858907082066754); (false,85672394167575313349904186); (false,2119576812725669415305071);
  (true,1684540863861914839175835331362311921115431732550832); (false,39818262448998808579127328);
  (true,4278524160941772019058339853439519017321295316708); (false,20096979291331631176750995);
  (true,9691970434722682020008485893985734544008130783143116); (false,142259237929883036678961599);
  (true,183590307429544260416496018364319231824175269731686); (false,66527318387931958980525732); (false,1022727534333363426741381);
  (true,2199132751521249911753158958929625364371072470490828); (true,2744690977668409521368816329941294364039903718543287);
  (false,69983278023212704030163448); (true,7930991433635340246448491546570310865121301250383781);
  (true,2516265957775196976400877925939754069746750212800442); (true,3867919057286373488119356960666764797229202913302247);
  (true,2674794919930666268795207183696954585966758389536); (true,701814414091555399163242933813218708375872810748063);
  (true,161814497589706956337745820520803114784746428338916); (false,72081998967149083000320197);
  (true,4534923976848839077568791305497584459845009244191709); (true,330080645785463279931063630806487898492011416753004);
  (true,821279296025320075771218086910884135033709248691684); (true,2244365909887102122201919989889146645022954028415182)]
  154275350521713489305385904 prime_4434155615661930479 _ _); vm_cast_no_check (eq_refl true).
Qed.

Lemma prime_19757330305831588566944191468367130476339 : prime 19757330305831588566944191468367130476339.
Proof.
  change (prime (0x421004080101000a822001020004094044 - 0x80040a024100100280250504841000111)).
  refine (cert_prime1 _ _ 172054593956031949258510691 1 2
  [(true,0); (true,0); (false,0); (true,0); (false,0); (false,0); (false,0); (false,20821443634461049522097);
  (true,35582727951749561139672184478506847998237); (true,39370561574554687301581838168829004414486); (true,34560817969519434990886678306333903303987);
  (false,19293079453473215695698998085832837987456); (false,380288709916973613942502556697489333234); (false,16635008556631933400475953206080385080329);
  (false,17907292299602302366417758034714585391413); (false,14599048782307286849932576057763754948145); (true,971431682247644942009228690512624938726);
  (false,1370965788785077018286373018622158657); (true,5386059564595668639357184563906369756578); (true,1242683584051650149527848379523960869815);
  (false,2630382719010991443572685526520117421222); (false,837263356213712444687325741322744717274); (true,10310390982886396884317052184490097818554);
  (true,1586190821784979916441459249440682587843); (false,7666898685170038292600220041457734787029); (true,9173955458683166872136660192551249814696);
  (true,28948975113991476961760718558251605025304); (true,15843175350051321021271226685164880127904); (false,2659666646197729244138036022980969550938);
  (true,21863757744279512894159191721587587694155); (true,101390361674700917265942562400919592073); (false,1564287817366282619059731248455431668964);
  (true,29828781167515742964764306696043480635009); (true,4008982218049814191852102300302208068688); (true,2630930558861487594910332034193975035926);
  (false,1395691641171629548326246902906297595646); (false,6607785709320182381223143520816606648848); (true,13692663406152281510216047375549691483942);
  (true,20600812059806080197748111100446930957463); (true,34739126423856202892583423970774564569802); (false,19491737482358789991289569573383607547672);
  (true,7497011770619491644432398638029799801725); (false,7308585297401317084387724670572847442742); (false,1582728664036369908457436297281939119257);
  (true,87272670945330454374536224206744759772); (true,2930252104431852704621644124163911201887); (false,11899491259521033692969125360158426181743)]
  [(true,0); (false,4236391273298746611402238549188438187126); (false,15417173781568564210561653121962861287832);
  (false,11780722223464859236345281243913721838396); (true,23914678495631176530683180233808515760481829567725726754959064800917889572921789);
  (true,2880618940022205589938993020936569113318645978121619290626574817974189740284634);
  (true,2104962535135937389257877138023858473727640756870428227516082440095203944121413); (false,468109793402384656648378078025365294686);
  (false,820530829687286955125808394458178773849); (true,48402755104364973828090249673749648364557174103529106331698671473042417445408495);
  (false,4399234750277663199167485606072938565837); (true,152550215259864921127665363157372195766886824720559604400219009197433900221938092);
  (false,1057094676373851752617824375212565915078); (false,7795535237181309466171003130490948373257); (false,12622856591951353055207389033554592777106);
  (true,135437349396679775331440824263287129094495693311373175627198189142926473280564921);
  (true,20038861692025043376815242235220424157862136601949249738892228248145927538055974);
  (true,49720260875877714726770148403237644805352880840430400424828114449938134918916629);
  (true,111962354404847974296731912139066588380819499933210336920284031994886847312230449);
  (true,10275156250653703150038215010289588800786370623487268113586744021248393515161891);
  (true,94782272462271581987934549167658153975472384266615458470886519641375654935836063); (false,7354436331188238621826829290923741554165);
  (true,22783346928726721360541315125324749157911749401606087435498132809638342262); (false,4931989058680588953381910537073999790406);
  (false,14214409016230994624507171178327948943627); (false,482532095826435760931921599856373044293);
  (true,19492471446111656757208157406940767927091723985356810141475945482907083527655836);
  (true,2967954594336416788839329638240332645326380274010259997030542227012568895400560);
  (true,2769054398228757296096460346311574685827839874709352733014228884865968265834655); (false,4993238162968133089162321243434113761119);
  (true,36830238831451521884130230685462158811661820169037129571812172557777732813995704); (false,5011916988028368999698573958289977870373);
  (false,17808618264383130683507726946746393169489); (true,639073033560352172184487946447347847897616427332282839164933589245456836541668);
  (false,3611478674814019573345615334646401966279); (false,18689086940409309649784099619741173708430);
  (true,14139508597879075877109521127067745406036210126742753828042436931900168797764260); (false,658030946242726880537513252082518870244);
  (false,13646112116815933099821591760631044564084); (false,8962319446999477733431638706293949066303); (false,3536158237433519623361016102559509628825);
  (false,524608420669439197094801224653359505104); (false,12966120484392732332014891111197785093768); (false,14828245757208099178834165450987258904324);
  (true,81399144894246207357938501903554747054672487351883362760251607974081142371678264);
  (true,68909744189083552273018971824820027576238388619306479934372562082372849734166891);
  (true,129314570475897808707825821353951243897955425314250202435051729336681706762249860);
  (true,1232100247322877180151321931227549284161206374096187278701294895357579689424829);
  (true,85153118727775247615145062136170561537772046613196721876324061928323369038269101); (false,237961007739882917162343846677209072604);
  (false,73424507241340002115109568944033799744); (false,2354447830234052108946289938035055879621);
  (true,34700836221251768572539278254240809967535134119382079631130792534236807388636755); (false,15355420874713764203954725010286503912577);
  (false,235788386079596123584302662496265832264); (true,22214268188805912024436565814618284107976835721350595759255338899326142877654790);
  (true,31653776790685804334851508292256436318773185916658975239837769905523306715290504);
  (true,107450373833587463876084879706203720914867242812185942479458851896798625746260012);
  (true,143183985165540590427627508638656202223066254908346803537302719063998849086796271);
  (true,79206214265847153081336500248011042471987462105909742916025340726266670370029808);
  (true,28956223805732998022469548608799661022433209649949719096195193258526833057482203); (false,19075037432644823740488737407416326595733);
  (false,15395491376611376939038112018637165767184); (true,119087490950301967945222921491635258242178485573351478072274252735919705674197056);
  (true,6307144344780052361082765543841313190012278514303176066098753573260657656796448);
  (true,31508496003509578209359931665424445586715281219428429415522610040335572679649059); (false,2886368233999599754445450120898905115241);
  (true,25911313488320128961961275970054253124644074307130437273163216921701327451581962);
  (true,62026582962373555772538218230958743203524198045210349745247118731569910933161443);
  (true,131090537859719069050193897965456045458123779758191887069862758107289367100788536);
  (true,49864661224233295158886654454885377827006425068350341969792560116700788761388922); (false,8441841290075034788106197075579208363492);
  (false,3921974699088665985198002163900556784358); (true,104823057813143980776229343419637907832819611801827289371199640926400534918496048);
  (false,3748414049612424187842529392904439562857); (true,142425940945260719072947749589699566354513893903863890972049483798326958369615246);
  (false,19045844315879036247579492985711681105911); (false,18270808287322287326087914534497112628218);
  (false,10041633358580865940406532577607399350910); (true,833108014100570007928443124663922608489617174431973909292410459523888071340245);
  (false,649074474159834509435881065616635276471); (true,19663587016581771983473865393246192255211880721757656743113642502205548707808167);
  (true,54271292203943911181693436274654916523930957005472860541187514325617788602548056); (false,1116186655296276555875092427053869893770);
  (false,19714221638775835368057155291873208206769); (false,11785388429824274548871147654967716654131);
  (true,123870939243716849341515139651843372717419893003400965753107924184658600317695207);
  (true,168021714320776853500085529103270665198617891598375660167187750924268925263737129)]
  16371654433361644093796961727196399386194 prime_172054593956031949258510691 _ _); vm_cast_no_check (eq_refl true).
Qed.

Lemma prime_276602624281642239937218680557139826668747 : prime 276602624281642239937218680557139826668747.
Proof.
  change (prime (0x4410100001540029100202a0010aa820510 - 0x11424505200121000128080480400009045)).
  refine (cert_prime1 _ _ 19757330305831588566944191468367130476339 1 2
  [(true,0); (true,0); (true,0); (false,0)]
  [(true,0); (true,0); (true,0); (false,363097161594256583); (true,971173397698125370133517023934781403037534840);
  (false,163801594517078895452742343591837327292910); (false,88640453581202786044539279840987789484414);
  (false,5231678709735698669162930349942935788902); (false,189929919191973753448342369342910802228849);
  (false,104837896837418083797181255279412209498456); (true,1771915018531687263145073547478636593085275609);
  (true,21561194447956405660225579218521697315589901); (true,25555083378476358947918146552034708715709687);
  (true,2538108886039036412892212889277098333654893222); (true,858342877252157627541450488421374795317708697);
  (true,3315645438264839662002710245392161078308008844); (false,124574680760259051321085286824209396237895);
  (false,1952631185448635220546017909998970199086); (false,125461263117969112920739630217029924906186);
  (false,44223549631497797148830664353353080020855); (true,2649402819997752699550093001417625839542285316);
  (true,252278182838307107858673911089632374978698958); (false,73693044526883933548868922224786690580797);
  (true,299411991488472189750942302892264717759428548); (true,4211531460397924694401430282975163113787609417);
  (false,96960587908926479545478321153398959816869); (false,138997555322200457431858808482552263172865);
  (true,4314309962372506280955334888030920919365707822); (true,1484026982594457368361850046844764260234391425);
  (true,267405694277287587025610076210020776644873664); (true,2057085300572610268062254338845854478300971621);
  (true,1704179822393882816190979480664152317557134474); (false,5234917366630008644979915944392903503711);
  (true,1652364457125253458883032993420597907608024877); (true,487540972994630004118024416857187549500582372);
  (true,167318183941052096424843938288334383037959420); (false,85371378216641349739390380498900830136794);
  (false,139629509127226357126016143151406175465317); (true,3130195926059502241158636706232042951602662919);
  (true,2947815843672497219158436239889780901857078666); (true,2169520518941667890755634752955368984605318606);
  (true,95870880002973900347906622171708999291487809); (false,18496537685667828735865799137818552333283);
  (false,113523678084011253926276819441624867357644); (false,32597205395088213422390752958719246589226);
  (false,100048800190863979491208303827303741288127); (true,1960628906129964356924009297013959522740821102);
  (true,384221437510022840663225321995453012470419239); (true,136644731862370328500062854860433891573075976);
  (true,512093431840607436515001666045744950940633239); (true,722168471231620697862267274217501154107690739);
  (true,145876246979252782373920818724722461249253678); (true,1075156667280833244101413722174459357212321524);
  (true,188583140942605834995593200812651490193000274); (false,80757007169718614445655159218202654624669);
  (false,233772004497847936150341266316948410675301); (false,80747782096041599832063545892083566857947);
  (false,262736247732431046616153534247274042581798); (true,4268728775364488325844186954054891218112720142);
  (false,1419672743342964331782953157089332601957); (true,1901731937878727713721992357737510439737574198);
  (false,24550546842230121984477077021628486712742); (false,33565195949045488298404058598685433395086);
  (true,1826251933980770846585892453719634579485399712); (false,209724947398425641667988636390266337768472);
  (true,994087532785270596978883498889031435880272841); (true,75300234797605668118929732219851137542461448);
  (false,132063979832736710985907303527546684754606); (true,2169762510877804477310709529827774245098505311);
  (false,6493597842855624084503741333218917850750); (false,250614241141894641125155855430851603776919);
  (false,124119210578529517053081931473024691164169); (false,140048138457839346973488952920570924459745);
  (true,3617934350599277720647837821984098484987521794); (true,239226956902810460652351443734419514128409283);
  (true,1349017033180926299967474195569736435836904865); (false,53144124732693220430253911169392293332700);
  (true,3756278688731361386041812645250823388183759243); (true,1212745885226906515380278235037511298500407574);
  (false,10865605748425721599105139180916456658968); (true,875835277533292080175544175678536365439247555);
  (true,603037902784756837718007161101276306802080674); (false,71443185208543454119144706518019195906780);
  (false,29151352647992104918049081344336429093995); (false,108140737173093293796198827343241660565384);
  (false,263427447388250816929509491059946799754559); (true,44848391577618037176248176365350088045051579);
  (false,78741596003756710063986075840450997119879); (true,1082489317079295557005960368643167580283657305);
  (true,1420233228988920809240949747869238011837045819); (false,67274137264000431921219449723216333868445);
  (false,19206491478589697793799245435857141891388); (false,22747476438200439059184939626688318388009);
  (true,797420281532470283699689939857839738971702550); (true,587677936951368365496213053639733906881669934);
  (false,47959647113994689145556943025976440755389); (true,3684334900192091080394012612226865104173260928);
  (true,765400641420990915610499699679434806669125821); (false,122664752742076559112124551475102719); (true,250463296653865208918792050393030404054162);
  (true,23990763887900272355086129627869170499811007); (true,1977463586027456849019990802275175501844215022);
  (true,3007010230113347935880160461385711057562855460); (true,1429058184752584502056180597426371400216158953);
  (false,121256632685360723093317741606477367460994); (false,386927656401429335706808219237874068867);
  (false,53214761660521011622977230747148032592189); (false,37275137819936558703404039370929414418661);
  (true,1499997407126019090902550602124226956243499196); (true,3700782371438220783399269631855659804223141597);
  (false,13336451915951266473917107755378654049320); (false,17204462419377438813174512094079663329877);
  (false,28935361193280208248788258068804819748638); (false,41816618241987350208095912277862312801760);
  (true,4438576089022256545564121987867409774454542304); (false,176370598338572525333372744700440557681164);
  (false,228369504264493720143503771592434447789871); (true,3257782805658132757692499711424996697726952532);
  (false,222114894265742442920278419714248552256548); (false,66418619239990385262107662398243665684885);
  (true,423376713442179063663551214754383878292372309); (true,15176065066470819106966309857940575197807537);
  (true,1522142940357526273040003576995276709092850935); (true,3010933399990556894507227970516729194275260829);
  (true,1407666317198830727688133084649843704810815593); (true,766121293054233105847646410464602095189183357);
  (false,72048260532310654094190799696553284996349); (false,1571976575436633778117870794030611180460);
  (true,1290800169800474712629581049527496643826604982); (true,2559967888043982078464384648116746843048262700);
  (false,155804326275853435103536572961268077530838); (false,257583525633027705067681123853479943815982);
  (true,2831322742871133046898684935963697761013580961); (true,2710982320584375593624680288140527441180389149)]
  94074944912245044309966580483695483989395 prime_19757330305831588566944191468367130476339 _ _); vm_cast_no_check (eq_refl true).
Qed.

Lemma prime_r255Order : prime r255Order.
Proof.
  change (prime (0x1000000000000000000000000000000015000200a40021008012842281001401 - 0x2108220108842a28002108240a4014)).
  refine (cert_prime1 _ _ 276602624281642239937218680557139826668747 1 2
  [(true,0); (false,0); (true,0); (false,0); (false,0); (false,0); (false,0); (true,0); (false,1180591620717411303423);
  (false,7237005577332262148468490748552037267540307668870186080822129444820427749816);
  (true,1885178727098820731891406126137868713026169488819676955566191267336752566880);
  (true,4460460577519254000154614908083969709135982838162369233541486552158999531085);
  (true,9798051978343783278418794006374323176637583106976849570273957790464117555225);
  (true,3079285926757157112348630337259153364883490458613189682035007588027015500);
  (true,6440698711044238196006083390196071763307329586897214006752892749035185770768);
  (true,4015808991353794025805456034107131254746509694422359031679193343094062079076);
  (false,121519143698457150148402787929160464601486360567607496437357575251095675679);
  (true,340546737780875140957277988865173993670081434194262030407868215121144036916);
  (false,1793236243103340414126070225649795135369080081690096111000907629793505025084);
  (true,14032507260303563176004557654754349381931955484871945272408933305027973617221);
  (true,4823190705467234999394338508689652519680349197135289616417099307638095650067);
  (true,6414067089903716018112317678896853725554108106941448719186333943699451337391);
  (true,1853648032037993482985491965454657361362492081754614428946638017561741160485);
  (false,4925537360523802348250306482711578556825987725710529495005551291821681464755);
  (false,191066610328982834746374093136655894302694606187925785179162474035355085257);
  (false,1918499835427985255930231457452197729189608629537182893618618577797591965733);
  (true,2892387536320642112384223017198930762765384037206581019311523439023816467732);
  (true,9549429754520055131960380765470724592281089484241121278983265241186029103870);
  (true,561513373936313409693424753723187194364686415050592243573510094344263366101);
  (false,621363596808176124213104158369480103882669841277557863243014924301439452903);
  (true,68956922021728972828328363664171338397364267948926361589243183935354392276);
  (false,179378352939275221605994312316747492950830748011258065255282512451272883394);
  (true,571446051281846603771694712682937300422978772230449701382281028804101617363);
  (true,11898776945189261090664321418729136075871170743325382929581037304752511823372);
  (true,5632289803976943961003106586660494670250894835453614188121963895087236493936);
  (true,622172964032460344418415123350700241480958333980622394602105529853754808361);
  (true,3695947586200900850613370982578036464257833004624288601982471008508127944300);
  (false,3250769737430837463636531989155289931974283705300339131187315501167882311420);
  (false,5278714859490606982664642978658975420830951120585002706238739648488892265624);
  (false,1593702518527699478232578782661590362687633959821591661271486741547990292101);
  (true,257681491357204934276811710440032937427474894157729522812167972095556148292);
  (true,8951753408676055997249742015017472750534029412580808247230242563557375461704);
  (true,7086610988100792908111708729376358179334039848684525348466282375138274195489);
  (false,1574901285426116034546009205495524138297729754386896180622023468516931474427);
  (false,26248399910395354020782229867858275012688375227454362187330713354291711956);
  (true,728844423237576256126949266331969567460901013472727112701637209028715266716);
  (true,13453101740235604313388195151429361920676624341092816557807713326292334072381);
  (true,10549913004877828170252860095092308461713259234945751830982325708631525309849);
  (true,1316603054028902219659709382626905223888959408990419198957791577584368525680);
  (false,1150454081586262386348676895878636628212008360850242589283252171461166809912);
  (false,3658791868794606438832004976534700331706402582304141592319406032491091711080);
  (true,6217323356328337041474674632160684886678389410970444914180808830070529621421);
  (true,339001174717249313788311203890265002053550575734873993698767649857855571593);
  (false,4933410984810495884900883310532892374241443273171199011340747346120503123476);
  (false,4292283841332098468300782335984846195238332294480339033367574273681282083519);
  (false,197819584378172438452565870086241223158391154858942676408286465143828491188);
  (true,10880938874896461823792144563861036454692211580182722863094047534308246662354);
  (true,3732411867913047426365924351795883464567737315011569410738064252025153782146);
  (true,6457245958417372366001194853950713863080161269408558127184201731024032053401);
  (false,4419649073775282851911850544639413680037464361129072120896031457692106535651);
  (true,19719500401700784144134281928461317407200834184903825093541068967894846531);
  (true,941096321287818900916587196138551209470776194697025396617675943601202862807);
  (true,1412181814194358494587100763122910805962330748314243723759779138386028156934);
  (false,1070413730959455653525368758291795756660876345783129608640980765195155138145);
  (true,12499638431261810698812452328435659214846438316199187987049242515812781088223);
  (true,6117215757140382461339898880205785178930257707744760560318235920017045222249);
  (false,1055406577588106149488332422191575682362953718313826929550497532631790678098);
  (true,9099456950224613351501343530496318703265865408458829757398389044504788529671);
  (false,2115616133945088716176048083183160267073797868878887239833124768577836567285);
  (false,1472395895331971042961989665402837039929198251734146586546987691000124761101);
  (false,6003901465870679390730458512419635627139022350360233728578549963586878628690);
  (false,76386373446888563696907795802901235523895681745275726694886109721522686771);
  (false,1690196543236141280905447628689239788262711520194952425797987134721873849448);
  (true,2339371414156554099651294029161741178640034064068312991046030419168419693750);
  (false,1763620430272933119788907965765088727970825150503388170313453066208922855059);
  (false,414365743233742665779160911601057711009836395510202707265620284724117782459);
  (false,156410995667804080878366343374135399268399252916009773516485698474564425901);
  (true,13639879740992190010645851345888025210069091738539037970497213810322516157056);
  (true,502584573171755586175636180031254532439713387086661635273847157707658612378);
  (true,2557775399136614685756650177231176436260143753001454680005760522664008024564);
  (false,251178990077172473357949892755059379440916442029337427493208113508133250603);
  (true,11510601454946130659393985327075359750414287165349648193709161026119188815264);
  (false,2929292582547065039428247276158744096043704361985568080709066210623969999095);
  (false,87627377815189135763551196719921277597252160498296968966491051925211186307);
  (false,5302371019342069018214281194594999684423831177585825109857029367229435994749);
  (true,1060390124495875306015556980744839596331180510761281374897278720456210295189);
  (true,4304151056204095792070075949264881222076404282730890029562719515141449874345);
  (false,5896016387889827810156885668389368292044113528660142563938624360774503829329);
  (true,13040307785661176347061474003540761065321876473125413556810106556484710960363);
  (false,1883363356155802282691409421920283036301105847505899145632917045284290179410);
  (false,1209294805221729489259258784278661786725633062622095712627083604501905116778);
  (true,4079612751610509098788772396336034160423649206727600726528458891600480105355);
  (false,6808794005067893418001365792221646053845783182317500270155761809772783997243);
  (false,245498340487866880215618429837366470631266417091779108350769242608455356508);
  (false,5614238870948737033508195673741085500858327650494163497212370002494426763410);
  (true,2254186313146590005311853013043737433384862678416060796308844812876313550296);
  (true,2876194394410381150508890941726559727901239054776095394182853468771250503748);
  (false,1059179582302475562269853740525530299192733803870415800758982067796915118219);
  (false,4762683734647311768470264414843641555356801115116255477675990479296423951281);
  (true,519115386362396739297477638155513070313992154357650858724313797176979999);
  (false,204966443223482328464602730190048245463009713519627649140264438131951466846);
  (true,1320494856517329474994531784831322442856278673047879388745551819040063036);
  (false,1683049208251838519838532484307973073636472740648728926789370215163127538291);
  (true,2654517989881375270444887583620497943927314100240602025434359368794372299891);
  (false,27763502303565549735555363852485162495366731108471674319496440843172763);
  (true,4853250631136201477731363276670582356694521643197931199935271164776433530);
  (false,5783462129015891955269966291299480499029544717905330632872867950894482422534);
  (false,3635657979810006127563023890795605377791458167194151074125861847802556028610);
  (true,8230287715713717791909582339169995180231836778814793407235244644073753572734);
  (false,2481057857746939199964201523464926043590231971919656365295098640739305944251);
  (false,1249793947744797067928801553195984031559706199141510056794080934292803457998);
  (false,1754432258692898357239585418871764500034893269313110597920198388853503020434);
  (true,2888885002401442494253691067498378601972967660612107312190248928334413468972);
  (false,18507836594118180807166378055642526409990205611621147499734710271072611193);
  (false,1936176173352267343520497200905905078743049758970125478992980689367857384192)]
  [(true,0);
  (true,3640278286298253596247792437479906808634235450394172185440512107150028116120212562837071376339907497304611466337931008053982878118859538868760284909306);
  (false,1856286147202703521034691658378133180412219648999977872421384837026664486073);
  (false,1116541447138573496756244542216926257445550410337352191787132663081528161829);
  (true,10890702786682449096330045617320415939547620901534715162157878196049135343766652538552539739258639619210708132516373028169262205215937876569589902035323);
  (false,4869136380596723629135004668979497428744714294526662175829914325404308405951);
  (true,21172054836452887857810860806581274132875004894866424181669591090676203003875376719714675450757591484943458758754131344495805234149436076050605571698852);
  (true,3612410989283083291597337184715291910495607803500238396776660357559383593041552857160988931779013411648891060308694104703997368069725219937149756598606);
  (false,6530702796494380958036772092722183590660751575243958592314969107719368813924);
  (false,6721202369087294405032056121383726858328735707533238205183036337879283474008);
  (true,15843213750097627529216123778779899942590069284060670615559733314812734402507119172389046741110040870205746136775403909749783550970327098095693522854808);
  (true,10648866909416817463266575343646622302587423142257840331731479399856454166945170643559180565540131658984339879701733756014031033110083772567385947990465);
  (false,1921607463429967667809556145294639673072208594375451036803121489188086983621);
  (true,20945759582357231348859289171805652657923861404001200840442523382283573596550325800417063223403003690971496593161656571523133667776391377273927129958063);
  (true,2315455247926873486937520278540282510055411785801101160768372938128407492471015480718092658111539765794242622665698335082010236274743216487437414843731);
  (true,16871302184975645335048356287593428648304457911056855395164102391409682538122971674307018779006626383798788985051935601008077574748596110869200521114666);
  (false,3730851735695499161156490637513609263680659906795929367355643579423586477);
  (false,1171837837672005611047987902738947141008388906493256583163207695295041008655);
  (true,378943286280227182487612882350334062761944738417066543864509355318675117477309595439650039201084087706465024758348966597672186029868199833148148787432);
  (false,1220795812665738752155885365755814834380326718577345897402649771801243444300);
  (true,986985971498672922831788805882382338515968610128500927073281834026306194503370885762346773036146320800612548172158570312456167015513269301900337275751);
  (false,2864260648891947982711390605243575784521789788377565065203964152685569232708);
  (true,395432691765906460018003755696568768663856627653567968407848341774505843745231303816298544947289343351860922868469652582819815705770426961644073084);
  (true,2307797954653615460545943962385976253475842988576177280466878994426247218567769067428081221161071118519389950570971078892106087872738789274864643533612);
  (true,3849303605142812160942649179614913570678464758608218666313504038396123385710301802012543112024332492911563648801110086889981219460752051796064989347224);
  (true,19137505519210171259728229430090707733836644901837888911773187798952002578734973332608899885912012364313329463846556712151031821034526331599799659906373);
  (true,3134048916563367820107048626838522986395700022294175424451121532455585944547148034999568545993140785007519327820494995991422438576264159349938393521360);
  (false,755933679590923200887033011987710395872760216082926049791289029456494440696);
  (true,4344588191612358221796679473057901819774184860748652411866389010548636143416688849888574434498967540512795642953111040219717617648573957421271446179455);
  (false,131425882986506371543942433220121700446775961755452269854245865830429237934);
  (true,21504434710177025698360980556780983349632206878657273633746121086078053693859108593898464530810801088789504020726118577593577125361891095262104290368190);
  (true,738088723271091115528108065138540680573641436012578492377486088389678833027519921279031588685207704667283491758236433859730801170995848809897291986345);
  (true,6081540977743000601749259702221005121733107660710152256375268120434275325970512111028606250018959354387472442553223604197117247029624294219330943339340);
  (false,3155253459778601996912076142123649843035912347955642230564362537576529457652);
  (false,4135298359553468975073297255326008238741000191859994337324905737550950952932);
  (false,2036184623466834588207301016058619848368236779177303026559188444695860941584);
  (false,392637469913028535260627730986011382077298659467445801535194654383169889051);
  (true,825500061711308608257416965586972825252163970476108258837886360524635523271230791020513322806409927894677526813263511517137434573022515625351197073824);
  (false,716812601487722469902900389041882016895582883544412760554003577086253172289);
  (true,20836875502734490538616539113508447293565530635127401309712190939116447571734312053933220940312487988021682556532847305929054323768979609760821685848446);
  (false,5200112317338540982636670031215766069954188795339230590273917206478165979241);
  (true,11672846401076975277871088610673925800478946993168237787935673640354265823512479913257488914652403559280645480585117192520672423100935251274230676739583);
  (false,3549226212270068182703716758984459870079339640861338349672047624635202732240);
  (false,408072970822675715363920531931217984721970428692002349462506451863086918317);
  (true,19504700037029163548704398669615766850409078121165660959366230304784263732294308131047933860834400460335196225692802237609044558414436409154089290826812);
  (false,4219541877838082121441762594916122368405195940579732129189064588038712902622);
  (true,40356452314423706170182315221585238577503519426112407587780169844349253612189008836378953843200505492763215197656673744464292688486362008050642162970);
  (true,6682926522878648716367713229397941528641835863843908746346637211984158855257627686505296191009804516823022541642126625024551847003353721364837683516689);
  (false,6308009016525761942086344059659889438885383896634588053859806720120039198078);
  (true,2892191047459677968978116647543911282916156625131742423078131275619244991158912715460377841274317735162708006538094056848994975831717226285848506836582);
  (true,87939928160729826544889993695735403487455655629889522174987398636925809049023063170942526919467191230791281418812179905679283164158624282782765915001);
  (true,490398512917026314196746093747074048749251575573200128775499240797536958270891351928366467070167302517956806079668689114227254612447074130551660956969);
  (true,12085196672520754636301602048004374641747066730122805917535041690017298707626262382363047274319697630251811482661881713160298473017755364402389114613551);
  (true,4355945516218019955516607569560343462082103015014944004590393077726736204047876892822755154982894590096597767880677882633501780681845531136302596491104);
  (false,232278544037743409402633742741489526635506798776761523179340927855640745345);
  (false,3306378403655771368570170992535554617725090283218582325744078367960317885041);
  (true,7625237211259270968039107882933435136491027408740752917221662249491553837448063362445285058368783580429643203007205898228456833137242002607097954611635);
  (false,901975484280853420466659436785117227143916469076913563689415826842162770529);
  (true,725145196381785255418787024655717930150630489480855585175308570085992035339952375640070313421940328995939980439146087849323510198371854688625693891064);
  (false,7033192208788082952306392398647388026080624450322344746904632466219176001430);
  (false,4911033516764961113266410286131799797759606495754713068019023056507557161);
  (true,14560504766701766813413446357420746401098056956947832955225496717899159268880410251109264895216149479941630192971859471412464698033093214019198387891367);
  (false,23435122679320949360032882842855799009646141289690389997686380518512558229);
  (false,7000093461886419640176658148028078817316447188587050307166264379662373591808);
  (false,2199784689600125831495361533266038260089526768351229912636378657013665269311);
  (false,1683389329714183580856839896279892454157958933544997528472817327112424247733);
  (true,13754245910108578042117510921044766836459187991915344384723589402650946805855800481647792405088757563761969159457885343953807343688477342279164863634182);
  (true,14113449997263841456967860064831315956121864293689062166716391118804931740792638422529667368804677982988947314451086502526549742303736117761634380961071);
  (true,338566697317995090829210634025674648535950759946126470171122332798748547651841230181212362780047103114597907929381981334307589726446128126751158258062);
  (false,162381274001170965000799845407059922472698293384654856034619275644273123);
  (true,1127010252198077260361021995093033466620588859181652141131709008355114263522861693682436527123029868276243203413571630840792843295624184273296248416072);
  (true,5029944381550753587350503325201773493154108698545790711035874335465235735497618107459249979732325198949631819175628340960782347435290845162194367459399);
  (false,78463475043923782534844077036689421531659785746239363313539174710944100870);
  (true,4176873532825916610247209570253870138847066701954560776077285029781000126307670656622966577021276751957419905045902131657900092271066248111803307831482);
  (true,9530288111085530669134636059747149845019969689151698395125890214734997003330166313164950526960605708153857113224099180911014470187598307835842151905401);
  (false,2601643953146822065534255971417295554936534287828202089982707621368655699635);
  (false,4806331542610083820294542803007300119364608280262223087347577218968103422828);
  (true,3773826863455597523735516152703200548088429072483790558938978149617271129194507320125625581023188297049757440693914198791292714305940558697553353989678);
  (true,8713373568737933913425928148211353893801068610178117764891395805187073439872187030892673847797998661232351923425118751304017112853422210670233003520);
  (true,247746807887619163259588029673299199715684476124586530389113232285202400110877165984075033359953856461577878011117341739565673538085398670300166713833);
  (true,16526382340777774489422781960446001754606593942420190489736817768147053543356058998798809381907147739232746994974153956550279503333801621201336721546778);
  (true,14438835786651128560830980129000450708367221883114839826763714154484617849416355259623638082471674142631992080547167730541230934433430412171104242156753);
  (true,1098772011764950821265192212267570692472387756384567700559486170692881707649178916100642447795782124818843572664614238384343029612775791855801754613414);
  (false,227818650220237476474932432871507340573256914757070800796703889768355180757);
  (true,9964553719095993839373994228753665418807751249015856353979265585935066009391458339439417680977137465143556486138944467043561333182010351792424649699886);
  (false,1115904923750968676757609721206614093961895383549915991110743907962918343654);
  (true,14858496424520320931672505180281137092391437861447821310860173631674516678052936045741917403722375791690456702834274820561247669814793089007079206305863);
  (false,43987384000690358115295820233127612029959401859484029928307500708485305927);
  (false,663714775461865693589859064882312661038088246100156288787954061756344261347);
  (true,5227413754220620859404137343637418581903047494335510250007894257350455445230936970195712804863753561230556614559656355546260609653368841508175005547);
  (true,66092432524254107223958103379910457187278284701128349490225841990996533164006091912824804003285919421406281339132934299188612666425462460830535814894);
  (false,3668434888821424615769565064967887932506987442403155565906095170844044547799);
  (true,8441724636701542145158691663530686031647360124084511958649389079484592079781774780930868357082106372792324687788313050687853337688606581575376526703010);
  (true,12589148810304225672154127181434229133789637938173577216518609937279210802156325781108787106934951548356262654931078832042258184651458355821228947524333);
  (true,19589216586121889223116568618147053441009965252131140155150252160364849839198697538768262961369813681838178730613903524729262868189036633044870425087624);
  (false,2025345983609897847431867966520685433503362266568876651933242385341722155066);
  (false,213565599654751964309269431024550137844597512956908796027986471929634488461);
  (false,353567306279545881068960754961806232935018973220824130962068308253273561753);
  (false,1201950210391243580314786332575322805837079904720168831627650435218909882187);
  (false,3319694814746175231177657945279081277758448209010645936447652082816322285667);
  (false,624188804944949486659628520052471236117362367496213899493063456861430036);
  (false,3244303460326191365174734838489984489350432809122442799626763639539763437289);
  (true,3802939831725542967877127677553963340298990197994955120656476992579286500244819634130241195748271216939822819728853415571207935172503423715326105530099);
  (true,3306957564149380507351201906087539195010542471080686142841923672248702967750829135299283588931853646261302733796362559903941090472029928103538484519969);
  (false,1403600772300434067651331196903265546646486090538217246660418379142847340065);
  (false,5978130955601478783350093657266379622103444457909005093930741886587625001864);
  (true,2370711373187406495300147091906970470967028989271606107026520444965553880277292797161836725517089561473961626164721059033963142042300631620278171095316);
  (false,5233621513625983521000447087253254346433962791098202422540445776612972272235);
  (true,607027450759336135942175893277354047887585812068077575273394937245492215395030602621513001173907785223606233129811348862515341096594472547499075671611);
  (false,2470636584016230770986975666986549136313990552616330985476267005807380263656);
  (true,992733997926371761808995495868374705067620139863736865542413030083596360057366598386887702973338940887260913940779584037091731887226656484472597163016);
  (false,533269740462918414358978448761478375767783079223030433681294045046662561746);
  (true,1539241862584189541214324222227973533582928890180484983230215572924183093708771861934964209225085462924626073554779257484248582487766821027132693658296);
  (false,4035238093240688757490506925442918209422568978588489427198800436358936909177);
  (true,15457327154931038010448535721208590193569282096195178165815495751547130464954912754051473726702690353302056910080813293679040410734776357622645290358760);
  (false,1147881349716991231887518784090801767248277123871736499868452187191129614917);
  (false,944847255702453138801855289985086600956375867374703496239383793673596996);
  (false,1006235325650259946655448096362251267286747286524007187597433413675101520515);
  (false,2005255856234549515034305136219826217657032534715044157850183821699941420611);
  (false,4993809532328126882956497807537129409706806174203812216103159017646536635907);
  (false,1338953585564126970176207371512957167638718721556232504637384575879589283011);
  (true,10731575142071980246785818885765479295793088366921246470112279844703487026167159400162673091139282571403075684096231704828322297313428100575022385074679);
  (false,2275131161070513957636305505667115368575773246239771793642918876077463822925);
  (true,1390700436714763840561862574322570810759811994344022662488079794575730450618268842591516026967532579173067817524306864553450220308843900637735939473416);
  (true,2278540635830570009210243309851800232858363882971397029430645280497757511248130640385351191537421358414393613041928367918510931213212428381317585911706);
  (true,9952601088197396210518766457482308508881521659526263240074542021681518619415685511282995453494410942159019200308786423780559248205512335151407885405624);
  (false,6909644799187711837033311224625183244956172886381278218875354076725916122253);
  (true,20337971851045922836156526432154519375611159891598897236296358886964166737396409778263244393520847506975656767196148037711167908197623978162683312964511);
  (false,79055331879187261091625398311235219050493237426898181612269428247626166554);
  (false,6421677783251102935587331043824533250787522236349206071844726029880569359135);
  (true,133453198594504719946191111677341118319236909353429833552627781492521598421718613791043509986436951369709954410875360033321879420595335250726957168700);
  (true,13015701971344899486578992924752264449306490577734805771138139006597337818564807934527484712162828159016312447853969780343592160237646753148643879202429);
  (false,1948098209476901246078112880231140588645122737065704820849403535937283519705);
  (false,760933587440885121113167154250681117627777318943987482296345740896948168551);
  (true,20897546002742212285605648483689833876790282998297207700858896130133337664593093754409614068636336381867952797263572059971504718077386055594373810083934);
  (false,66589938648558040103527670392804443900014007710180134158821716605869205);
  (true,16083407080335838112224911244507411192544855838960043704036740707933901769296725694161486650345642261245784214741709892335170492352625606014354124532305);
  (true,11748018269565658580246535508333329489214446459900040966706930618201950472074495775684417404932863331860537748047404877079058312146907248087203075251816)]
  2233364593245673852815932892735013076939656528578070433728021143254617821614 prime_276602624281642239937218680557139826668747 _ _); vm_cast_no_check (eq_refl true).
Qed.

Lemma prime_272109983 : prime 272109983.
Proof.
  change (prime (0x10401220 - 0x80081)).
  refine (cert_prime2 _ _ 233 73 2 2
  [(true,0); (false,0); (false,0); (false,0); (true,0); (true,126); (true,40118555); (false,142167658); (true,1404481); (false,24901427);
  (false,41575126); (false,39887524); (true,342747684); (true,14576892); (true,140026365); (true,253721621); (false,49466533); (true,135553643);
  (true,23274554); (true,337848835); (false,60870309)]
  [(true,0); (true,34874230924151340); (true,12207419212479859); (false,52054377); (true,4451148638516268); (false,100648476); (false,716723);
  (true,9370975582693603)]
  163678795
  [(true,0); (true,0); (true,0); (false,0); (false,0); (false,264810549); (true,19355865); (true,72235726); (true,149879396); (false,38527278);
  (false,243514643); (false,807301); (false,88864193); (false,825567); (true,33718758); (false,67640932); (true,513812000); (false,83615807);
  (true,114732574); (true,9316); (true,118293601); (false,18942202)]
  [(true,0); (false,200440096); (false,167359781); (true,1940690536483402); (false,103); (false,265177832); (true,20666700500067718)]
  43510825 (prime_check_ok 233 eq_refl) (prime_check_ok 73 eq_refl) _ _ _ _); [discriminate|vm_cast_no_check (eq_refl true)..].
Qed.

Lemma prime_228572385721 : prime 228572385721.
Proof.
  change (prime (0x4540021201 - 0x1008084048)).
  refine (cert_prime1 _ _ 272109983 1 2
  [(true,0); (true,0); (false,0); (true,0); (false,0); (false,19703); (true,12576169760); (false,4098590959); (false,4839664451); (false,95825295561)]
  [(true,0); (false,227926140579); (false,154230693618); (false,117141206089); (false,43424275462); (false,98950240774); (false,38324378789);
  (true,22351034594231750455263); (true,50361284418745475316697); (true,11051527441742212245797); (false,96949111268); (false,4384206279);
  (false,10460646182); (false,12853644123); (false,6207918721); (false,73767879848); (true,46026969040482916458456); (false,32198380897);
  (false,13910006131); (false,138370337015); (true,13280156956963682881650); (true,9809049281121279278247); (false,36571866915); (false,81199384969);
  (true,29861894445688000104609); (true,17773078440139172571208); (true,33645523937096821014752); (true,1420726005842862051599);
  (true,2309494944960799443879)]
  195783320097 prime_272109983 _ _); vm_cast_no_check (eq_refl true).
Qed.

Lemma prime_23314383343543 : prime 23314383343543.
Proof.
  change (prime (0x1544500a1000 - 0x1002808049)).
  refine (cert_prime1 _ _ 228572385721 1 2
  [(true,0); (true,0); (false,0); (false,0); (true,0); (true,96); (false,7955497013545)]
  [(true,0); (true,361564265074442416795654657); (false,22230959449729); (true,309792230823211311674672021); (false,3039151179127);
  (true,17236708321245831200535241); (false,7822410996778); (false,492422817452); (true,111699885636844110247200598);
  (true,343095062781313756873930512); (false,624620620781); (true,106822052711585779703166068); (true,166157571856649245385803802);
  (true,80456413636458488477592730); (true,271994508758727442921759280); (true,368683005907228813043143767); (true,446709416871923489244941115);
  (true,96427122045192253019322263); (true,24515744024826686959217900); (false,1996161737583); (false,18774263116416);
  (true,371590166064864335956601997); (true,147243586905617045299052356); (true,212406376821116013074003977); (false,4858432386107);
  (true,5136566383449975286254758); (false,3565723369060); (false,8932550081977); (false,22897151689686); (true,457215834630199090898105702);
  (true,457909438763297190037630453); (false,20283589232461); (true,285287543712928720309667765); (true,75619993375521797228871299);
  (true,3976782237503347433652280); (false,1761293817769); (false,6165064989); (true,81200640584414960760994688)]
  1293503794781 prime_228572385721 _ _); vm_cast_no_check (eq_refl true).
Qed.

Lemma prime_426632512014427833817 : prime 426632512014427833817.
Proof.
  change (prime (0x202100294800904801 - 0x90049000004050228)).
  refine (cert_prime1 _ _ 23314383343543 1 2
  [(true,0); (false,0); (false,0); (false,0); (true,0); (false,0); (true,1); (true,125567904323345398956); (true,279696824570331121940);
  (false,70442258862278848408); (false,123460462814173407592); (true,323402427648212168479); (true,276641404987783043068); (true,159181501844692272786);
  (false,151105286002966036305); (false,110666976667499819561); (false,174982639310823832244); (true,54275820794244947054);
  (true,592549583182288044029); (true,412737012414038572023); (false,31367415182155236263); (true,739701512707483052530); (false,367047787275882495894);
  (false,4321018780303794694); (false,1239595056602732724)]
  [(true,0); (false,6825007236148959877); (true,14639774815868400488886571548689885658724); (false,11229792049270796892);
  (true,19724687913159682129950750086179818705243); (false,25216217361923946194); (false,6257256762465398030);
  (true,13581157426164795213521527659167216690967); (true,19300590164298486507562422113046468338312); (false,65000969617250826069);
  (true,2514691911933644151380442124542857105043); (false,418118420232457429037); (false,175549559570374213984); (false,40920857704657085570);
  (true,2606296545857863997326415987876440652856); (false,1463990943767555797); (false,147473871505956459936);
  (true,21083875630320205563162400671709573670423); (true,6848669489770988417873510550126990816175); (false,28792364919406583418);
  (true,4622120911204354863747826479824295742546); (true,5450276377420181429555914254467672428092); (false,333890300177293777471);
  (false,119852602455580217); (false,129453352034451253657); (true,10179015105667056413961907164409268568805); (false,172762016449547669058);
  (false,7801010029698482496); (true,3734314741997184949898380830447808588552); (true,6115333293245380206886964061216768855464);
  (false,98837152917775832296); (false,274868243807004911774); (false,246962278588437961549); (true,116463755524813836312659327370682611839);
  (true,822975800551360586087777222781829888845); (true,229150578787972535475032533256185688561); (true,542622125926566362415578495109460942097);
  (true,8872368037924145025636079525976476226); (false,7502605658999675); (true,143183044870937099677973314066256969219);
  (true,431984897923758101780913356850137091750); (false,64555161709911792657); (true,6241681303312138480577918659997937953258);
  (true,8068369658375029031337561815253011541052); (true,4081564257061390822174945548753905821847)]
  62814440624553491211 prime_23314383343543 _ _); vm_cast_no_check (eq_refl true).
Qed.

Lemma prime_1495199339761412565498084319 : prime 1495199339761412565498084319.
Proof.
  change (prime (0x5151108a020012025144000 - 0x4044420088280080400421)).
  refine (cert_prime1 _ _ 426632512014427833817 1 2
  [(true,0); (true,0); (false,0); (true,0); (false,0); (true,0); (false,54260); (true,19987181629747847220691843); (true,542770787554853880961387678);
  (true,381363003253041539918338451); (true,2861604909504955447028606702); (false,573151480381670591142196994); (true,356691792942804792913743);
  (false,486641014301669819906595093); (false,911978152836387233766659801); (false,47455923106966370900077396); (false,178582056693019911775773792);
  (false,142763041549042640153916137); (true,1840201223153910228870078502); (true,293766276711602983769985511); (true,910342742270902678249420716);
  (false,482513436598408527024102031)]
  [(true,0); (false,375157274184284899254501971); (true,128190570850291172612646801916407607872820421575636255);
  (true,22713917701662275238859361089211938572305217217553056); (true,202714705905003725971722853185428616091824680904923570);
  (false,3852497070498081692765053); (false,1337250338024827542617300725); (true,610696037441616361506132374676547371957605950144972137);
  (false,490681823953671047864304852); (false,874525412364426946113148885); (false,440019954264844516560899501); (false,324527149428754123188259904);
  (false,632124630386120100078284439); (true,545272049712176744420881441988164213670000020711371539); (false,1321415792018223786595057965);
  (true,107008884575476744000794031305020923190497135516972298); (true,144875889298147544092081929662961411327249677454424914);
  (false,389927922823312721850260134); (true,530345638166203847738863341154552725772468560045143615);
  (true,1028149817576760863583562093204528055288761303588520271); (true,64586647259566530097746433835691305652925007371728277);
  (false,246134517899907371733939065); (false,332457484358281617301367681); (true,911330427822019126658352866386704296186400589529019660);
  (false,1202553234049908629642866291); (true,52467279635148571540025307857845023562517781809739972); (false,1449250483684067814505687922);
  (false,679694574806241819793748); (true,156525337019724855175767832592927715247000918309799544); (false,292774575284740803049010871);
  (true,49176030147937889046687429066188323623324717857202261); (false,288516027868761125199124651); (false,237172526200200867679371010);
  (false,151231758433665387807569094); (true,188771356547665117914826644215515268627871930307825725);
  (true,69332141648525621550114887839961433861474234499979166); (true,17657027790080967651820115416899142711245615146052549);
  (true,186580077791823216044883356173099739340840469187444); (true,955213097905110321031830413789864599802938876651452942);
  (true,3352564221199831588210160014983411377594652149310117); (true,25750678483566375065389659063614582178183088569112136);
  (true,16772113499345296660936826344760567950520735510785213); (true,66256074234473357648594301426037099600744533781748124);
  (false,876168691767259263755330303); (false,303358870699518227307922295); (true,3039527597217457505541284254506396623818313904315627);
  (false,120249668723041917750457224); (false,157343651901883149507528739); (false,468151947210961922683541065);
  (true,466864527506353880899591169251680376185904934987669252); (false,4005592728367175721903441);
  (true,70756073903667688158085937312871008868554664449343932); (true,651750776321287101471482365974700661758115480087880740);
  (false,747311123902629158233809389); (true,382089238084614095979834903327663620379259965142422736); (false,707417223737228438200540441);
  (false,556098312131446845488584800); (false,1162078190457753168170202827); (true,884528901244351190667593967267524426856269793026844684);
  (false,101337935979765201537858057); (true,32232980271333506450185377121881419088599376134060003);
  (true,681273653560396943683985065738898483853018059411506020); (true,443240188868061087801743599107217447153354443677864984);
  (false,170845489865287188153064138); (true,83552172754955175577525204645502335078667457238421576);
  (true,606226809004942059399665508118386711503463123297910389); (false,107895842729028848016548526); (false,1241875376960710624254176531);
  (true,735273209697929472257829717195583312388713579384411934)]
  166870529054719175605931730 prime_426632512014427833817 _ _); vm_cast_no_check (eq_refl true).
Qed.

Lemma prime_17942392077136950785977011829 : prime 17942392077136950785977011829.
Proof.
  change (prime (0x420221500020400002041085 - 0x80888008502128448114210)).
  refine (cert_prime1 _ _ 1495199339761412565498084319 1 2
  [(true,0); (true,0); (false,0); (false,0)]
  [(true,0); (false,0); (false,0); (true,18086); (true,35388061338851145795734977839358); (false,13771854586655670655155992156);
  (true,29849373529144205943219948495788); (false,47159346827701473677700657); (true,43064334643807628311189628891961);
  (false,12171328461597712526899353592); (false,10302894408351869461134650341); (true,15690624294252516714803551875);
  (true,35702028414903414656256062621007); (false,495355684226671811189441403); (false,1560794175592140575856341560);
  (true,2465471872454715626998773443544); (true,36793928892703162980497530058111); (false,15330552807416599903748560618);
  (false,1786291530539475605522526140); (true,3441805845964396154524960476116); (true,29219926407847285563780002715931);
  (false,10894088172714091979292586266); (false,154777207109140031177696541); (false,10826756984253851798471615808);
  (true,58304370839963251883166426543330); (true,69108413514706932509495998831242); (false,3556988427910186195651469075);
  (true,702739119781215518699141990035); (false,17903228848642364153453592220); (false,12796963571250685457381751800);
  (true,24409510966868394792010958983440); (true,1347317897338662966104501633273); (true,58007982037263885022449120654290);
  (true,71072748789970790485436906144541); (true,46521248254366527593282032299164); (true,48086055721506276648720622587631);
  (false,16644748803546032222765075035); (false,3211792546233559591684984006); (true,68124371563407930599645099186581);
  (false,4095513166406761965264936208); (true,19161898274418772742754871896986); (true,32146235509374367771613176888997);
  (true,45746957849772895697095233569553); (true,20337156626812877455818267482012); (true,13916471731996322237500728821805);
  (false,2629855736764778454266059079); (true,17329497735612226588214824904205); (true,563276566250255530312276381326);
  (false,13855554349794081022669240506); (false,1214123305701397691606468472); (true,71183356736553910488395338889410);
  (false,8864015687858126198702513592); (false,4127449694167980624082672857); (false,17397417526207142374415342711);
  (true,49234164570738398894619376635523); (true,60695473481128509067166157493532); (true,41019555584892702660358166747);
  (true,19220157210293324574265145016798); (true,2465638027269019420376200127092); (true,33787712473429183125051955889620);
  (false,2061924479944775311184311019); (true,36459674476537131911918416726121); (false,16687326087211630532860721766);
  (false,5070571993890104675142416012); (true,49568893539179975128132577330602); (false,2023791777213571481625064407);
  (false,4211760403302206141285884309); (true,52353956388068924467591804784870); (true,55656348650333039192368510203021);
  (false,5694638962170666727552414107); (true,39991448329812060363485167676502); (false,8266669796388946835359052266);
  (true,392469611143777320800247176596); (false,8623753577816527078053056010); (false,15192228121234262155317545168);
  (false,9249214602866514418140376249); (false,8555919941040042772442048122); (true,39206923080912057312442949218090);
  (true,21291663225879220985840058126314); (true,867006856871788078511537077191); (false,7896511397887728600889091019);
  (true,65825572306995376502460306056176); (true,30472063405492908030708122680336); (true,4417192942138970527490833331131);
  (true,6214226812177302029589278083666); (false,7704149142765294621115978804); (true,1606110388351282222004040000366);
  (true,9063938656435915713365003052124); (true,69302677117275021546157485590933); (true,164575708558242525909735024711);
  (true,15089551736872175611006666948131)]
  2808564913661730269550980362 prime_1495199339761412565498084319 _ _); vm_cast_no_check (eq_refl true).
Qed.

Lemma prime_1059392654943455286185473617842338478315215895509773412096307 : prime 1059392654943455286185473617842338478315215895509773412096307.
Proof.
  change (prime (0xa9080008440500002040a20a48002411014001240104028144 - 0x42a0a200802902000400a0022900845412a0008421082811)).
  refine (cert_prime2 _ _ 17942392077136950785977011829 251 2 2
  [(true,0); (false,0); (true,0); (true,0); (true,0); (false,0); (true,0); (false,0); (false,9080325764156884137649825520527604976733326038712437);
  (true,272157272382087979154928036907256929091984224607716265347811); (false,519393213760770226308833728773320808891183417962458680221508);
  (false,965459248068045779821506297007752198285713360543119865124634); (true,1818494889378084955097945410659938948520127935839032526506276);
  (true,667598155955835925875908531465321512213137284968171885450181); (true,84019241946309510880451291624656774499414710129083704041193);
  (true,617311587932647520658168852293561510992646374137981776292328); (false,18833295335319364761026019662849334698089303982481564700453);
  (true,847869593284502747446592742243346228483369806966829760836037); (true,349316155914408711160045151449742820595858202308876660339662);
  (true,1943899266211783906441356153099542052120995429466197780906274); (false,317557264965931495674813471195829126128837573648094175347873);
  (true,985999265430878196169307125652096663159889763499781929609942); (false,546238794399997037854001779117470403838772404469441116941444);
  (false,361972547496058969682112615366784167366063853644740880914654); (true,1096076786146080218238654166510570289067412665601113660684822);
  (false,583988297187185379916589986299868015664591647451563623479278); (true,303874237130375237519443974305988155889022734313617486872702);
  (true,182030014178334567279436979731784880007502586117053509751545); (true,76462685524698904856010643821436587433600546972006759369505);
  (false,431188732594900243382170454009162109805895778603793796032135); (true,1308328983632897404007151205326900849700546989373300883530206);
  (true,79088511332964472664936235117626745703734622328852678355726); (false,156331870730796079182217460162983410343976632790508701959021);
  (true,184271663069405035947512640434789780735327135427940223378077); (false,69828578897200388721347321661265815620644638009669152431996);
  (false,68520165180147796177322738460318243389243201815136148277546); (false,397382659942897043244320662254199722473363192728942406214282);
  (false,495043079924991992461115712210968954661608116922868739816063); (true,2042234297439332285642146214303152843789534046648722042668028);
  (false,82793445564229793144113475607389507273064969189691954100687); (true,303469942867903660238575126544070659584967693385306546511);
  (false,462670193683413857021080124878272435646620221448028054977555); (true,524636478064973266026189109936425629359562629683826948405770);
  (true,9277278144624409506196068267004972516497287812583105048166); (false,175735335055862131128624537290697866811052446896117918739749);
  (true,266330744564407016398300993339293642058804338851327333759691); (false,446778223841066748874520116887617169449101051780831068792112);
  (false,412719287490428287589173313360562499890557807331846460004034); (true,923337073508867659107606796498680848995254298234447254394375);
  (true,12431867835978294047602774895923446723391006342750499582340); (false,710878416410214962607307416671306331336091325790610115814127);
  (false,321956580085390315129248829962769382740163771525456024088648); (false,359893394183959093713771007343677226208115699622673932840497);
  (true,292801596660746072140701580459640336396460175962286692868942); (false,722245560945900017829255250187234157380386081919495688414884);
  (false,60603510009009347225356692322916767435040002001056549956196); (true,246051222605519063975158907554325385366912678755591372352197);
  (false,915469505675680190065488207142467494099050264900244467924185); (false,500034084464901252066257430924123329235569133092827761822694);
  (true,1526216424113625912169602400508195368919297355227036817895975); (false,932912552940299579452526426893212801330055227096679612251512);
  (true,443875557652529636683338348934295226624743594982740991056232); (false,129525509073771567513616556529067874186231433940148011083838);
  (false,435631670183843616697730428408718765993700761923651933497746); (false,12922011199768257608718869023801268300377077334215591141317);
  (true,144383842207796086311484440785046147071335379860358683627171); (true,231487248510217749897862720274680400389765076474718499828918);
  (false,55026279701387452157083919816787399074441841875852099682156); (false,983264245506900785512923707870128316038753529924536526245663);
  (true,170518110986263483161852451892920159796751236368918093852996); (false,21025874282253790054460344995525155521700421673727711079037);
  (false,346787151618649608052022294133771832075805273577091546943053); (true,900561682413679258211006275878210288340168766682378964596409);
  (true,1424403886510278881837330591655358731480521589758833476984662); (false,103455307637873823285237535152454260826379668596366663025990);
  (false,918118933969431972555881719464791878680149206374581804160); (false,279731587483568297038315554994446543349817612118658433659679);
  (false,470764375158986143746084957131820450884312032873758365713014); (false,406586412523638939723259138734875733471772377388957437311992);
  (true,585735794265037714788336593563831966638780796487924682730410); (false,990341937608582223699873856605838840012515682974117550916197);
  (false,252854329334307850958261515278553760479999027200782618380866); (true,1416490762181862193646411585024731124199609110476868006528934);
  (false,780671693879599223906351193096280088753766477523259730384763); (false,7951132088070422873368042899114215061873866652985337951001);
  (true,49657822896968279871565346308469594395422417838908043974003); (false,1017982092381124862194814017574999472086635375961421536783863);
  (true,1109793553329889693731292128715345044849082924250405560785951); (true,1753990316593276839122337965943580033051315743267778190406444);
  (true,1439363899531437133188273386122748168871842809622246158270478); (false,399654825590825116359954968915126518882565530446824601312392);
  (true,23441397775824944967359847699456698106567234380392104392271); (false,2113319596153176872156091116049735929845907936563588065514);
  (true,6675398312141624485105304661192763185797746101402689108213); (false,335592652246644182953283130899967926612279709517692570407448);
  (false,42040864948197127414247427619522615425353089649110697854642); (true,618266550709463890335143630201244793741597640361445696601994);
  (false,374379537127851830218439157044044887828453785182218489891953); (false,835349781707743323853224750812958037901665139994221942308762);
  (false,533628364516224184458066004995752204245410913456002973040979); (true,19542844379786545239421307035079632716037493858070541678712);
  (false,16804221069138657677803245706882696066632900007669272388304); (true,1480700314431711008002850475808560089696193673965018693979831);
  (false,3723385801788567759902743167261130199373048589444360142654); (true,1710947673707705918873401173227607319266408291732113591874612);
  (false,691025395593701881001907905001122320340782260804144822660259)]
  [(true,0); (true,121163752669498970476775427336026015789638396581646740945913659467080572750073165161914759248281172749701452517256198372);
  (true,173915248158914128272757761903794365094576490382303724218187717890200378139916192564118440295508116190916984737332816022);
  (false,750170294241887585209110143295960035889921027120098836975228); (false,900132952795852285578344110628643929716595524212063361517467);
  (true,13391945992966417946398675479378093788256232682336196087845792260034788093967538581956228780017134380333497826037413647);
  (true,105374992574474300513809974270478739548442558206184181495723676532115597743923951812976333290768549607979384932743153919);
  (true,4044619265076556755691103824283741979962318553199225198776758123249556255312280950509105223921498689632686937071604308);
  (true,287286398199118280301154516943269188571267180737652417540095182809616377396837222307087621233417903004031002151841970787);
  (true,151776514440143604399061095721176428215671213482600462119387610028176770427514760828504806295270468523612107943459867492);
  (true,118049477654026176705276865023052563186978701904406167189961032393809470100110525279627754343187764691468548667227884148);
  (false,688450294793464694825893509164796431344033710674607585527244); (false,7446190834297219926599122953404266049787952523212118097435);
  (true,199800693064433064349600099921896412469416636539809149113079826559523215017865047100400584024944595221422664319341645476);
  (true,150677211853767947970077657707273198336887023355457897163584133684842565580932907896734302417714079454121740664821497183);
  (false,438356193563557926315846971309296812850414440043783736994892); (false,31258358417107482615958166036328124143523620144477585432778);
  (true,88654046452812883960327750582776462323386796751161749607838420131664008670300627454147904288896544711939447863345563745);
  (true,34432478753761482558212458431904437524945212574330634526543156051260749560501993622401372690141844625127421213294194511);
  (false,56566785630934864462536798682271010910746523136036720566360); (false,79656823862852083945661094631737996264197801107286939144);
  (true,417325204796507233948469188755658982290320407061703886514780305604033361131150957905149283688330689134448234119875777393);
  (false,250554011633690151550398289150907928914664610192363554917627);
  (true,504605373501571765940790285799352611125226742993030432909840318153425691116071237263456466176725805245597312746364853436);
  (false,60728773960961951265812200211100874772837136946080419800512); (false,232450664111271931133673781804914330631556468797603179716792);
  (true,432083050505723135055366323772729643283966820959077946967432799254291871542735393554025117795553826159657485142011760934);
  (true,270259123420278797765272108720206113627286190963897162363124683242123813313110017142733670739404946571587150405491043277);
  (true,355267362659810949116368385225890259020519447514180050539978024631231501866306536405552508692539717634796003360960863006);
  (true,378477935301850978367475140210202519651989783599336837271527421845273045095878437365303934878866352725320860289447677173);
  (false,544891546647030175624860025026367832562611969313739580159780);
  (true,231019184576841240870275297820543734452853076829971974249743044308979823110541732049233070055720004113234042689685492116);
  (true,80793942604754244235542651391231114005710254153597464128241146142197641655300560381044934278692998070119156028331909057);
  (true,87387035501932975460540292528744936260043589572957514590537310249790837726688812169149423126719835259812689126908677605);
  (true,508076455940407627054653214268090331818868016439957283689325324918519033856523162156587221249870274547097319353142123379);
  (false,588776284763028013653171193084024676241170687972867515761797);
  (true,358435375834048095171123547190264259202483569407623999168595053308182855713834674438398609633348385714266650991589132026);
  (true,334031710115243023475177364192551596233432127537027927438461944898083709610033731322001670880623157096529107420726641243);
  (false,515458730678994168738937851147243779185039048438135755024235); (false,97498670904384496820417450925568811973525307693789468777086);
  (false,789861538976984217860458734870005074763144706566337425354875);
  (true,378242615864123016440536122277129700635159325238102718648907074403973326641247591929417338607590759839254592715326542);
  (true,253575553175624782569231425415694641433579770893340044631649461741689366073767818339792764675378124282395264114079773486);
  (true,515652074163843717564012083313543583957409405990870397075203765272847485956368413656008842529158529972971349428574693576);
  (true,123497635098610418202210302574093424312005198701853027812616481228093648237770406408818770987989020779820337581088242011);
  (false,833369905361114562280283406997996377994584628859601421584970); (false,432058072643759026045427919470382909110918036591752136890720);
  (false,707396112728338942663241669453283990571474171220167300539355);
  (true,561703054169753319734970939036809218882014804963421176733926414852241082679918399204809414417534772976552747974135076);
  (false,96397870433198347865349832552281424931007660252268073882915);
  (true,187419704536631648937825698838757640714812258319307935421803547272288941768536388157460330097124601700907233970513000786);
  (true,255149841340614613896016921924651188963910327625682881165643403237182736977484633803949806274125322512813173485093525214);
  (false,14278619024121823090474843363631814580630097995670529624350);
  (true,277681678200536555184700078163863392420455262450186155130553361359383914846120225304906403323140982494770796653096389873);
  (false,647632354692240329513431240319305497198439962923524763030106);
  (true,521402606846791586696087532817224681920546896957392751637650594822379540292089107460459870603179964217469094923135163500);
  (true,50645408474936295232939043829582125298087792819660568998368891013902878725319624119329739167876863082741623966430894821);
  (true,424192848155843725554602330254668580743804353451646421461197685837701297936394599132299622830179325076403116690240462037);
  (true,238919871500493180388867919818284300149620226011848222056464322816712772793288295176376954482600308875623990118469573927);
  (false,599264621845735269096912002955086605654039650240235169657709);
  (true,2985307753960161092488010489905202935207694627208914513345158830954335487842036473872164929594564897486933677397382);
  (true,224569214543929754145786285841830984888607716484898765170965420979490699233749919104101388419776782517766140447626758184);
  (true,74789484416142164296588176911575554463734227556438946649615420501961722947463264074658916745154911780633261094273388907);
  (false,414772241323160032360688901465509716770620718333343547241464);
  (true,348969770988866488203766915260290558581601977801053296900047485404913132687262416282413369940104213863768419056435787702);
  (true,354405824547562887564788520305127831775692304436828607850022380049566839480953046522624603121972986699390998718467398405);
  (true,495709009317326829459933262494291455212411481285812771243212572904429149749711215235762350277016261301940886748709048087);
  (false,1032489723627219967939266693600233981577150634192560864259426); (false,507398758510764267107397076595631832220293694077232810236012);
  (true,56590101937176887775227331637659681420340432417899198560036784131784026678285037600720579421693272705122888088960974278);
  (true,84718423617409233510060165933375487883998451043552253300974474294343960151053231162517534966761671871622664392194765630);
  (true,14167020289378888291782641559518975032084856566420874148214937728764317797622657061273571081464619278027056631651625954);
  (true,136448501265245128972686114842674483448791207493532884095676703306932629405200905251152040257727580166626379399949501654);
  (true,216736513379925840188622119498064533445350300083630791634450230611438679101832237189959647540317806348597914018452479922);
  (false,518219177323402303586660284522879442763725685541916402049476); (false,555748301916635343056692754462781498555275513207084636167946);
  (true,79643641212574506461517939145616043808929746181911484462746951563673404383127979262809945926376523289644390807219378);
  (false,46731579683912256103847675396251717163528772910408064740169);
  (true,371767883879597640609565936330100748853588491622802248040967826453400870194266373089931952968781898019313421857834421333);
  (true,154761458630841837276706811916861034124703547714009892294462426078243148675617957697352359571772758135484731936869799190);
  (false,12582924811224351490707005750204434132729652493508546686402); (false,180158793838529493380819868664538742034124107336199324286993);
  (true,204843665026167707733565607212840211883041703653786961479428135850977368218264756642271873327301535333233764275155531969);
  (true,18713673793983623297272049144929720915126050039152439186866973149363027339026283209613271465911188897637158984728333156);
  (true,483551765861935156924590527202201901649953503706705969786625693871176271545394830938527647042478116273992851521694209);
  (false,416567009227472574765797658328095449887825692572165437107334); (false,630470408384574695388139048867694658964965370490604771020938);
  (true,193339933611904818453624263728653769898729842577893680659384469669701042252290500077377915560296141244794907084926380527);
  (true,46096174642662001905273601589106507052267676640835405702193362072434754412606619402693533498757289489316192051843147193);
  (true,391645363214309095954455197147241875294329624218270386914987477749006855390725272604010692399892062803066883055933111263);
  (false,452297069056703200443200953083231802258950642558254257333954);
  (true,288810816158905238552630340821545820927373350898417302397531912917684442994207286409427239994060361128001825038901793290);
  (false,38706145486507413652394491967562652560562927726284518671491);
  (true,6729839720488777326905439808268069008790934611137410773050508701602725211201442881536185520121576820441096644730009093)]
  998138853698994773956202982878560095896349290477683143077531
  [(true,0); (false,0); (true,0); (false,0); (true,0); (true,0); (false,0); (false,0); (false,33826849476087406790442114772377926769604258);
  (false,155794523986420288192311187388822863389829961801199844292823); (true,731283857615324080587063651898669114147218108100610678151613);
  (false,426926565457358007295952517320817398274248991647232371532788); (false,653041099952168001656566162264951979739440529408043645418047);
  (false,453035340652713771820443388060196873147633637451190669356704); (true,1251312922911137726501308722871021739054310286456976680303874);
  (false,293924983549254655890482188349924679422779814202454033284558); (false,1027737231011991350126863808617301291072674298679266499460270);
  (false,412967589931597877910599337940274955878655933177880253255768); (false,89306356645252359820952484780354119313452348533204337014356);
  (false,53281622391660519205794550276272643529909422294817305620280); (true,756060500476459342313637777760906805808043942838446873462227);
  (false,153024764200565716133784747422095655297276045254275952010011); (false,54092584175029749555057323659486034899257533455970441486046);
  (true,546029725388654237563744028633229071648954168615575245239383); (true,1898287856988765765428198975859583314432894735878707969929145);
  (false,501553206549090053205727828603834134082745315993799254629620); (false,276764483626072500772589054017920966321186812089592218252418);
  (true,382596440867950134082250121428574451491583734431138880435453); (false,52940849953215827252418299404306748124797211351236999221032);
  (true,459136598656764008294523864701167572576727102851862152923260); (true,121386283902191126523168658284072172130233312673891405683752);
  (false,980834306514527671995040372128315037530668963250316660367866); (false,173450270082593724120848019148910513926935881321119807378579);
  (false,257077615010592039969643690509966859484811795497522743028697); (true,1164564550911409803701634478480672896729064856001100510775873);
  (true,71562000988075016636526000896027999320074044800196218527808); (false,909585527950728463767312062057206398401694076410228766646362);
  (false,267351427284755339423179452735675928707403777224607548042726); (true,2697029426402249548983776378285842261746562994363507373627);
  (false,30800098330130495749297705171390042917493452605224562435782); (true,181444775954350012700957413355240683438602441799391057556167);
  (false,824555215148674304872199824947224965708516509714299131329097); (false,93620475339664503165799583293151718481446646235398972230340);
  (false,109315324175813311110690857469982828723718711901456310110835); (false,518250183841091154015018924602790632043577134235277706524103);
  (false,828468392895526878620617052667070034335077934949073096708766); (false,826091076284726156289939606212518065273289981662776025370692);
  (true,1171858838239364653702209909506408786109379272363338945701961); (false,309372719069123950186599601644600647329312721600617925049750);
  (true,66583974747144782162924875046160847279560091177454448371977); (false,367899107814020497967945084160454887845485162913563952282716);
  (true,1517839306776974228753391891380874339419703739230374520961871); (true,1043111023994876993378426090854142859870008345507162991982157);
  (true,99341754781482641203190273654207364967413790444611486500583); (false,17450358130425609131483915948334240850623512252627481713473);
  (true,294455609641653898758069127873539895938594524903356932449257); (true,266188610326636292650869900722243902868109530218257674364287);
  (true,1904598920840242436732737676946142751981665690865163385446351); (false,399691868187612226594044270946299268624492018733664303308560);
  (true,165432991935000238891754828859034346113118665651708289855822); (false,30450009845450330141954694151524873996545974703459660060497);
  (false,174468976960043671998696111336288350115730556871324195431096); (true,706992293954617391274975329682676845793756819293535092861221);
  (true,416637728514076490555257548151987665839252195679112740360); (false,346921108863747861957363451831341385790201333699503818875291);
  (true,4813806366814534009139799902607283910764272800688789980095); (false,110401619095189057655909466820493611299150810930828445349198);
  (false,917962203535062257280034948195592174693409055842520231834313); (false,4255135781095360445021068321902550870783396593677828414210);
  (false,59382657042497222763575186937662039458402007728855420095319); (false,14610713210714335111596905884701368114290399521598432660233);
  (false,691205361466743450557202663443490358821893969054093871909391); (false,5256412943613779669355591240567960912196543094929822716564);
  (true,1119642408130210348226710952194515238580171709100310280806032); (true,1114990226499767293140162874817879944657644119661430471966637);
  (true,695708198958749451923967832536148080075580127083569058525182); (true,256495195652900555315625954970548833351352462217325196446879);
  (true,343732634045373661250550626761052330706317363306079849738275); (true,1850657471473538644861291101865682008928559729078077681439281);
  (true,872430078739618768017424978213373656521349773077333522217822); (false,74051981305079287215455882546624476384615740046244802312839);
  (false,1771537439642851630127336855587511991786900965224743947663); (false,2153068434231949462821896106795447163006665410956052586864);
  (true,1601638624769072108775017732367825686938898443292266162578929); (true,1128417916157091968093339708074591933366666712032895994701087);
  (true,85867269580252977079220871174943863656548230791986002080608); (false,754494800579888788059916329353440556984858599389702412801351);
  (false,5250754017512565313184029135128917981035562993532995102525); (true,1343397486843798682888847711569310679717957405728647836550559);
  (true,18736526675403627758817598019615079199415191973839276907945); (true,1810549107575740608481894982980669148767089839819104711169324);
  (true,371290056882358054078209872485352081268782615509992817537889); (true,1324410085873012995586080692810588974206725430910620209431461);
  (false,563962904539633621345244926175882608049068604066292906074602); (true,388752262508125935906309706127316863983427575623757987372129);
  (true,657941445591860957028419145147311452810006739674246769293550); (false,43788259712875430762440778712975047058797699908287006200680);
  (false,501202231230867593466385995595168668874642285156474394167913); (true,467533401973505936488908998817025144015255438064396382386330);
  (false,886743843305594743132073638037864060865062707373780109407606); (true,1255779815315017081955850399174150421610962802934703344062033);
  (true,237580596671993438525026885874359528244760365749679147617331); (false,43339857296705223787339645047370577930411550079566709749457);
  (true,589158718434529798231795106911799696714739530745305859045984); (true,1463192259245298473361980961805861217505465011976255775068762);
  (false,500582491932883902003390311102215621037207394083479753361228); (true,412677301086525585806533530858725272117162963155674675491074);
  (true,531364180170710815220336957184326935245829930759174820075146); (true,92714563511376763882318102045861050101943566127004816621016);
  (false,620553461247828593390368766903852278255287288635619776701200); (true,66638808660063572463199643151777847572955013556738861228115);
  (true,202225143509721739729755585206509226881546928189959419635364); (true,1544883936029140816486662958483182736585995156222558801853573);
  (true,956410883791339706704122411214640400841797084032406151694986); (false,823051627058475085155875890015791006655621689316812566479857);
  (false,52360797270466777596748769455184601703403703415850249763147); (true,412179217857177252729404124767339994665163391386051933000946);
  (true,16960613566539780341970231345881189758586052016700918702174); (true,187848994417490764315337830783559425874032251766267729225289);
  (false,196408097858643221434555316363617658028219184542741553954257); (true,70369793422045881480394510704868830160356434977649760778162);
  (false,70708696145553972468265820971339068375303230084518485361143); (false,675332659790015429925665013812880900826205294063839917045165);
  (true,286525242094764624879337763644249689673677016581753730080843); (false,393961156045318433938265673762445878164642638281696769153524);
  (true,38424214577465075026486074194120906831430626158364791510525); (false,109503604499485001489736745768812264092532321911562708775902);
  (true,1975328324085139087161087101024041544043648629005782045007033); (true,210069395903668738705225101245087362066285769030843447923146);
  (false,31993586671492366368997360538727748026814114010699150229562); (false,888882327457881776038156413158657084236134887021763353903494);
  (true,789996739988988471307242624693069327237479567366204462910847); (true,1119231597414194082972671271110620258874826392178867140506294);
  (false,10865537142749552678815980838568164899258315513504683783469); (false,339883326257177430753951751844183715421839360599775741555607);
  (true,512202940013472384530203890266116003922227846136138476303661); (false,28924392270369875528927075420779144971574322508682290928953);
  (false,565582564203693740123416228005767886685801175215181772883791); (true,69551214377221100623329207625047110085436823072536761907958);
  (false,17183776473401435902895568748687800559138971475606409508629); (true,825061443854679724792849855221121347113598519919256663016872);
  (false,89347124846578483865654055222848484239175142696210269964612); (true,81469657685414679204929939457097629493553613403210900135569);
  (true,1096840152719452615214415787757403904874224620403987339337245); (false,40902796553316392222254162387493353087514971440136742650594);
  (false,10980656614502576838639291024290428701325698622832621190614); (true,1730765761647134219427842651317648902371576800337271494339103);
  (true,15470065866201858309532747734385370601929001097075899633199); (true,742420984550744579868806006839429625298086118730393929526231);
  (false,24311420461809835623967558732711048007030979205693284418190); (false,2450359204506593245171433392244865895737398693264537458351);
  (true,590955941039877702137425131604878552016887606062279247504383); (false,132861619348746160258125219004187836766375697125337228539519);
  (true,720983917506478828333752661212065460196861245547023593641990); (false,142942511711267373450449984105485279675821631942665437746900);
  (false,1869148635467848314676990912533241002561040647919356531183); (false,894640283930810173090637729590614551907901197413133133318634);
  (false,26559358429044045374816634430559715335647931201195847342822); (false,216809793891339741055224119294593122236407283304934933517);
  (true,1295807945565826010099306872317025267581544614758465508698574); (true,1293025724835513497219077713846165277219561577135153);
  (true,145222014107530090516339953339460543815325749676881325954843); (false,761507310056374598406360131215276918392857683441514082891410);
  (false,16316626872798889761467721992164719620320301317018538994948); (false,22858874343180308939786367891027651227129406507606874969822);
  (true,568689315285610634330694098077045557373505802385559264334575); (false,569355348203625428107403442720124317607278193009661632812333);
  (true,69554535285945731632921619059823556157757038464752401971622); (true,1158148289346160412772923779580703272236310441847359732756711);
  (false,158265214642452220279135412789930795559319264817230519834047); (true,38515479868005965483054699688616617798496119280652777914148);
  (true,2004869125496240331607288610602368666847039744103129763505289); (true,431667997479677479209124442788592672898634456655512282192208);
  (true,532906677162908924423443659383400509599491252025515463634); (true,1016744170319183291042691204898089956215400015089013574265733);
  (true,1167816829081444902295150195097770266794289819789178073355863); (true,456282059418364061251376683809549999931187534393822880209569);
  (false,22671955141042791668657289353889894172223363745280250386216); (true,276097599426582887410220610163746107801265119049770153940230);
  (true,24130371210587003803225403086157198340143253887607949530250); (true,73345053857436627308159761805095388217875961347286836691242);
  (false,14733102981793981268703041937261479570986213983530002523549); (false,607897222754329125412214598948767186790558557656502645417366);
  (false,608706942896747399484623244444236947844388251222972185647452); (true,160045905502234240702755828665689303826600726456101053012763);
  (true,1942151920339252648798016198322745815629240273562219602581617); (true,1479239901463843810384226091587249009035311698071344798724408);
  (true,180733484004683354364655573179210147200254219526951372397876); (false,530615753763825171845300322387512232702878758442136262411562);
  (true,429728412505085518833710285070059105415499860962679133745663); (true,176896082843031816322407632906738954512489229436882491580615);
  (false,249857640906761067042782272513704402723566309438353345296111)]
  [(true,0); (true,636937274213991048227861575673786996557680921436449962932929070644372067159808773856398270067552929085549932020015819767);
  (true,104394394064183339811169717374158391239137124357187553221352486318152494752139077237771180721527245258828142776607039723);
  (true,365174608936344551068597529652563999127955459695722663716317774976383986748400551329819728102072813953530846036881935338);
  (true,654321745232687182090332242949366029337644481305447925861239937527589420158178731927065352963548136311418523623360528028);
  (false,320543451160921050131401217070913736911535301404263788876963);
  (true,70649735515532890229330158001212163274024935485459065165089085486480815672274609101615599420170774283871923284142802439);
  (true,3729432683981423281889073807071509526713115080551466243333625906035881019551413372795452834042451509570068852580258441)]
  48007760035020698497080361650380129539786775532907103937551 prime_17942392077136950785977011829 (prime_check_ok 251 eq_refl) _ _ _ _); [discriminate|vm_cast_no_check (eq_refl true)..].
Qed.

Lemma prime_3055465788140352002733946906144561090641249606160407884365391979704929268480326390471 : prime 3055465788140352002733946906144561090641249606160407884365391979704929268480326390471.
Proof.
  change (prime (0x212a440100a80008102105402000250000004205100100a020908200000201408025408 - 0x80000280802a482020040150000000422a4088004804200800220a9288090041500141)).
  refine (cert_prime1 _ _ 1059392654943455286185473617842338478315215895509773412096307 1 2
  [(true,0); (false,0); (false,0); (true,0); (true,0); (false,0); (false,0); (false,0); (true,21333948);
  (false,2950920656256829756352309233355780045430974433086690235789923054061028710059375801802);
  (true,2531906578509224023841256692277596405623596250398300983661866445928654223354271844946);
  (false,99699841914989886873480941658156798460125186464308522730157983583447823137743270232);
  (true,2402849087720819910902520567627085658789305966027919792414241639044362655486799541745);
  (true,4302707929490626085366943959597065417598019743559909027591644138221836498945689568980);
  (true,3390148691346469786900655292001922155763836433047512671880116058963664438975935993835);
  (true,608677619584991961869023083726895481715369323863455064107395180180911515183812120853);
  (true,2227258990984324177508428858812771677074723280316158848645452072214313839192322812178);
  (true,230873635090665417104022241490486773921247037199774012365218021807247986292772579137);
  (false,798101301575613737148377719567347584003566351377600743789818204984398442084337573253);
  (false,2888512849661253525975363711321454430634499858532248570228657335543841505317099249731);
  (false,347907929345764414819307997473733219923142550674795913129075343074106084636240359889);
  (false,903119228417283940714112578306166200410162883621364795130197861566635245103518553466);
  (false,1289782786034758115368122165744254745492959820899270735264102730426400238728119542934);
  (true,5563171325033871276886492975546850910644430252744378358354339458377377596610003591561);
  (true,3305503692333088341637250160297789356983517987347902070107438029996416350544226623661);
  (true,5288583372450389179262445686802915688361501345040701035033612207649563762433922480082);
  (true,2322056634900920520566905962341298111708285205276892026201208158497316984760934772274);
  (false,303588982456248008336864106171375660685838042394335475538817249293209781915129308);
  (false,1957338987363901087191004365196679389799749352548345149650785786069550493471773112710);
  (false,985214656624395743258944753118083815249185960839778644595162842800101326295430128209);
  (true,4491520021391021240318662500370283352734203476718199843626569838753622709303037465117);
  (true,5059984354556148118135834865189941491202663808583614454779851969028449873680630118928);
  (true,3328901227600709243646487122496613043616977818698560723311301827699773576387214623180);
  (true,749353867597931927785889453191716173834198598855937811630240828957668480193236697189);
  (false,11625925938302384637722151846513142232472640346918223800328325720474015545830648149);
  (false,190763364240198793693331611500427409381916688312780450730706080063806874017935681004);
  (false,342303294450620381152806786280958405033328255457856204047441886048465539880328046659);
  (false,2738707974292645419476426215091335008502200424644087478754937886780919023383685694873);
  (false,1141289038862873866379224945242471594658366620115028023464372840616822777646387959754);
  (true,207921233552263061018747508728021270802846291106111916156420822282602457522595875184);
  (true,4694028772618911575857952144342474403344058612911748476901141367566416375560343639153);
  (false,1717539326172177672346461100952895454338707908832994545243956105432035378424661847431);
  (true,5885577602160852666848871266675085799470976218059613488709228812303464403097661255333);
  (false,2673069124584352201250092280708712661416847098617763293849060072646028830049744940697);
  (false,1068637698260529454940738922750521052529935100081583884171092393596371636775871423683);
  (false,2904277206856334848224856169218096806112941532884529168976679344166591187263347857286);
  (false,419958581646496484426559874045588895837094741740904315902044805339532879231320172561);
  (false,284844000164010099845986772966956189282238437134914473708237823328875424329468628493);
  (true,5065650183673778759400693634823349590962337935207611162941312224966828980128306111835);
  (false,670537762438644738783151746527706796577072399809384911637994278085958578603658812048);
  (true,328696865873478845245346348879868924330308474215461532226124239842769509918893695576);
  (false,304443047990033931591734559005433455228959050826659179144035133503631819863329537272);
  (false,3983250859375294731800540798564328107027554960500395318543783020880577767856619804);
  (true,3631528557318094095932896764413517665408483170279857333546518095684613655881838469823);
  (true,13843179959963301027071558904674745214851208933835305034462065955533924332189366873);
  (false,278471528262766136226834157217772549491514245420628657015087258604490909329859589934);
  (true,1219418702369798697866622984808793234050094338185314199402541743346688223634390826136);
  (false,1780867835479847824431965987174265452997421068271834966688687296495898957089481266);
  (false,1327047077307165214009900778169406875202390022127003233296712646640441609886086047821);
  (false,2517420762958730221124986875929185797555648114711118506088190546159143909052782626018);
  (false,152364720008816111676518977799097268371488551669757797231384971073715949765118298328);
  (false,2841190967790355665173646781989796045586411343793846819370358658692030773014543574730);
  (false,305268854680078115476319531330185367852810104451855476780390051722629306375265650896);
  (true,12720276210891308402709931635127507191846695871986984325512790350094704311531265072);
  (true,1418786560365845302167089128703038344410905272201995945527907722874808303787010168390);
  (true,4301286399544476827702287645549237904577310429005170027272297520710306842574193661612);
  (true,3210497668868062808537609356485884544071737758331380310647404892510497490723778458106);
  (false,1340978306413596551965638597364810326040578100444384537788252088383599431734334416590);
  (false,439090831764001014278405034642798529864900402063252063459531736219509739774552444455);
  (true,15874408529190795414340953827367405582313956508048056683680374783070903853883489348);
  (true,1469507941371524856887465503803144791275298270158414641626024398678467765952212723643);
  (true,1011669134475946430303110326652903104571565483108540230969191893466469970098725467);
  (true,5566055029629959536683045417017020182211951681727911701393784811476239059315395378431);
  (false,823783842626978172058943808435176960359877445467758883409990780385528418557234192275);
  (false,58269188216217842420491023105456185870510769508985482893926314033159001330534597646);
  (false,1538665596521001331653172644909245741699318026796192270316846237353963122370882135022);
  (true,722222895341807275547076544670957138171564169248347450481678576825396709909783394032);
  (false,2827383958477540479091793601096137407496396181707924816654070945632140290702148243171);
  (false,1880388860822526685137574058434409080623146157838293816248896848143205605153686031885);
  (false,687836769094558676195036229107571928492613494114117249075157684222318467560594420992);
  (true,4448642452145006664196322413650557380764571349200514558598846741029056530888289719916);
  (false,947832612489554865272632989541335917907498797281031498123514623427477054683769486467)]
  [(true,0); (false,10130513952771485938487554024113978821064090455443726214581118603514029410666710);
  (true,5049155828381187310178939790658016696911091555030193599808688586004278383877702140333666975827295547348490913341392939776656177917373365556840649046221829374889072351);
  (false,1846918877229001908585474267150310672289708046191833493273888741165572383863681063145);
  (true,9132717084058127973131031843086551469629343870074153820211587632009091104985033928939692449417273903554178789554063912618726383157340905209917430529195540082634218448);
  (false,126345007310270808467802362287551771610248373632348202669443977475083803487074507153);
  (false,919263397443232647879467315070506309458413325239007253589415190157810202325159046598);
  (false,701045148562817669452110846899822632973502159803306100559616799958878225403359002294);
  (true,6290842004369221114584317866468371050967861364739564476668594339995776998172501715770263171614572014426292651922372304108990230718600627085103969409260681372385957989);
  (true,15600875893363759980213935504516033604384177888138564615053692830770741194893180040131401672389069882007482982966390485804959130864297632717525545311450196719395060240);
  (false,2479478841404702514287907380815210651693740845347699173126968416177898298196870038726);
  (false,2777880713040102814413086511482807027692189343492453597912378743420524398582434287061);
  (false,2956324344348890402615410184585900306044614763019254148474853601702677999307367565406);
  (true,12612610082872409075140879626310400417891967698500630860238168258396296630289808010418664963042783716115779271681113093968630749288781624017102203902607815680539262094);
  (false,1132905218158769154832494308456206866461174819891195616129372188188343785222109031779);
  (true,8084739453903293938018879414581379658451449716536807155186940098415439432083853888276869676391414708456686784271167920923885660937495531194232452015294042018031071644);
  (false,569034296784045869436577636419018132862447829091590321620949238518164500114706022716);
  (true,3457269764828789433752351664482641768075061939553812225143572896529197964361061559047948103140195702768178156699136258954680106444920662418007708648830717392684568230);
  (false,363159604736504157124079526443188090761997425871892158996476229451063147035517736942);
  (true,5286139819431032337048427371687824833462568558368671538330881783825194986717379944951037264266232529831775187221356832065860970019839682303402078228401718421287917614);
  (true,4754566181243833226210221126893449705532780682532707623346685806320328829765571607402845084926619869291304037309534734720369550922835494069864930267428900525463143414);
  (true,2098931946405373875364875484217686570357405913177920764128622268460131894362015218653809004440951210196495918395404595151123192930204868534430573536564361966345162164);
  (true,598851881961396331215475307666210064902941325987037051317970125829509226328494240582232672747398262451513373972691922143579732575150356607879428114657993148235655725);
  (true,3319766558638719012777335397442835181375822944797274101104753357528363583211219337438120731206165667112924956520594771303099964601322657219231427249532380090038871428);
  (false,2136726124016813830846095118321915595524193782512212468527189888423926402965104741938);
  (true,86229344160951262736002047001681715088802760193315491706100579685560183552752077367139320947970398435715216283954364157584893523021021486113769965029679175901893434);
  (true,1569082882395120100247472681441129748497305861069329442863692685621707078910993923050833915530294129653188071786560568267565951662503481435881097146392707906713361658);
  (false,2517660369323942692666499643449155728619474626574287357659567306633638876599993264724);
  (false,10661936429722598767178210556753258737829012761828556651477189504210725724536569968);
  (true,12066013423339458766086729380891752301344728583458632372529452480257046563892966210701514472496239705052123924416329413803514553204802562598323083437773232711145401716);
  (true,13079190294008420821507367059662105814070464771743519000321112478347825636624217965499316416507662855666444050819973925725864413789080509156714034006899853496416434967);
  (false,20752761281454972754592351200477949983811494918284967484875906253642161687365896219);
  (false,2949802303613361854806070965126750241879768394070463996813561865963141671846787689080);
  (true,5566458107270179925679916971439737122016158068844145112522026836668979866971641813790612494344721642655810206664078503081005835711576613636383519044730267918265476608);
  (false,2527018334865763064697546356921193071552452187190193306292489670305900431172205844890);
  (false,984650441811100165767304043659599321836696654352210156522525736912121395564525009364);
  (false,2325074514488832946016974750767842828842086236715771998324566190757409532229956426221);
  (false,57946039866244105172648692597228462461805771006264841530628119288526160571435925883);
  (true,144505048681845561977888768956120032576569688868563038493059379417502111109325131971810617910669835411887196516323030812046561879826915462927136096193943728852921840);
  (true,2056049752883473793536565542736527061834563750728441973256225449200165167392092244129887490897549843306721055584635606824814271685081290228508489902275666104740828938);
  (true,7160504771307356327956028485656537593427224082155315717581138188660201236042922083900732029608356928525944905453104970389433827919203413768857879999341897639880477644);
  (false,300795142807390072039680884410087918590459700997149841515501269381040640764886244030);
  (false,1406448611676009294945873001665406303869163754148345031015802933576927322714736737301);
  (false,2397793194652156166940769831368430491040892697453683449825800205333312082326380493964);
  (false,271466166237368127059900139934363425492379981206581425958490050377177846747835708486);
  (true,5656307738872694120648631220489763611114577191294438279279626510902419798896767843254608275258458477557418965316935665670535362668821844927868783069611771318491126907);
  (false,16549449532488148201856303785880791425900839090324492065055105127547632949265886240);
  (false,161921439452625180921360993216078427208512531068540234083573112718738179668160230234);
  (true,4494597769919824898804459641019450832754867366114425765061176191774409276113362596170475133877234903954495511705520873424754672519308673998845514759330596748602573881);
  (true,6934813473840183896066842498657899123133461260981957673643481312460823104100106480931482568588342584812407706817531938263384542741316555444991416222266082949736798536);
  (false,50540503085099084605055624284951102041259932456556678145392058599710633822924920395);
  (true,559879797394348670661736850850593797764682343141331844547903343278105831116675413869185664941483119612055116400235542538265225838484422495788523922110803796925874517);
  (false,449544076232022864253833419043835660466165755350176750405065593107099456866714828487);
  (true,6447127851304499269663034829306899756091831665392125738471448909665737770906684547903787331225315313719655591268337898785363719050947720594096804857461319804892496484);
  (true,8793331702972953483919037086761366754543954202558967208197849712382905416815592340244086566653480533749491423539147446955122861874139587476526158387810559070409795655);
  (false,894928060867763489092664064277334725798489067920166245301046572510170293789424185063);
  (true,16778670490404900694825853870023175531840253139623650002294975028659414478448592507720477748703695567365801656585235438454721014908482133296044306414744040088974336704);
  (true,11639185032157158763930850631293638651459257560229799406718093683174099507289538139772488191191640813080562809584553307045430222425370299103072655869797706089286057091);
  (true,1026718156276902078413172386829270366884348109702466207053351855485365596402920730632093954314478220167925116081843870836510452806786130965079284011461258243733284);
  (true,10678844174385767684577953168071127126407488069941765068469943048643861652171860437412168455792515722334783965146815134648583018250766941014161931316533398638722107226);
  (true,12292190040919182676301323781171820182638112506649874575806858860543825611603720955269596665663861750447047633770034596487169240748279626965846855866117837054390625755);
  (true,3657220932753470100891790771183181272463670826450562446225894283353728408704905147647611548408088334987714010698484665297430288538669667803967045304996971857626839765);
  (true,10621572433283985629582174930175146664619351650858786395750434329952426457694543815273114648020926913690870994122720115489401083416910477508034025956322565902218712119);
  (false,878945420746542807536230280792632962469020522662668135922619303327805913339903464620);
  (false,34084054385582101873338239978973609566173440766279983527496433280593508412287930763);
  (false,1472448897246357938507007569958068277054583174697397734359876759405582751926932382727);
  (true,128215463024101805877820046710721006819885825853115453725246189504706205671510631224053166704374873298660586296652318606278783387620115219917497424155562821944763899);
  (false,1125150089565070795507971079599337211129138040719731779433896925768178910520828296940);
  (false,2752446020109465625778894893409274752943837479209074253048078404118016328567342436079);
  (false,164357711919078027386469934581760675600913851562532930076183619058081019295747354282);
  (false,84468649177342616667603124965966638234783665851902467303932173977260452334124069242);
  (false,604127933867719790173361125769643063383007339958777727520346435674659533422392);
  (false,1982495875331928234472619443994102687018867435628408761864109495686190834243138937147);
  (false,708906138782061749545222411733924745587807023105040153145764228726268543733088510750);
  (true,5027722273522700696463592097642917595085846875615888257197890680828679885637190893071501843157446543776233575002945812926928559832363868969066090094780950241492605208);
  (true,275227339167840678436183422925013428187877521573407354154135041386845357376090881275946901579979731451409862359536126673205616594114561969312195557000511108743922950);
  (true,1859831819416645612287504034869132706015114604338411866829656192803034042543551866184022817824600883156948813959436878421072929726811157867838800874076335205486781994);
  (true,7805656282653919185701296254113675124157271122703030575797173930778132257335296421657243898153621132853139270076954306290114800130325865498296155729226568935835722917);
  (false,1077097099443312988753488813972591738536141262916658144364858281413304962238882203515);
  (false,41945014752222810724769645032103742924091909784748492014829391984890059187373084060);
  (true,14355590347024181469762308616767823483373655071317485787149520461250105731334967843022259289500569239447708324151375259423204289106244575680367685080340683243652956782);
  (false,267774458686573292285323204665707599962543543508507540287574569965447408935861927733);
  (true,15789586935382282696999144168427232624821541394467898057399807012423222575152834972172212667645092509337716604272003758595981076622551552630372014537283327726118763502);
  (false,441303913081218561811206846158403578598494125614450136480396586910898134733036517501);
  (false,622711081305969617621625940952858669289886973561739441133977905494529999278497209237);
  (false,1340964327739604949077039848047649486804581976102284172653342826983624328047139305610);
  (false,77342593094756608187115998558491338317657408618921034223700169504667958203447852178);
  (true,2631201014190968164497566513433470479102366036759797960838878480746848633475035121504516403993899635723162787251459302079761975849898955936249532583277619961749889789);
  (false,1961332488465461306114209107016314835590753883489637784702253268154547713843351037830);
  (true,13332018512862589760391388295376559761013728920964632399776599583543756939718897146730745129158921891019722620504477691072770100377366164068569671190232450032249922217);
  (true,221807320216047321900903005268822386214668279333522352578870169418622327984413761576172487975705686515641402913691160950915090380967999069514378347757768198961081078);
  (false,2961618036997380130822169605967478628726871100174977980774547749985414082988386583474);
  (true,5026377262891266977835046073813121948427443404960064513118646688376671418785776325448072648790833745405418315602430063828629981456232844656863933497276081007009782770);
  (false,2823331164875910109441230752935526904353975843448123205179321864152161948005596030048);
  (true,4441191936584684482302844540919085548443696690411078465289499179191415585835155046925846761336781244262407561430776326779584803764363420843496169360969950980349187576);
  (false,85308585944683620589101742927836155400744053290350213955048413074430253096774486);
  (false,1637011852921016532221787532990979952884651465817792062502588468124584745237072894856);
  (true,874225404294566494035296355780736801735915937487813821940506419388513487595463423879013866347210345085813513863826547968970965100108591817410466848213469988187974669);
  (false,1157058737105762252057270622015727106190537908754440091918774070885520341902165324);
  (false,123059299675816886098844043752410213648269864586092249917744363413089785346403818387);
  (false,1604085249934621433516598931765743812051607552519971847425187072044923616657123622952);
  (true,2696170257840905854259634280280119644231745899169470551030956100996956837508641749837970572817913734040924019417045997565037286160909767969956909359675720640376566484);
  (false,206029147947262881352948299666504383304279975730636364944445629605404244020468160042);
  (true,709983552023083131873769508316940711895823754576841305820635780611785463578597025168024414725104340347050191067124618854224664554651996563888402004172974889955537466);
  (true,12919510330299577883161692268526866623016071257390821747285811858159332397695952315558940660989513931625994191409874408721243788864694509741006697232425082449674156393);
  (true,11213285602932912101493332061842327099869666033367129809129757516095198575812320241239938486277515205515925918793321002739251541995374352062777939343001633444657285356);
  (false,116089673774719236179270852207458462548351088691354713300399711078387377032036373243);
  (true,97181886206637900591168493108136855612336299027177781725327412127721562329776109691023524124494147980530846317672983303231381957175907162318284246900755162415605686);
  (false,2980992703659550863426107324274011167994943349733803983681115082888044306279924595181);
  (true,227480641944083434749380104878530487038568845762155138647550740701010013356034057928658384052889165450209897588312322837316608913956854607612827785605352525489801951);
  (true,6372722734925572114628857202017685524955344199620710241550882864374455522481862083577882709802952731134166749755686519080555105684448802884391745819772253936781741125);
  (true,10705255823195460756013254894958620883726269632687124158112934440988286782387356074363359241083617970217618243519834341669503530052342098284980090230932533502150729471);
  (false,1580195686617234877489323313726437492939147042312010792347271178560238867977726119);
  (false,558511702047424973318728954035811693636913443656113662993352813818795935432540474599);
  (true,16264617817627248145555347018845693865835344184974132555008127232677062865359142026664690338913659295220225567571503025283868149131683172529949325539486182597301537554);
  (false,1835220677257264705678927859695705499285812592723577422462613537537171945253288814608);
  (false,42914730092911318357434700221033214142752264023369669914884634394856319337248976323);
  (false,599092802484128516154529536919787941775282706888711390099060542461758618962397008983);
  (true,974303658202685674175825911626635167304947938598683959918941212627945536870204862609542367457336065745475692616613347407409056925139947745840724868909720873261825964);
  (true,14635163255960581556988796790352985905918939286206579662839442488553164644168327217008663334557960701645924961379695999000568274171438920917286003383933879334273864217);
  (true,6256231243461749408215388331431529466427354912597610174874267923609774353747853968125199039238935898238258987157240183231906296977376746189714588207179950224022502330);
  (false,1323914495697814269608954134555543562425265421943950327612923753708862453762581977450);
  (false,83694602806224028714197411299096088706254454431662666375271773592261154650096447611);
  (false,2213078956357352932267633920098457721026100556954165178213670539962631414999851848530);
  (true,11492246204601090204722381680048227128440431097364854145881987695375866629220810534756250102910054021055816349349047973183061225831584694207985548162299070604723759352);
  (true,113742810515413769255917500376260565907009021428992566364174737140327749627616399224280557755654127027993330797868871973868527371946523184406691700817484596230877210);
  (false,1505246037893569344001439258138094183838552392237920146851150097073349832710545990152);
  (false,194130659115086272165602753748883311538499577037620448113630546316842016143247855770);
  (true,12630657885349705073352871464157116592639240696126453422372485820034844685362313910265118341743726176721263210389405194424863521491944791007871183602300803392857238365);
  (false,683449053925966844287703515723403182270708775319848219376273529776107332822157343541);
  (true,12926507859275551375356579869953769996660647151134919733500459700736466789338571360910755919759801675221625979900883717382048323457917011283266817188011094508987131103);
  (false,371883913054883275836938231686844305748400555660459051826912691919997031452081246522);
  (true,3060169371618937944198905969040524403973032691996622522090626915822568830041971923362415409152701438482794065786328956365079989329393715152256904437224177889572943508);
  (true,96379424164077750308328651329285265206412582153466035331377102419847859188096715493546311285522285487380509214766206017797102957314918677335259845792670052932186112);
  (false,161620257900207085384258574562542469416518417755534378287402888379432282177969585900);
  (true,6857228550390615538196142117069018836572553587873790204257117556534087490236058560075043162418439091788084673288111673719954521102538368520064554079690653818786707914);
  (false,122230369175177510002423776820059475874975046041772397830302140282897977338618837989);
  (false,534244076712766377310201655583277076732827259786242594692745576468669242676627650625);
  (true,9142827286089919005676186283989021639583473015567942103524051381990656616821677325944704574037790224806084216893039716107845153562132289287597319643687258987830956535);
  (false,1997467213569813881878057580724472940985490321548771272360214602288088034527072364557);
  (true,383272202189827179008846841138815729079905335416711281925123020449606641553147091771893740795816992513784797089155286753368130640312469525446657709671945607735895640);
  (true,1283683176891476102277119816140711782207203108898998592010863038805542750284710604530735626974759072056289706598778904347055868172963448127892389667809419461871630618);
  (false,131282786711521298048745816923264256885865013507566004635402800356137005931113411289);
  (true,8130765690498209074412811203604829004743860087124457433771995814884751988426210400223894190019888418023354126574479338429497722758997130860191230755478794760049926039);
  (false,1008243067125019907830842744461573348423821718651293287227994345894733572210978883744);
  (true,220563576761940999097385333874625871889880045306380948132532678150134466107793722955958782662166539909526486052957888105693471031468835429111055848906934449300464635);
  (true,4303326718856517640991355225931733634862690115932773484916851402712033197141526824991174545797213386305322479178569947015787540785717450190052067034604004835780538695);
  (false,506627205410793644298486728502742583788496526218028726342676112004749179829184455023);
  (false,87879270417594213363946813665452449823025382139755150796696148997493925158183934359);
  (false,823228727735768189867653730771386017914933668683411534115533555344370569172517950962);
  (false,168028889570204974832184976319155551729757109246015071243966101635148796831888713301);
  (true,704458007691991274095979092641624702655890968948191350388219842978649016322693128254747019174107212580403669999638913569336692958150544575635046370313700414374734388);
  (false,2645799452098397763087266275478154477871944714782823343572658529057762521162604407486);
  (false,2321721863049486119595550216238007113802400582773318529481217335194004879957784945429);
  (true,15173235731279778399951721297473171874556133275882259317558965454576923507096531515388144178148563299469017990660853232079183566677869955668874554362131298507514637334);
  (false,396653236862986081668835399800448066271011119488305101289660421355323582454686414168);
  (false,372516603251967059962002142249980136713936830311034147388224247359463606764518036530);
  (false,247135618939603242950242955032144453566157493057884245882749490827566774584290639214);
  (true,5867991027843643958176143565030217361871891081098650585805611454368923348107992858199122175612906011874176175991963619259746449903736534726401258010049861830827668216);
  (true,15082065181141012664134449411752139288493915720274396367061068119623249768953993570232755047372674601888777994760650220300086204563309285619462539591424103686013783326);
  (false,715471425798793883590279220527623563017873559279253645614274300961867037313080724384);
  (true,14382801229491119745681033235711909603531024674685392115748085433804612978577674864386036389372430314616102606675613301383550460683993459538361411347501034095888545729);
  (true,8260141121550424857955642156539663151766686444235917792141929923999436823718330033301335628673552353966354008850980913809354123595159767494098201943430884062169777289);
  (true,9650271022905047584762709423148935305946297632705675011384683771349561248633129809675041742882189518347747125785678067560833783516415679302335838152787297925434475634);
  (true,199754181910118908797262407281395915212662185950481856921574879159402122794519530120193166203078774952104803793325660026890128687332808142179556540028880444705394159);
  (true,174230226897957011280163788407910297673369370437753742264833014147280312659417377147645672782298267231206751819708554068548365605917635758579868892696555328792913281);
  (false,647357241829539489935790499822144352528703203562833883665746536850805361871113615746);
  (false,181457058846419872812575692427417640831841170660866047698181525728328759992182766391);
  (true,3540128631962110049465834413402881213207786088829506062792742097295921629806754918050712763987837545707492427321863483059902324163248468892040224075516650452882450616);
  (true,4643762981049398285024571922727597923418802848456729758612289800037878471341781297006364363688211654523193243660767381037948759881919359570978949705523601028954693099);
  (true,13656293511319829871941323632149604223611003272600137036154193114366597063729291371471899989368151210207322392989259864054069314290582135161969458357524508154726235001);
  (false,189883937458733566997801133467993888180399191939228101808975115837123452677019381284);
  (false,1802051147764101928753109531884213065307215038555122734331143864773135683973926147832);
  (false,733597934603809241991819960773921453211358876846028767338807257372343783587428248904);
  (true,12915342670164631255241885070296400333898214591070485266156360045200946077516592142221724025132717824494070677742220135927864881113389608109763168955042974316994723598);
  (false,2228006951774909085144946141630260274275473734723872370943314560378862257449472806695);
  (true,1661927713955078953222598458191820675736049866168685878513220651646556045970462968223216866423557226467438169238251141699715772195267545171499615986930665845380680026);
  (true,15423448851163052255985487827140536119365835399414125155745822611180992870553553189395834683671591058960291674834948705971932972269413866216821791903299792058168157011);
  (true,247995647614379439449590108943650622550436749989799682406282212453429397977776422559581035341482076684377416959084821913117381653387001006141237721068334661662876183);
  (true,6739122647531304316553538371612585023853360133779015235122213686548786137439514258996552608269477907382592866284313895200327533695699678467198270350898864014809619366);
  (true,7193269689642767822393129054700668500607702668142376631604385169456480625311450143640277121876204048676511760003794488804862854270633884397889603036544342098964355706);
  (false,683307623108570596225343964534660770583995134501288420466439601657362086650489984623);
  (true,5935583211381295512512720504487386808291601087736961341658110640298052662635861987452224110704414136485186251415350563072776215680679786050621157740383628170010589148);
  (false,46956083288985905002308022220776863568364538007471913768282598836154948197392004088);
  (false,1934727892416939444394830766668499178194494439422742336800902631487669300650448496661);
  (true,4527798972933400676654465542580948112268753442278273123188723410457401882805732799009157154735457623717760282222885288728823026039785035843141902256588213009720060473);
  (false,105367093751836678206928816368736081131481431398103095260552021174635849253957234461);
  (true,618688147301717797197110617992582261262366823839175441069666735777450084649195699184016028407192059595818684366200378285407947005015453818871497583343873949556510225);
  (true,13143362096565465777353055557473814060558863352852605412050605696652742958257842961792215503057036907435401304684315294811601672283431539285259700126824438665760157286);
  (false,1657881615681776887353815015135557122253202910675953524615036868292669635236470243970);
  (false,5770216220448612921424843977080146363085366189146694126110108983603031239082315561);
  (true,9610458450600150191551434675916814346220369747586500553211863901180527340634153793116521222393044551244448168003903696673317083267934281461492588484277846096850430395);
  (false,239296672226686645465909119958146644339761402519584479515817038929521453972335654173);
  (false,563971839814628003614178272859155169732500806888823929833879261313155703281254132065);
  (true,1312043494213583873728992131853882287400428916553179467157409010591557854531040993184613295768776901724694256003842091031502707941671043055984387569825787354736187849);
  (true,208797751725398716941814572741692297313461373427542629753676491025820702094848917841980825441746840482332426242888505334132612536887099789418980163750729082981991368);
  (false,2709031219787787237369807212600428156482257782000523161137522744261265745695119251374);
  (false,1065912223900466695254838078587108289078789783693045621977509741406556614181870651356);
  (true,11186947049799306398375868297056814881042361232135441117256236479272967663346941073437581863713631728874382406965951359922070747311645206224051543516125752624932796082);
  (true,13680534853941544448379181915111536072839381760947771725369960821696345482460571856933177298335586117872815637074421995417484936815874185731755355322806653268619617742)]
  2712496454280912552189064744403578205633632341143601555674953748700913292982480842577 prime_1059392654943455286185473617842338478315215895509773412096307 _ _); vm_cast_no_check (eq_refl true).
Qed.

Lemma prime_p384Order : prime p384Order.
Proof.
  change (prime (0x10000000000000000000000000000000000000000000000000804500204404000002210024900a8000100220011052a04 - 0x40a1028010091220a8080250005000851414089544400091)).
  refine (cert_prime1 _ _ 3055465788140352002733946906144561090641249606160407884365391979704929268480326390471 1 2
  [(true,0); (false,0); (true,0); (false,0); (false,0); (false,0); (true,0); (false,0); (true,0);
  (true,237142198758023568227473377297792835283496928595231875152817486519357550183384383);
  (false,1360632950812166266992025001747388093982654225030667477968786428791599040919199656677537452544848822097354601861442);
  (false,26132207154609194859214919455522888608719274609810046160875279187857122464573437871953298477929769662477469745301860);
  (false,6125121594440678776535204483067709071864982769886181701314791620555385847437654670883168268637139156996935915608493);
  (false,24902432848738117928028408448130527476946921738633700141504417277091563199890483209483165077909016741879524283592708);
  (true,18877245180752003073416076486295133099026497716092375186314706717756047076492997363407779461734632823265929534681);
  (true,2753495021089497251267167759734435766624513675658685498950674145249693719645966807311112142177780429873564810881667);
  (true,29911591622865573690121859584290297696978696281050680565823710337490618205681958042335879927531301646935992507878375);
  (true,16335430268125378066192769507766409729574994509388691707254811096621771844892982502699171218608049299440408079683660);
  (false,4199915430056756540131676556330415733846914876627815058406873768873868549558048294638770949140411648369574727675197);
  (true,1786911730412982135321585759116521741356017586168603937137522787474730784603216070302760855000130453969992152686);
  (true,2660394877584993956797218592814826183956151197034278388977059019154231903740382330929035224205030480180510470485676);
  (true,48438301827646839472153295800899082648070015366669494345798491995439120389114586155543574611733478269796225510472489);
  (true,6044483992928598254949245030538081799896682788455545725512430491946886879860820323128638265547216383732339589901246);
  (false,9788732870414016503498102767700708813269920342221619449395096998848758280393850154118831643646826078960955577021068);
  (false,4077469002286580081689300258228074505154161254320019506519079434596981465348605904028770347381296849885162215864912);
  (true,52632077257501894517031333334283310029720768536944177635183825309319763648629144198050100002284447483776248557832835);
  (true,2129408410744721294238081125297519806025526370280545480072327014273229234788254292088391353363351221828965814453583);
  (true,10435526682625340994727632070123176533041556009827183151470117495807888113023612712660064223706990873877861088085399);
  (true,23240196382157874564018647126591236792976274582940761064121084531722817989357965987994337659233406364189452098539131);
  (true,656158944021922786281982077651161877479242421839301144406071092930549441007402763697220596236155688257968508513015);
  (false,3867400614893147943177589863156845367124274965077741258879167028152217126713967667508976610830541208314099348466659);
  (true,36528711507498183545740295756045443695844648206637184422922705979527003269417326718389311661736469432418552532913454);
  (true,295473058165240980741385293248971327316744186946802217150298769865676240350238496163470368990949720078058159421553);
  (true,32447272905916498540170964919421470786667007834709314329703109124326440607585428882362232141501941082535900122759847);
  (false,12507402239157554973532661207675198297509156949521594107531357253416362304195289096379951827448629364917070733675760);
  (false,19567006882495111800486524665028740273193654553419759841410130858942009362258817154202529573230701236827640424348183);
  (true,18612184108765771097850873422473774262318268871101098093163612282118808148210481072668896764072238148673587818210121);
  (false,9996497946417358110264825054948602836783932494643754996342221125088029319228827815723657385270013779210171203986764);
  (true,56050603822901448126304613259372883465311250936002447631123278349849055167472489136366139801906489753755728713274786);
  (false,328306316019921220674671184733346480255938759933932611293238640942139226379309279013754273561100914144359716166437);
  (true,37468705626270174978241006393457475162053953860634975408988159928392270987063978246379430203895828561788439441014254);
  (false,14089475192762039236452741970837529363360268860739580343770779028493262836628822789846265296119952099073001735486158);
  (false,1895695826177744893103257290751668558723708381333509161219189324335675101237584553232882650594309265533625300633686);
  (false,7669325510115092316778539046444287390582127121285029747698724888885352493535336198714823441697805657014306048535720);
  (false,1357915692444372711409431761987008933448182988242536399125944978557247186026364105379771339440009154483724753282672);
  (true,5137382749721449417316524502895063138972558873223737041266934974072788239950402996515994142707812197739066852858891);
  (true,3628942518773185991088146307597276324638452487116880324386666326083101776121828480154382033338061599149131084436374);
  (true,1089268591199523693828327922674998999507532263601292385039239260219815485010086020501491175643626749246497981903586);
  (true,11409367184031661103737748935888271777341852722923786658921760338449400454686026457497118151951938179711553542520454);
  (false,33776207689242687997104730290462213715442457628095353422972532542098239557140068398578488741031490818756277451579624);
  (false,37264386958544081270851234278665307582071003728488717705864025298096769010188442470900605107309113273727868129417862);
  (true,217572627486457982866154518060786098874783997122054291032708654537814656171082164769515579408224364102778717897936);
  (false,7479721274410221841723954151411386272997500798996724336895380560851512724095364778618971003065372096933606822074592);
  (true,2188782363483168579592944890739517034279889148291992911629490183614285954960015322088404310367208045333198223624353);
  (false,4765345106153655230365462159367790420780372608836923681056098339782974667170979222827127479946843815500974171385);
  (true,13345757367494562530894912901437693626657099473041947511829107190562459970946062040598941993084521840719232702377278);
  (true,7093908410189190264945422405008611699726706367096687187929790100605568634054149194738311001176713194694902053946705);
  (true,1108654945573325481409033972164438696728861330307080688177871243714969248667569691862646388308383131590822251502321);
  (true,40103955223955984627715732967245425164753376618434238029975939259897319103675879702538375861044674737619456599987588);
  (false,15088413959180995584373160805368744444621788128371790290356087700829868481888474465140901008890018071540350907452748);
  (true,13443050177121750746351247927083509560246099133926727597323632471116713692771797878248190674807488598836741685097594);
  (false,28976503801567863848831511698733968968180106158789767574265204943685282045957554269310116338013893216481398139402714);
  (true,3147319405781675393501962650734337195245165482569766184323059490480586392058741694072190823343874531039753743393102);
  (false,5332296275416329430651883730827374000763729232511874736051794218790154691992693089546919142446820625315185594593982);
  (true,29894365005951046373277669059553180394275633716324440039791270593191848611429166893294064272364553725301484839727441);
  (false,26610417354856170476319410575293401955806475281275743203031127119619628857869428041714364698075021576942745678220295);
  (true,33720718403809287332199461703927979717442949772477725056626637045148117530536797892229036067164339478652896112832361);
  (false,24399581249153355025662117268302010345983422581447845894666705143187061012605735842730994584569720470341508942141129);
  (false,24993006260390971735885209081367936931012166178464109575010261408325873298487025460418718626603417743847447339022333);
  (false,17788364941400151470104131177507949205206098880922730498507890926494067702205691593381033057409684640615536434931004);
  (true,26528459326204860538965768559233758850096464804286771408673323780671401353441672847767915010391945289287414122414425);
  (true,17664827345515900567640753002165619424614186397016048277896797124988255363992831603220255725061057938980643185665253);
  (true,28356529852074865341727536634920311912070884518930185712047299067019461124955821808858959154239184465982341334391719);
  (true,30080715789559680837505334073862046061492019554105748261907350629240502849530761977592255236594439965329848142890465);
  (false,5080320524839927073241124477028617284976104109237180957064291273447410201660243085121426787247187981345092250825351);
  (false,33004252988101319843196895045670769552112056295534512461169255021631201065369390581569071838693032508390736808645383);
  (true,66229165816632208868702685592187206138472052802431984485709155728005100961394558107179911756093677890649770716826832);
  (false,231486312050517383764715990393762395619674959425566525138611208437185639020743362784541479976717251749896358344222);
  (false,25169777139138447044586070306940072334386413594477308370506690883085200803001702069829297779156634397104431398756509);
  (false,4708996993875855073606210019342144999766265016490870410081481076697423398483296340811205400801696964959632228938176);
  (true,8381517116482540730454931221511097023639953423196928647391394079818997669290359279656902386978354032555280780240343);
  (true,4622383012529357547922066628734896996920034250970123704893444978476508750495646211057916743165520530836194559909550);
  (true,11366777915443012327048233353964930427090055438692702557406063849943682977540693904157040418840970329646573218861528);
  (false,5216508514290883353862670777505644948387208555011988021898325824709250623434878778082952482408598294028414700841707);
  (true,27687324243479885469573843228447417983922946600706437737614354088247576481508944993492983380603630040334116608995067);
  (false,9514271967032565324129742271804373044353297694032682988652469414666771296902845731266477035622827933555941183475984);
  (false,2311234944962204552626679758364868176767988117041729467217859840143850053782037254552104643213828031775354211034911);
  (false,6861141864575340632283936774971187250834432246346840887008068911349372576403063516686523909860150855789589987365308);
  (true,57140285547889259337216958310784041968361842064672482586274093424891661303550862670148067407409288922202177145411392);
  (false,1960568954845403707506040416817327678206401061941835316504972419496604058124820349093267686647745556066821069291063);
  (true,31349688848430076340016953602989103002168557513210682136874976114542530398921008776041235831253315071788581079651203);
  (true,78226981908550477285889627766106379551895663927875441600069067768486690752314942297982001490006059335094554242341902);
  (true,44559254002325184973754762317572829512406997340078297710527845935401693749792275828181448276574840816478422666395);
  (false,2048256801989923931970310208272582701233577270444060935242656316911142574793023748154530564974608806940599631748102);
  (false,38785216340681083755749655716670724384796652010092506390224619072280285058735362175523673080654243353683242319573876);
  (false,56928683707434089582469176360666934735328192902364557695145494325476112233838803511854734157303004121246999980888);
  (true,13373709742263322165524409742394095671072801979796763147779281597920908010046280137876771101977486613307515728701197);
  (true,61139503066165699935751869436385379492878029204936251336978888513666860955151422547576188674200966821358290857671248);
  (true,63209208523210226521912249863096753846464657430497190691567780674773116374834070455496196247207327858133099791461691);
  (true,19456670089880288477490113139387203818888623435453136866353301704230674376364712890176098394829433590825601232378489);
  (true,5697373734134388254672187234554043365806725234300263745011152529711959457612619392128257123016062337819936976568245);
  (true,16689704525142679769400008341022775812255530673823939733931986525780369459285655507872510888799180335791609722733925);
  (true,6060233535629205494431366433537726711731522544568713519971839424583415164787422361919869058091836498157311096217920);
  (false,38073221710193085227150353740428227270387637043968113808886402415832386143769046974299511447643754908505739057117957)]
  [(true,0);
  (true,673166592181423124198836870385768636779463966968358397387330795512458606264518966541505247624009299132310477141142868248437545607284828528181865466926743997100450562333784638673101999500470162680946012740585818134490584582994895136);
  (false,22455236006980614419248116498875564433976266207816322296661861304059105552950342369090501995306411732771980942468860);
  (false,28571892975119728340964948584624101830719785639948511884850413886329736349030571721294688937006285858590077206675859);
  (true,195556133194636942198895752028855641145425733790319538173075141741987473922662229290880403831865147684634454082809145295816451978506132147019455678205805299929565074293020776746544853997219930919691520514999797309362992330572960695);
  (false,1013070385046510662034894980017916573656438271848748086246704414963056393126953494568027261329965699095258599139921);
  (false,1884290417729805489302991189680809501546845637070692799587580236417929161465856330296594060683841657583459108738061);
  (true,5337745579467689641664769792741040593421005170969292904857306610201325832386586224406426489489806269069350984400231639799147842828681604304050952715710679470432734920034940871776982794863798572754147776177070935953336829237621519);
  (false,11701387653423457258714045684989221881460124554448334613450863031240984118981005201791303518035305460589764919392962);
  (true,146185649357194279177196034799852490917093389323453633381763572577360009452686334717486982713517736109819798765479303942523414846850117382732376727696628037250754062232582315794934303001326505632765060691330335246108729946201494663);
  (false,13967842250642740859319642714394729813675389391331138022013296014166574485652823604874248998974241701160381417163289);
  (true,676431472712621829042755164494435120593501756492466146402625357906316032532611251074001223306318823137743387134638944687931054426298375071686623485916474246485003855515339118132790257669400542533872146551712768717766135506376551118);
  (false,3248539707241125986049085321439447558826955179695924364736617515452667682803567119002734358920866147387347862276923);
  (false,906671148576197333947629458144270921723665861917104389694322162705253033214901417775505124283333548372726213201723);
  (true,578233561379753185609860086783505755087080658222141374543826189214933353754317211987399330281743476742192889296197436779127175083330469613390101262008371576017568674159649501559948527886258191721321224515375559263167891545157450806);
  (false,598218398623709171484720550150218998340069102638157534311241801356812899425756546667033469139448345385241407743948);
  (false,140505912808037954316670510780300092579030284689951681767739275011355620747126463825614044858558078983679774977771);
  (false,37654144016243837635662519873726103547628019823419138318340831338981338926440961397424569087509488063457909830048129);
  (false,34579171601710137860747514306355963270422864873835068119046602571914932771305254042807581004887757662943842643975451);
  (true,484253671327090996615524405969212146927280956488235058632721201575385184656985975310616028810686821678886306472394872687208093257676643279519265172761651707679007066432427230375184867966113021465892254843208730701544533745149537112);
  (true,258194666924588410919950265065318334217252972188958928831277998552653311915073920650572503174777360851946599327396247961774379381711293979648053314674846170692593500512006021787495397047382427486950548862172470444009150826311680953);
  (true,87926382841031346979527508161544993501081946940644579024012977495446918387390045836588782655001391578127640750596944743066394148975685204246283497939744471044660616628919318484846037472362407370050980466429605989740770554531061819);
  (true,102844125537162872075929767396853012767316466668105900287080714330763403563781957879031387415833993686476136382216126225407519279613978740290107037187680514101409881461147738414203550228120963487738390032635180801685470003777252386);
  (false,10441272720103468991009788840612980649462968102899306730810728019413021504603974094457135098569246836081762929250246);
  (true,123085909156409779770406621930829334858636806518770470672435153777165049574546335666096641029143149537104858735040364416364727953060702994170510656067050609995249307841303371888502675781541715637945335363800558067437281606630750766);
  (true,10562368232858558336978829228035219267057721050946793402954081798823387163032812454652391780019133348532173478759497354566062513208025565908014951586277940536764702192519085627453492150849056731879627322066837743759387280510004629);
  (false,29977022602729671476996677577197521285172940349066573062679366566215080623020389103338807905741899959199468997459986);
  (false,15459057443761774008201906469351412633815842009038563150736066826744144614397183828015856205449871893502330237032682);
  (false,29027296678045175742907575000661007188327135117444496657196986743773922822735332947566369380221352628597203196606);
  (true,332197681465295636204530890635323893099836870437406664838956741634295112656669427395051972415161365891018260219396901882167172249349245626069275220468898199254392263121545016313261824376357548144229799068336289744998633572660887686);
  (true,1173206605971508317600919833309388223869730296019006972728782413239194487619474905913535717953713021987233315491888495519016623539016175636371255350875151444456753953381901272440150894186142188354730299087177728941710084366560755814);
  (true,122951302030704388191660693427685590228408256180938530706517920332553082548122163482810944974892009976319605253581119730639145634299330703045509547930149657100708680936201278577934525352015234956029032164478253808053376177255131804);
  (true,21593928451503951662353534485153661955651455388656371653699779947386741312439289974246879756010241312508581598678275653611917138526669860828861441322093596677333441678405451616801872515183598723938747647229964483407160077901295198);
  (true,65810429764465800793984977934191655824238910203968631323097077255156069991243704093798474191810801386874629035894986540584100388981890203500926827882373667679360148590613389020597166903777192331691172489684851534410391138073396936);
  (false,18960843830082925507047218363790464917100020052025691868816104869771927423859748167600292965723457592515832291768547);
  (false,176434638673932361309274935146511272469018577171632460524366164446622019202757772783005544127046576704652733764667);
  (false,32457581254463750205702524935935449798400611080170935868566305163306595678433217871361415217149379195568214650831747);
  (true,352272586304309301546534381017685705192357432683077065828738166076510992662943273462162624387743922680606961220210301870383959081219961990633855641250450361519151380032261513000832619401831242747946422455577267258620237137277499262);
  (false,25422917161945101615194511950034115206657617571185286339240290942297118510341440975945843018847814954317859730668117);
  (true,35746631144606505006456042518693136113741075944045427535076537326494416806534647376801050723020096821748860474055616524128877839518186863818632617545179312535419074646277011333535942482238497291542766952952072148987211084041884893);
  (false,7235110925651800229872002717844212294997490399913182826217393013437809156210760191112022356308198855342553141454851);
  (false,33040222780909507444911028431199821234197479806204031572956578923133308303376850499176584508383523039003166363663);
  (true,207049942534725866035927511489221173222679177875912731503058832784666397400550449721723447549498276049842918419415596257823812906508007671875476700590056409845772587804162924337039751574322954353827535507930368568683586924286024235);
  (false,34968007343506438421638560500648567374823782462350931250076516721819929417749390924762241816187643362438253628331774);
  (true,640159759676392299303215327826252473027680970331261170336161379347979861474269224371043211014317346567287615972813594517332018318402565957528590506182763762624815505503005401789790788264247741077215916599639345710907793407635435052);
  (false,20571003821999686711252483014144708198955397857978866448808112816831017103686243988058337215562696715083251588949457);
  (true,321652045439862352075787369980801428897338028294535834434686988475401551562406666572067486241513820468723291989717594633542616482141860784089615925430827259393918628124256335270227504019876262164117337277514873712161097565279489404);
  (false,19888429539511754520980754875343385434088790175156714768228028088794021563672808469453582495137934802520628766510439);
  (true,431560098898537465274463704102544388041941171453907058715813247102798046321394154477795302105669165017700298296528223493235886126180744706434498919207255073101151872625582746277140294950114566859514251940423530538587978458688508186);
  (true,689011967890624593827406348456052331040661589963565031078371105277188580331347468813851673246885807222424095262350330803959475003565615755943806072283388657982523531772132935235779534973960180647063077149021631643216898453798450770);
  (false,15113368445635747039772028247497897294362044673041422023181552157544374507982191048943606296417990787881123321620031);
  (true,152017816804959055433661635193871470511700798207530008405579496904896989893615717801939812428598088708885636998595698129134167921656872893125002122808163970715245729745122749427613943856198837459869648677241784192843676712990102170);
  (true,106516902896553473743725256234907599073365449521772759844679169858474717935978673538381969537966165839271948042721477276625936263639781044766144456595905614400941416826692718349703749898803195201937230748896737069942590631439172961);
  (true,343568285191621758154723873281832747561742908009135209868512759647330722753043809240285177179881875429648113190046218996954844928398191753996196085824403385519090952956737415010671239910340184351620194997103184587905824760250352172);
  (false,21604538427572482801536759061208383825656932293873263246318340845593835265051420916719115500154555353292053897734818);
  (false,14342531812737973416083902855443107729367793393315275747041365923455900566300353244788542105269593399035148708800593);
  (false,28797030509975312032928145512505515983114141374654838946005135302255676485843780762172988130853712721734953974209524);
  (false,17246525373006800797101823091364911630024187104301573034131356867289117147829834572025382478670472591614928246357079);
  (true,159634551021170782556572989224519234279940507435815911921400767465266373801657289230918027511585692200008627516589463632325004823587644050296555902529774689968723225362784480854356801030784726111759295424038245459677473759506727192);
  (true,800531771862051657380179265136761698196916349922805525010589950868928718834684125459503701638394997391726040801899935085263067962767147153863391105850157588895668680366354004765780685291207272128394445168382781976548605607407610151);
  (false,38455866200884924665024085980366763953417643157513160584388200811255006529518991035123312403154746410231721806265981);
  (false,30350764304209049141223844252430468296446766445960759971013703085309409095776111973293851244754023864795073956441742);
  (false,19360498306100812440590755273219346312964256899632729544352099301171280229027809743780595557265250448880333179878854);
  (false,20603886553077722519890554687334709150850033598738167134771132833059626309416738998798107086101072769140981420992098);
  (false,33574309404979920379443624079007592980001166520263515082513193553868420281871211108714289925265621209435010112232833);
  (true,820105029164782628723624851339459477070970253727532551590362196072722673673254969572905392468234973054734126670566798610145625203877475763605252316015595462407962227708099118957446767511597427992748842316698170547906439774459336745);
  (true,1150807057950550357979089531432254522117497021205213519317798410683728894183167860434188024665912527974902658582226689129661610117525159263768304405585044989095933120746423128844315101410605442716558387199286592210230470269683150663);
  (true,855170489315267787459326499722703779452255887532757117724701055489229398483723366329920076908523874965081601540464907834747981453459455506073389017657233770089959741910319426657534604211341505577152659406433899316894068583690332087);
  (false,38667719427324988893836513488312010847867432921112466707148145334810054860570159496599284561832973925799337561827645);
  (false,31602716451172828612388215631237722358745618465131569024322283915163259120689191255044973595922038250942611787538159);
  (false,16663223347536895745813590463935462258314533296393784112350844925873004117941620881785280024818541123411502980599632);
  (true,1083923853714883262983628313765937102237781573122451760142347612065288436508429635534118722188993848119079787154259753345708610078725094542306540871805708133236646609180172607688062333598703194673452738486931207308680139126765504515);
  (false,6477856860925460529907524155745372931133298176952749073793544995985478467157543229892842390390927820556865856414522);
  (false,25637526130386635271662864108816452099952266787027064772407592689965728282850447367151836426238898264607586144168374);
  (false,26705218781858342120233649779529009360730487403629185164421659122086328922728348082155029162127501694558770762267304);
  (false,18479728457479809970008135718122632364282963588521514551800653455012069056626812927614255290807446283361825418114390);
  (false,26431453842656485826980005659796259005647199980328605112680544211001423672600881568671795835110262522556095794859228);
  (true,1044292446506412503598129260721780549217564845759706840807262753689680192756369626360358389849644333148934083248368229777169243169650008365350785708204463650768468487523132250448943254602968323390946033420313542563309841920654023986);
  (true,707839130495396085393620500912278919218804002467822167221986624157962812846832128270148997474879441364432249331687648219037526455835009623309626483121435608237863154895095090509582509298714688615782905064627896075310137211476121071);
  (false,5422979668892679132878940805360630459409597723033911600988274764376646522791384703511330619294650792708209417634177);
  (false,521107829032090112678578745918770823796658502183132707233424828931345325537964030801137449904380679512620013718859);
  (false,7395194815237034364424951338829996496293253431739459125329958318043918673673077530476324759472613092681311259637889);
  (true,145468213518807841955934810298977183260370593119166821417215342529012320973873886803832830826425768305986110321949818146788230501788196101891776136982737416563850406045232630313308065362886869829678345914684310656057962638758536378);
  (false,8746677218428429958829384338415972905440345210052095966789390700007983308414949662321951315386010456406355202831750);
  (true,40428289563344053696456281532028027767495465863299328812820157083608325605840629287760912067638504773215307891063714532886729315852301978596508719700628756567814014519524170610264564948826787130232223677526927032064061628198716312);
  (false,37339293651255818701099094017452703832829743099902274368522283689943705301946197588594762167556262229388846035382585);
  (false,2062246144159129565215965642966134558615101633588240900409415181109262687714002419761303211500424295476486687263850);
  (true,535810692777373835568919767583668643543892754610967143506164292368246258662165801887000048982079958443429693026770364662784148942231117502294474380463525594413355110062680060948527271906722934730127577853964843327669842331608619449);
  (false,25947462630283201075505331422105912695640392942255225792850961799964907705275987135120168254651260949283020885280646);
  (true,43093010060723329359115290798027521073550430932875777800125678482366501768758869046309866714926385750678634137321687968825069828020744811950962669432303242597912426661674090805030493949665287414089814481493584382247818817253649208);
  (false,1910129270244169150739534721385849822814733360727887669542224768320980842343163029970310989624803884987233008893241);
  (true,27423647487349374858741544676178898586944823360802603997228332791521304894834384186864586357580991745458240547774995045410280302250948283115360523694076685605265659820325581912608157884312743051111248980788499802033625082447212036);
  (true,136478121100174299614586115819380854454949393614477292348310415200076009319739098825131765572764016099350999364656639593816849406839444385209782419033051424172947686272892541515075074703811093744943618762781735598084163536888217336);
  (false,3485761649128023460104104481896478224073302666485201154788017272897324142434657163715227491013414015949045246605733);
  (false,2606716322312123373138142734794735279565503695809649649959533333203414124067183998196337304384419614956281283788051);
  (true,73779998269910613832840444882593877203192897390733713753846064044807967811329545587054276560172970972535876894878933210651786408753963149066762689912974571943731391563628806382070089334330703345161147332923538878751383642999680384);
  (false,30556887614674198231219481355063505391341010715813150998036239962437378209693677455264463089863427421326391633443839);
  (false,5228844285582638404026058094855821990853156232166293674559006165005361469312377368828108193878158969556791422803620);
  (false,349654861832238778029518604009561139862275866327765336149313380867173652780534316028176113924176410216677635043005);
  (false,26650896025113605424174965773243998372079711433980397195911545446032047547914741906632964612440577688696066268474557);
  (false,1358084917152893306400821022857269260286962060260798797276333001958057691378252705986506640427380860523510451802181);
  (false,2324495046145841723797044809143825549209022977453028165423047435559569072156837006404370808208116725714528027360803);
  (false,873642684244404704778779799219133694555788865137937812361887243085220860771807428436949447066025682904528596019573);
  (false,15195954609264021176478241777315706919044082151296699505416736647617807316714869405951842533211453793157258805388062);
  (false,10108752495402505633069771730938785314885150438058902988712312909810542557652262912989782459844945699134229816285039);
  (false,12282429249318205176521954050947141495945825152025915281975394401050545825166558692606733270434247748636670118368578);
  (false,5483488157535218793344170523140080458586701716443859479877086494988498303718442728198099775182880921352657390259586);
  (false,1464878274883060276266295484924787980591099889071079975687008040915069447323033575081496501608760924494284792393928);
  (false,3806149545175798085723052011544400781773221342061845976408428489118272936924354718149676372528580028523287407241644);
  (false,3690187720436426066641220175659684024743745841690403323419955850860130269407548938030994927912975607048291144712119);
  (false,33333902631494589655541826463141047515555409692396808987487292369144105608807920288943130330522465937264640012893115);
  (true,872098007387777182476066251757187526282766726494060328712238918748905720717624329077732475244742395668797957440980277547042257081024658280002694117144458371571645808922831284138979987889489396074136017179103139023221157316869649491);
  (false,352445498443773021564078670861879702712923037328107303234623145345856869079721283142048214580961721558291754972524);
  (false,3002387899010384841189259428094972495201809660656071328536409036122386512977796717036231953322111809470408141006148);
  (true,229163679135994911889967505237132063908240939572040724836050690334723413879871127223333790763100812857427479815175531951650841790497658506464008021750141097042589362992205073375509326654057149912116910415864816663043115090431422944);
  (false,27425075986907770558847208467935005914926871093403523093141308353737064786191610480658401973083998792769046144952998);
  (false,18044584705579525343003327468745046746056965789178843942590458994126322272804915356843249723278031761572112347193575);
  (true,101630315943494769853675255688903305060672946889763030171993569081129815921586123547956213231524511496546960668284447603379074859515954205096868272006462943899643828262593750841268380313149390779126504154486766687281836995666999445);
  (true,132115804293817799270432036160006108365045373564067950814285180792555402940483985855759828294541287522078867625221703747157327118888907821110077771735852638494232114221041053037229344481013275167087212286269024775984665929020758953);
  (true,223550065500535600215013240736174437341925964818991230390398251090960148985635083999156523771322901685547844425861196440999591304200340357907791303551308928405312788332867732853145173172195201564950096104262637794650332194428420813);
  (true,153646935412164606781783242258117485958841954969388884743914909836492978552007968752405446490732826773133816362858057184724999982929955936488636998479615089611991215628498303840868845820107606079588945885406143752080131507063742863);
  (true,139134436433169769983168814596846685300006764357086676964809600827649607203102477305006921392066070086109462168993162352944430810046956368706332967862213455843334001082493484824079730158572226854481212763833398133966338796451114069);
  (false,6767197824949627491251203141672385043589761681063262497031245962749143118409357989632257824950272643739023927932934);
  (true,404614499926236325831830451895220623833143746605870189902179956847346695993471583624255591005828019953027191393068540163485942819632758957256401937520602916054399742486319018504435678385727212071259609489246135995908266800471452737);
  (true,666577190282743118136707179957833968435450396296297598007200524868457591303627350134228985786499632167144307975031478340085121692125766021359326178685306915829593362892893389809795500681383680237687677232821254512771204987558391697);
  (true,47701170031983827531225675792267660774239208364671988686620429859731782108089185652597585312103432131150529146681508119318558893245905825966761691788664456804970507089872532578922709928885139515736920644296054680724653792548336724);
  (true,598645462994191551857169471679209347534678253937191930161003838299838551318805465562703164561719351970336649647132968901331455612836487011366243223992898611980330755263255352041911422497991683943120073487722227679033900344108862617);
  (false,32135533564702162356094359001508843649906171417137710528417029730249434922723293409764897054651678117440322493182122);
  (true,991719578309675696521970980990998286278262724938608109358230512373057259451566648786432719110644383722436366080232722139721285967038776323912735900713954187453472478414049303347659735699953283868304043041324492519493392599741538530);
  (true,39130814172751486589280206067330144029534958517834328013113663491226841779821224221318647937883923472728839359185762379959386651204140337796653137081577939368994825071222326732491265839429212686218142528055026547251143777870851822);
  (true,469550791263285639388393648707114275585991446974123650957266690212640458365260161961564257582830434420035136119256656467597882168649226498106573038345491613884674453711650317269881614465511830329213869761604016577835247319028205877);
  (false,16369842149278998902816796281691474836293168078995291778464614153408325339177998688918357737600816160467119770610147);
  (true,201394379541311188719827428206991289333400036079634853909558052089649929654103433676895332858033659144821173258282830842872042499617787887424830263532826851559134574845396848988149463764916118766143243573236363097887390450085162742);
  (false,37244766708338606182006248263807390241441141115560488453287204452526801847944477331008227337266479782984299672175489);
  (true,629516020431626231567902785097533594794797394934550146695102250962451331720162976080043501747222042188169797837269527553844218937920248003530433249876456137381364578298488409717400279912787667040056455843762520541415072738431327680);
  (false,566326284581041328682389466835245865542138390876814560518592895024862925573176048135950493533468439013545350475089);
  (true,339365687509943945916780849527067905299385521928116344236974875513640129150347449841010917380637724667771372584174825790296880265294406951504558230448031850003365596707175168033329696197081236448830700855954628164173091838880609920);
  (true,225303023490341044317973620093460292114698387974905865006667458749732502832638538513487408988457850919994648293324755236123877851400239480329715112084881111173344543308472760065858224439319456564302356424795432593143577610689073889);
  (true,914931214162743143751807558852524588923089802006889845487324596516646951409833607728037544350723188836431722690516999881243647685038133160448802561926306893757132987860127716110277503157602071989774120764312346768954177512789507561);
  (false,30501946195733464994265758292674591066789298643348569401755143290807463943844463702129009380350720827729265875004);
  (false,24123890886915610523679880088415376000724090344133983257785095233476607656174425498207444145482034037567993198446064);
  (false,9790730965069607037779511771814196316837812179264377732991970673966926468501585223400382492069304718627841836264627);
  (false,219324740612789449906519503438177398553122142775301682309649493457228940596000488617833697623817272262193532010653);
  (true,22065209800142462844034621972183834668518589038373478934437628110816107295239664781741624869127576462562196735953648487763321070453186676593595488311845404361252140592394216477007627570505288939603273012197962609467411005995380333);
  (true,179869138527890238232300254639564718463715948445033999983107929914764896876666085893230610800893187973142023241807327914484561589331145530670011444436650524499494636404048247002709393258001694539877250037489626915749156848745810364);
  (true,237595066275680049046986173826592474229014208362440550411583869238639006107347747114698134963313067948111463561586793534733064366228792002454848883903025870376007846082671258297245769284632383945232707197421689491183455732935285583);
  (false,8010941629755221663633815620754087923374266467309202740882179820637173298218169887879757426175788200759756574726486);
  (false,5632482679372911266739052557900300437591597393446075791738606614328729149736619850525457769790451099724574909478);
  (true,276853608323471638373561622443777634866787255986260933744574271394166458822995956471064542581100070052290929225906174080967020041344204238022127988767017498676287715987199826854377254328202516175376529375325644019579278976634554678);
  (true,11981893974864007987599946867123230223559938273118180748687163278893776111550049903276664544918217094802174823613284653479431453348005478996476133709268664501284877097429454268726734260104304292416462817739898175133127410614931280);
  (false,37780628635316547344218788063939004099723639355199674101344200942175647424085092249720433971701291748471791385975483);
  (false,10800533554744947494473375736377824140691737707014836055481090044210841070498622844688438968217977848877061728460565);
  (false,15772234902400896135099702402256265434532824969003071056656921850162950126538975741649643953770477224518149503191328);
  (false,9491535757527109769925455976158523653400278409656807919461650268775580859062350498700835802984306132076683446912775);
  (true,60421185610076671249127225343056159442871773388538681517788443004981488210933366888525199194262426613711194893371378669942529408734175001908572477687599053274946992308309013281781290777905773543893439988386102014822771670980592836);
  (false,2546187886576319233740991217951425088709253174382759598619070976966172261116666595751543478339779943509993367295);
  (true,769040173912688640467561141174298873906293322663847336470308982546592901325516760432488254891174214515260868684228388007653794689346496830610932456653694335684164151386012561138510065536189578601197212551693993161750175448318790238);
  (false,112681406866076011458942581531311495543245489550044874586398154311885258568778792572126308012288452426394622186849);
  (false,17966776169045679563352450746085811034732894107936954579182537520794965846158711202584806241172858211026414625803627);
  (false,9541069118797994035821850741083939701805054744803352608820006545755278962383182344180627366524699479984954156665357);
  (false,6179028996250705499528133643362594388106654671117966493964463382298615514307522555064059739130372303660878708002938);
  (true,201139507875315212725034951194627243952367577923797011097161303254437291029068061752334718191688339086917345145537588329957246162339184366779539820277765541672852191301336611475519450337107235310707048748500443105881406522834280235);
  (false,12748860030546300737939006034383924655163561341448756683601456928352791418775045702855856900767071124828828298195823);
  (true,9055638731990977160692069280786404145896030805992189552615452433419304407625167889124052302464805787591752505714110350259346554078249275993086381037569370370172929964253205394873254371566857045824572238605813769396344060276235146);
  (true,117019705506619542141502443571148294626974821887794302921870006722148521657814503719775314135647460036157747227956622631947493126235867865299653122147591847993076368820286384429092650364224006337378922252348192643880939602603258074);
  (true,1209165648414561113273071652119640931123606349876228289399268273552100362829235531147067041536871361411258222240863005246816991448334621308695427698267205242505243827598610439193258469078789460670367108526884080013948522952786100);
  (false,3452287257229119943443959014610304448044899742971979206338856006641009811627599109764390375224985932482505229694514);
  (false,1516445277580929794573432198591409729147029278283915019175140483017383393186534738720410967674632236849930714515592);
  (false,8597673973775800760651835171431036784677386146771521842230083470071125991004371080989006987573320052648525407119453);
  (false,30246106168878721625970362868025448753622539997909452209590954702979126153696752978480151743552549170640163409799832);
  (false,4020569977128580105936679410301939624536320624081474664200566758844504129455196070515491005210897382808021789731720);
  (false,34687292859059855066670851046904681145930983337436447678753990093476141552333009130506032522472383533903027287005786);
  (false,166875607704681054021125790943939364534037192968805174459439163120518118810233541085078651581936160497396140070083);
  (true,127464847999599792414407695720785628740688674702388524189778785365011506405065583056199273665674068070760770160547444047617771501991218337165997516483886431231256761428744818011023498819565843701578755695577704157257967179366170699);
  (false,22606410713728702686126391227870400433883842328575261445048280136708106805004590789626471874725688175918162394381974);
  (true,894010774963668065609923039368330275253573028282016323252942218114701577560872929017194159666424690061224270799513897011251681605009165391821533910118604589093077957296221616449141258335704003290160747157033392928523833262225615098);
  (true,201552608856397366345831407127193176418724120053142345546132570270953314991774865967203625201131899191864783410458785534267835630792094895319174983465877796784780125977139656654597673823499554245971468046653056499521585669655250380);
  (true,866292995935743489347137440109279376282741603936515417283738660577551692610681101695758093446222007296810239568415977248247869320145285981344820892072304910596783525847334822955865795328825235732551517826009453098507752394550650022);
  (true,514984506266279094245643444259286714528217666105428268843076078063858216877054906942929469504923641362710062817015864238720844080619147660416721652349311679508172493483557580486691674472939834116355613406369862238348272465419181733);
  (true,61244709380848835516834905600359639362755523428297258606145727784751003466069985212121306214225365844460426971332117884072027927905343849198419944927063549487237004176680284583567196835352861972670521980339908079586371434711917661);
  (false,5303222340696305834642256560081927298216435755346914117039733314972912415975814357136146082883497366081198868488);
  (true,188003460209312570456157834202790272339281861765214198370411901564601202118372832194741980909585125671305449659865971417205589986340038088306822252032872280394472451905645357274285247090704146355289030602856078163542793556975981143);
  (false,3559869591044808954679467206535059255553216027878354046783142473004633187041412145656067919342691985450293946998575);
  (false,4262883854395507462172151717970059953049969780621376649148220191134028559497593512575240359043952339173125420035147);
  (true,1105634107729817879980782080256278349716661038589824531203356205977967400536514253153096514620948054040038884608786944530620082776243851203365282888037470612227608361073140013680580730538812711603814717193870107890234371439206839128);
  (true,523642316784045188154411264121616283057933638120090057434920943631223193546755518576584708159080713530264058497273118052687069414233697762154739925118236733497073453146649196015718518134356097105094130282510838354027116231237636);
  (true,1089229618199608425853016517586292459944595029294864524244467007450022811677987861996782958766664346119864222262372240796202415173155878705305953677761609554546595430240662423288601460795805692128737158238872879095573318789014015943);
  (true,66154214935629096970225002242312078183562999246871523760413529481738795126635054496573661762546750572038149844814901705264001629703139185049818938706764990929522845744645448644523334674129849571505246572408838983997264130786616801);
  (true,752221223508923525628088529677574974952026801688611096841469114584836341642480781339137705902022576165325806673062366427326257463106784317443836142955770800878466696226673080296595929227662490602299954698560698354444642395821451251);
  (true,746932598329951761478924143247527541039296770212443704039954639782522709585711685965344269048018242123053237363817659061849891304353862846750147701526271713955588133327394937844786128458192191127865655002805246512534505195155658780);
  (false,6612695929836499302437728940186898621240380953758293000963936601908596339036733618029896450582474809995729305993333);
  (true,103979476484933464339951683562791590011193169947503998381121915613665205598507637750222591969744676190500939278580412840421658389620247765604014601804565377702257615861415097719004371789621002671554960790520721597935745585623190117);
  (false,5001733486105822835019600525567818005899350540079255625772799043360793369355165260999387645788207251635464408371497);
  (false,97844882334714211170368463882753429071418593946052911693845287426931570015243605630327982684029569987775902416407);
  (false,38922667358618761294391257607605614345793274157221224614138834054167303360007572641159552021590660636105218536875670);
  (false,192605876323328600498260530076684073133643834051141633774148116026601410572024516830938769943754913085411158581911);
  (false,35106447502414114988036457811596280433035138978042567756922112754216675497896350437043644909853138656970045072329025);
  (true,2259448212839038116570434146397868738340145265080386803654752427148727293373575603874723474858420597768518213255570319988101446467875837224508181987641635694311518565319330836898829507765360451343905706692981445287148889780177360);
  (false,16034268985079902550239480546417309979445660795474387586395785380058651335705444387314973383056648759758707692323832);
  (false,27295180909460668782682250208911816297188656265503583647243231188020078804007903484161823028120759619499343039);
  (false,19421552462404599875986883185308442496501903329564137176919805799052654450709422256014160658553037636174985889555657);
  (true,14887076276878852422179472726536908436904026756119390847549836270727660537535472537917541169859499402970088071601731018260763012350946259595751041934127524784856244388459731976964049266984854736859323793681887980490038966740376864);
  (true,32865724088457111946242034975271698330475068434515375032239300739583388256398505657545483043625771519381810616054110885665389364760285838651561077300450685365139894258405720415184765951002878883566384280920912977670877277567676171);
  (true,155317243895309686077984923047001401505500190392572344763089879565196735149080834285479617868992510723613504545398050094078564996509300664654789325000800599757426209559656517004371914694819191109573419718612679698085309362296658305);
  (false,2720323473168456679605571039990307919351783614749620213800293354920943536429970305260664527590764865793726550938525);
  (false,91138057970300273688201566660334015550351255528324020750537320589442322078041966167296864685046409774571793586960);
  (true,157900084386158992063626409868001040106115181284624927913953562122273011625847766502530277837280957011405120162728450713599835424307133905315052739440301114997849251174208931634158848757431485221271944148285824460508280839514863760);
  (true,829203960076084097937232638734728215539019167890268775198417281999602641125465987009058058009393605030081452667003011940769560874519786605082382708049696016632342566346580653927748800361073500640143519218926697459046565501831470715);
  (false,17202286911792322876566861169304438941179547636052757025511656782254369345093239451259596207991077053050583738598427);
  (false,26378063141957254881590247743614033115688987781751448431432731474774292168583663101201216406524731246988372441328438);
  (false,22818678287844043510588616258988127958025531756753256201769909776174299903064503861632390637022941710908916132437111);
  (false,30921924821237482105917188757518570511196788604473793657827569994225162994837837047775251485970458080868229203829265);
  (true,5178164090555395166623738347598611229771519932051846085533784967650281117278917124945969950845305833373470832985741804894820087807625341189053980931511382402215501668065881378938351307104297569998035927297058289580979337608859526);
  (false,16400111137761301848430309537689401922966980749343697335344631882049275318805647149104134860445371388742560519350758);
  (true,77933946512602638882086780568920118406786700615694873345836889448763464904202111230289259054425709464614028512337296183279749150748471634921830768716727699820904405793177588527610167943979227532542946050407791882587181212553824266);
  (false,33426162808728852884562515207999095147348999912633571727508971367232939599395014569205510870616492485358930766731850);
  (true,553478464416517508809877784044808785336838619963077782042710119787630320312601106614078154305828034335256743139549553077797649188180352252313833756238921345640606323578610282948130874785667160440181916913796451207959851413991032084);
  (false,2045131235832844408761776427813010196133647951968167902067830776662653774771831273237450590477454102051111742994609);
  (true,34106698077950202229203187550966467412777335343702663416194347555816665186903399889291457138558463042712990250043301296250886132472990659141781732955614982956518805575099248791632538655475563209514490891801131854747045191976889324);
  (true,347044772480601132594253374858226672680478459870581362452506250863825303647013553172313104336272427395144974924577011889780244926618655269887051519161410773540873382637391082432340546142750540327274723941005886231425405201113921525);
  (false,2602740989531799303183548977978591757509619126206077167851396793889883113086924322692215436756315803953299609639425);
  (true,451672687629300186742023654223452293023131482566600291022089594589880089776895650256743949351744999799506646943047172643202169954344118527568929757231459379748155317331812854605036803213055785282788604600739383030374442213918506937);
  (true,266080792776831437741685963885179270480495326210150243604176474299453280945556262208109042773285463039730737391763323363396568137658014745516389770433911353112505938916129110736788516078205829757143422623744654203889293732439361331);
  (false,6017432907497037867151048264320266665476951571858393688992438385751846725006875082541340043651695924944094686950348);
  (true,996208209250743260687696579961798046340754655888913844882543009772409117475791111303622145790148660991548546686584093922589688806114197069258422380771646385299330642744248203086726816510782126496818500583454703309753258432900005442);
  (false,9924079010481439321072993787363784687875026606536028588158759323140424008938088431417181913843713446478647415003368);
  (true,638751041138591607611698018155758566378460874478048103716463670590330799314118704686108101128947851620551815230036341168105268741445984098664567973551845245599402706464378287910556697244968675492147763988278161810722597632921031875);
  (true,563278523320566730701554214920906214768938547049514290155502768392949872180313211870151351863441769048175236381562726771954471794707278780069757170574951101376498044551428224222842928345334217141536843053268598066871157968481272911);
  (true,2212143051902870707910722985658249256421933355703016533640084475187063811459923996117234714351598779062431215435269170571086969140984675505952867479594007329105150370739351658753330359614884698016332915819383873753186001943145182);
  (true,142884272236335634437296793512261526808299106778850434496207780836956771865525275724300262613971438890994899302100580314738356876673754467407362474680918043583445795636510960392714181506861301081004580948152977522306590594672642313);
  (false,35755497386469234221783091060900668942199714212187909233702362739804712534341686925456633173385947246673054580823);
  (false,22476643103552747863048741941404183317083320147497995335586950385155041270436087217392831120094214573750632905112399);
  (false,2542378171969821531101729722626291224354439029057334207102889527748773500559526234376567214709304814398673852246689);
  (false,13164760378490754276524253112234816210007993287363571240360808886650082297351919818084258290274486662436008500462452);
  (false,3714283167375446592914140747448597098504391745164226067492072417713819250464870052606892374095293318689442432653550);
  (false,9005180229781653835629046623531790303102384215905454699764436145679692923325009907030565483302272282146041199474);
  (true,562793242133588168631073664794616335035241937226596390022328286483424646388260912895669458263912919153324814342990853723087297553955446211972286724704298476548538214444154895261168311083427713256010805599350804607500344652431290623);
  (false,18486963234085842124835826882272762482896719248735650628258970922335435480230452458167482445812198856032835021586857);
  (true,773794652593563121629047305983660704966250917451079908927448789125867056472367866573298179812769072707128244496458076247054725407258639364521147283738547220508427024667144776838628708993338572124478782071896738597738843824059888355);
  (true,59288004085122176989900595726936617136752580921378850073543253828897700221835159129118484870613631516990449078526528436619618454107722323876594696066686264759178079728747406393200436672207250468058251016112189509176873518800860524);
  (true,29572412719599899298644260214072914238483889058513099296276531693786745326681612797763039722293862739273262215954946762222046132142261626630117210678693991814942159722716215675153364512079653371708030798366363204170631789227298834);
  (false,9945872312826537079586883481545976744117228611225952121258852091866672615734625397211164056693879027901056647770813);
  (false,3082805759230988042891297686712185591774761145452569692847413533374255785789366309865554075757823096735615508180530);
  (false,10725032081407433708178613577886326822148940461662899520783015318689109883598390419208240779446740457162041157449623);
  (true,22457245527087542987863758447792958560904046445701877149539327779177741900394368069131222323730097214132399402971313871972098304036934422728121218742646006621488431183525781294931116799169073821937520380022173209636289652869965084);
  (false,33007460787441665027320111318255800849864843533740517592174876828321631912243203229690571017355849199814948174547504);
  (false,23707600431686798922651104641863523731238002697731814746852758770041204007702008091949049693870817291850185639860612);
  (true,572961548966566706960126254127388022562164923822536863966920530243283669454193284261066869578890021493225254005365700073692919199827871016566647135749753344163967271194721737882520916993705146378137809652202363086950566514380362730);
  (true,259543708592468040522300755974112635022462723360052492016811794261799322079297148478879822540156556947257257743273735779295839155626102222617590646615771802758208723095403293880052154275783832699248238884478278812199818780722221345);
  (true,208281212587846574179546250619045920561825038599571997862181748483478133512441420133795283059362505843385817439442889511775596197193266666259646583609799812262940825953616649202933339425692448533564871968134442126011497511711536630);
  (true,430546209612774525075786699142638064505060433877719864842243147248790517807312414267055568412560192961177266970266436288748550995941511194366975942415608766798747335436683065936558913353524409539285230158020459135977875993348480196);
  (false,13369562239242710574309833197342433131410204316809248985065647594896709038373460586063622159110106368730840374817715);
  (false,18148024411067183826434952926675837168549124829387424812457223347053099484211545086664837550694255325082758131007049);
  (false,6443747263149924366849400372278011601436083730750795269692772288982851536603774582081211862607433069863434382901642);
  (true,278195389611200806267883207892657890610118233017361633202311479580524552752085831904300807268106923258228591989579236906812517469631414995968634032782372421485838482863294473830461439885393430118766918522721302595667045615383710146);
  (true,160897842836999944433535518967606463886069766345739699307298209924597695032866104553056751840590751393584446781005524757053759823326430757007239270548513725331677133373834706974065297744489463490470623800502364770629592240584928341);
  (false,12360360635898103081374081418376031194136917090948885802842600713140409904944922705830320223432161527063763530881949);
  (true,16110413286572970871586155103988954946278082224883650572052064769638980405347699839028574070390553816225527807643693335417386952270771866182525786855296233517485456673352301669403875112876290492213266235283556670809618544515079);
  (false,918928734156821534341670570547638285358944615429617350444287812995606154354809956062711420924112087452352539891792);
  (true,14432824457651605918400350880738757440309716663706099679457030383031395308872949941149653923398324096350149449370475233429787841442205762118148597525411461491623122286962893695638804924510109548871439717168015928290878307940416457);
  (true,275546765919114183209937703061833928188539612751269191543665472411378302783619877488628959739727491323723842657611552040517267261359712398586479843860585125908230843232724942725033219785514933503907345783340945438077280338863780770);
  (false,7413717658066832334487989046727091516742752573618498532320808076087762219558044320696870039827687251271557279048802);
  (false,26865571494757805422589989874599836270084769189337240120059519628982669345468641144610042049877051566484042743092212);
  (true,1050443879606309302782371298693575312329198988604237461440369264514524729793179994937878275984913880920964474515868759358851597351999947672473040227987576460331115535193236435452357840327400764378843120816753969034822530193399249411);
  (false,3050564156620862312972775143300915520963706021118668383901489365198617817330993844777511106858210612158935810320947);
  (false,2580264063043278190632978508229553959266485953952912765047300974435416082608805484519420415642429767203888173372158);
  (true,589742708875955302114278571607788976754203990278252445980197771817530540132512314269980840762947332521015151435858116251840056599068983910379818307670639221492344821116463877239907403308425571162749343033555751483383969496082020450);
  (false,4938092682806655710901413571035509537017315808882542787248020888475080953997425899314819873645097139652832022488934);
  (true,394633985568399240955523815938517047129807673718443418897306627267283847217893137681127141922981465730440433337285968209377132611663264327656910242632300378544222858039580794678787075291232179245750498066888565961920801839275498014);
  (false,10886799397955365167650995462753005101882323966389116698051449936478158250372276553991486850844674206925208189227308);
  (false,72405942654785130081252338473834181669573542768889142737338770296886248058186974676220597492552164040750092328894);
  (true,1164646135921247287004271709621729451070434573136522507357973084299693576445844219788233774448696828419791549083070512741312608078599462899509121907293832821347683936463717517075059467801739365329354232112252082923194774665383333790);
  (false,6494773853749323845203207405007219979619405965521422331282159874483497546001956018749728088141303508623463327682679);
  (true,372765111144556389708002817579188074686529568114689712792240097714933105541025758780190111858715949469305815816200855497500917011030548879623400135908447154617673236245740617418008123262437049068982312989413052989949750197887534606);
  (true,970754511393893531380387868232124525279196647494355610875046129104142481487531132068982249833267881680792376921599277125535377630916286422762162149160652284389611796518451531135168108009889518916599604643661426273786557648923580548);
  (false,30959043815144429409530604532329174132419134075306505511638295877861181440077919786338613298069648494675960885826602);
  (false,1699779089903112397991685058582692462236804081068355495665631920292653549507033044065721344768162632212392219479670);
  (false,4599593327851657264229593413599334512024345430116300751297853873757176083444885665974313568438434778873933383204593);
  (true,34710920598354276414272766142777387999610454858674709215326832750886789723717252838080136389434303614342634205502974776077418629617345437262925113449306478226777251575435412937303978117857164820950077100001475434133309336266073245);
  (true,435516766609923463159849743136870619868019050703525821944500518149148150307269373556718650286869345265103853768851291518664807588406728547507896714963069617766223826308957509791409445356181852584107655766592858574876105577277241512);
  (true,16321179120657327238598120529696280095818210154636449821560290492899611505974311569906885641935135159981676563761216254438007450607702758899697469927022630343168423777066290346862090950069430616651551291943871783120159242265456565)]
  6690982755611728604002668186530857022804999950720040049042778753912660326557620697048332797102831257476360889901329 prime_3055465788140352002733946906144561090641249606160407884365391979704929268480326390471 _ _); vm_cast_no_check (eq_refl true).
Qed.

(** A safe prime p = 2q + 1 of 259 bits with p = 7 mod 8 *)
Definition safeQ : Z := 0x2000000000000000000000000000396860da65b9e01cddbd118d90fa90fbe0703.
Definition safeP : Z := 0x400000000000000000000000000072d0c1b4cb73c039bb7a231b21f521f7c0e07.

Lemma prime_safeQ : prime safeQ.
Proof.
  change (prime (0x20000000000000000000000000004208810288020021000112101102910000804 - 0x8a0202822482004224400828008000420101)).
  refine (cert_prime1 _ _ 5 57 2
  [(true,0); (true,0); (false,0); (false,0); (true,0); (true,0); (false,0); (false,0); (true,5708990770823839524233143877797978573016476882);
  (true,16966358767658351871282103033935345967148448492291932893503572340477084880041);
  (false,12251529546150469102811106759628309568554936217533149454332734587631976435071);
  (false,214962642568272235170215139599898241571334264104394308342533802832654100953098);
  (true,20474365190644065194586434998709109219019762036659544751162020759506125990909);
  (true,10446787413084236106636558010078862007523074453674128323975963128866037357728);
  (false,19537172729654293674830435787330201898824090129425198127082431887313231894281);
  (false,217893325195895786682224252295543940400078948102649623206812189105758978065396);
  (true,433203687805656192081859294398781407454061458629535949314246777602050085077064);
  (true,67629708123342658721884029154619571924117211239666290708618514058085979344466);
  (false,121207815650272027102721743548555169448030158716318253678386417693914181068803);
  (false,72063603420484606850473621638543775712140597669133038161228964766123223693366);
  (true,15509337903772198226815346231677435815305097376931723420380316124900486715377);
  (true,42097190969566187464546377822750877280297200947386666423615674012724074078755);
  (false,47700123949198261067510929133181704320818394069556282881476033119595730774910);
  (false,110469101592039088869724126021984173325326859732863544799664682230436329166046);
  (true,15415453581089104881154774664960585523463989950596396782739850322290110811505);
  (true,250570819560198055582807448717298200853501351702555387430534114495500742358500);
  (false,1576057987026267823533997105357338093203140270074281619237510749836763478480);
  (false,7531425011788304810131116804154792351412201986472393020024394728117555866375);
  (true,11373854895356460438553109797666687845882085414576906375067312972723137733559);
  (true,8086321980218074859772724104130485582472463192433273849872114720963236081530);
  (false,22826950124550908773041705894651672119108335168863729875206889988435602414230);
  (false,27232752949118902855971722469735686928091936213640203146827188813386467165051);
  (true,388166566372121302452843896250693027983675386395148398615568818503187806425968);
  (true,153402284721978168164658596809198007327305381517751659637712723671386700077958);
  (false,64365875708133429920640579478731717008348570591342372673484689051845617829013);
  (false,888035238024912064937988755330348779808822037831114522259842787399627501376);
  (true,75154201455710303060661531723687665850684866620198288911222227708650352252757);
  (true,325874337769471053131991174683698577246951891793712192134140862557970501786244);
  (false,2337588952921278894183250405905030358200410227385113002572440688393102287078);
  (false,11017951936270389762195759704337953085346561188584566629820227283261318778220);
  (true,232515482982215987744604975195015773655751081070686054945469784312304347380746);
  (true,212754868388445643638725679187945413601822638569854361431366747039984173838271);
  (false,190024953315971010895306266722990764451279665961487728609315993916966210243590);
  (false,36042796477198779602568200606826878634973169968389929050897883322666964288798);
  (true,11179282881682039607467890720776162194095911501682053591700460474105626115513);
  (true,327006016995085333116608328072532142417145448978052236019903002656556077516118);
  (false,75275192303453276178046078135605228569266962171452683737497818749159592698554);
  (false,164350449928650691078838692513626795385983366462434609592753235138720083952);
  (true,485041855179747067730596990343752224010633583213942474984781079880568111577);
  (true,207743158364708609593693088009192748575265227392570957653537251641886288693211);
  (false,5803341910268837337416670622512605010809737697076814286024724745405724975277);
  (false,109525404357161116475371546195181640511584615973967289115215908363411924730500);
  (true,4833531519479959251468334588950719550228957206778675326977095154387461089784);
  (true,315285886558005416385260207236602141236014385190122487425175123364353059499725);
  (false,14125845597903400216880142038681463372292080009685088837475956965384975044646);
  (false,213904717379834072392881855670742955236133602070187512749869357009531639767534);
  (true,91355281495272081249917839043400526839166599481567650394309308851900895444796);
  (true,153050830317375923169410285491188572918448634553266218178591153290220615132858);
  (false,229672282688873649269427611893482537212599545448915968285886023161588348329341);
  (false,38982909096122022696463647017664164361646311834081122614007296897507845795724);
  (true,103555566448779609321211798669156683403878162664171154610812351340237444221456);
  (true,299843695587253174831018555287968988937154490804167385408647582627955816947133);
  (false,48881529840578011694215617636621238330380245768528962697998268616133964331073);
  (false,206549365617822925618208231014989204022016497751821910580940367243456429168855);
  (true,295440979509049085553868247656490076954793625007888599214837144270848554408224);
  (true,222689007415035037910395170092329048447022164286795147138484729598917136507529);
  (false,69462326733805230108560589163147778640580239722660756314173511439578492448674);
  (false,15505389042695915404475919444992402970405179985325340048517999461303207206187);
  (true,459347824990241278981302483059590327634101226656884187864659124085185456375345);
  (true,424015444964303693212859509186170364987246796001671561208229610824735472995624);
  (false,167227220968038670219236891144069239936807993846624054483123116966578849312939);
  (false,15969063606024045522904661571390012126073885889713102909218018324209673022038);
  (true,158435976465871690288225886871470800959308483828548349805153860317188381397362);
  (true,104686140222216594838423091548555357329289036150483948998352912305684829690578);
  (false,159827513842237791375568849154914650117482071860100783353410876990722105188232);
  (false,138080609439369297775723645742905039748940341381042494094645350522192743147365);
  (true,422633056924386331471118203142651552705351284474536500397858015641703093963606);
  (true,2060967659851432029458400551687124219791452300179135509553051310438614633754);
  (false,1332678488173653694974345677062360866132256624976561621597702701437084961488);
  (false,4808782479771289453625289645377643581018257928567567180358126524146072766935);
  (true,396481891996964003319129954465362322419170987377436299267112286187390596223191);
  (true,13114107533305061254367192458749019933849609685036235425889634909532107695616);
  (false,2162264058403471749682159575326996687062664796049116804711563182685713311921);
  (false,42507783299845058499247934296675986145012335641247759569880387501267996556810);
  (true,886778926465597453304511701315836443676552295867313673407412255119548046161);
  (true,363073645997723377625601584968306281269718897607368961050283422178133956363693);
  (false,139864290826254224482257748700255654238097059112325574554987205011744995106163);
  (false,12658253288515735073494012129936477534473577906619899831733659934090151948727);
  (true,413394146901992845577039220144438108753608516625764055841367519004452079453347);
  (true,339511437373965722553028325341844750014696430009286229109314476118938047075565);
  (false,196093257124679714743209719849928733143080283997109940060885597674751172181104);
  (false,537765149991309723200392725144823035644302582416193704074161364134399476117);
  (true,46901436646813572115524206253949887682353564009754039862863604139478048779062);
  (true,314716457744481449754840132414545588507248924483584646463624942021890685690455);
  (false,209404906324899147763548917566429919180904910959571331152476400798314160967213);
  (false,229599857871531001649859210150557007014369909279116126348646031739346503773223);
  (true,278831971052428476515716934481827923090134512672101242581285724334968620127910);
  (true,151680785321707858429708187082513974628753894739130523955738984389742647722985);
  (false,13215716320794141466858761802270932338561226239185843980677436952247503494696);
  (false,26227382164165181268092212303930105339460276939756448110575314204094780063017);
  (true,254683382996295689884254926252286582142893226266700351006966129938025509467099);
  (true,235457917965602340378318181699494533359045761978440066357958390699803012748314);
  (false,4139033080959316158302249632208527316142488769043790897368376645596747551744);
  (false,90166073788616497591992280248054074607977118981941734729431603947236231288213);
  (true,423564460990277802038530443327142140907260710175249169119782505858622709770613);
  (true,268926644816004165531738728371717457861886862300581502994298079795779431493300);
  (false,180724148196272307477390231787936041158416372508119586295551109832635680227519);
  (false,11598958248084506181027514784939990578884308281871876713482019325895534044862);
  (true,158367947311912819291046920665951209018688526609156329124685856030377711430015);
  (true,318924315842727079791666732923676763498697100468415838412183428632869114082082);
  (true,183552237042684485756915148947767921554449784644087272719294320785671928405653);
  (false,23252517225114098947777898766768433124032061699369945779902567428114552784363);
  (false,81319950591585107222156854745193340869606487586040592488553141873146154918676);
  (false,98072280709188731638973064343483178587785629553340732875264277620953882248250);
  (true,173377502347408016594318110677898174057860804088832314800392105145525321806066);
  (true,286470945365061152871609488971354546675087770952452972539358179253360804174036);
  (true,102489752576364828196353024494871142981089083967303469034937140565055730767002);
  (true,5487730962411687449514437773417764719427807831494212184593243515195210568416);
  (false,9247911189729608870696379636454936868992743806887322857816474794618986505897);
  (false,17765227381221606223937684935844604737594596187654711632831364332140740804547);
  (false,178199014781087207189503906352470858803821410633047080826448603347035121591134);
  (false,207380617288977819195464277366032219910437633826450134402086168143416676241835);
  (true,145342305204798754476357561571285488261545669346688253931932168185263365311544);
  (true,2363431557913210173950533877190200603807342345033821341365204923854585533406);
  (false,63930531316441364615893887576384273737431274951038406424062885871808766874224);
  (true,153804946528861524026936684075060492062187609694442364114570084676228640424521);
  (false,42362936868354605728593254348290500384744806155639163987812579916412146629126);
  (true,20434773518549562886218126281475836864258065390717309356582474180963216186330);
  (true,30575465575857087945482675815996314158146630024881499897856040900187987064398);
  (false,1800985091925779700739011617925587411228280991797014819005049442927171416728);
  (false,133440214341207247905287355857250739217659996824655803917641214950277363294101);
  (true,360303662035344828096744659348720670414594627861108825677242117037993151807462);
  (true,33562117346850141023828946619624684403195205619461993378155072468984662991672);
  (true,85777651859639254160962376158718210972332732578941299873373968729500270020221);
  (true,2483503361429682386950864519003297815711558980447654594909173172530886136560);
  (true,6936204027736072593923565718733878654880997194346651606581899325994235505997);
  (false,149674948013175536060244857810661738258643660650231112363836761305584939944451);
  (false,231434750639805086678457063339127442046817685578074030170407381108194308801058);
  (false,161387562159396255368151536482737378218882726477529606258722871792421422126771);
  (false,136555159293784519254684368846530351974687020567211919667383366948234474293);
  (true,92263345889772529409551101890964956946527015112698997520641707815241072659471);
  (true,91346255020269289184616519869070408273167397258169561836469461773716970989492);
  (true,30282677801965569528108968711154557504720622571350684940023472198843414706933);
  (true,16279231509001537152250966000020050926693712752299974664019747466922604239769);
  (false,180864237616558729897410973150683202894715551494571637900113089829570635750324);
  (true,418760861160917398314224471482627426385980685153286287948632734393037283466795);
  (false,50429623536036608041096197426936275362579489838629125484576356011288255813139);
  (true,330447218469593228622254622740927607991424879526002912519989029251595483062541);
  (false,3968160751991342865120455553252441669648371342317389000588257816082121993312);
  (true,444783320373966343985363501260567137354818426372468942884645100105016925458270);
  (true,43219508503351647813609478435524435837438960621821836664862424172186144467593);
  (true,43418420101426614729085400954394738162156327100847770140458795362561950310929);
  (true,53013127561675896176965130493234626302524706641972371261119842230264394042866);
  (true,9469701048030871880577315163503258881376169677310251618091686965872178252427);
  (false,176853975335005469395528287642366344425858146283824453431321104424909504952648);
  (true,51920437910370517431916015882943339086422087237028572736521409889992350050364);
  (true,275161639526995742617885344637054849466253307331606388437483491249039962682135);
  (false,75501456172795427596439801675009630590022320184061554626832382478903229381037);
  (false,138563378205189930158877042902894516237062942114176666180849785813738443851322);
  (false,25706167467761282382112979560443260146664724574566624828837990562850256309109);
  (true,298326866371676209748606190430191927403724668197598482499261959911762753298437);
  (true,74151092719321417822063870138128404005274495945418501684168881456133671389231);
  (false,76296308202331950635890783713427090757326667539970407658099869125284885578457);
  (false,94398940865903110363548399861618577403859115958663329406432488382058009712221);
  (true,455033698527042785764107737601318824865588535967949996710202115120132040087);
  (true,2483417170634993134991414578840604028014418858112534736639747401812684406345);
  (false,166696571915147117398404728865418800484332678295131249233988482965103494793308);
  (true,375490151131675003390667977188316152406432180857443586491920691281577585735097);
  (true,5419811526469065298274900711359658973413179678404877186755521725523500785470);
  (false,119398735137688413248248826815728863065303869676140775523395071689497858761509);
  (false,81321783274794068863211063665080673055082595310813412552102493253363280537703);
  (false,3113461705657225731491761078045091777622581888973396673691208205233282100391);
  (false,72530495728757225540829708197546247352387074629100313626186206025204901197831);
  (true,101834849449703370388720507259612528988212706718208540201836808640154612216);
  (false,75895071020092039512252794658708035103655509702816424517356726995629178826334);
  (true,282832169153285814739000406712440502681642935526585963497997822320967803281826);
  (true,461477883415968957930305959404334148399315948172075019287278555583526584284490);
  (false,219317527325774353348942013871194768900970529859320077317694808006463805916);
  (false,17468903635099732609164022337278723110777933646202348186801456247989931543553);
  (false,159747253748933543945314744347032337665713009049751936290473432451197705747568);
  (true,216974524373294037700752470112235632139133493502469540963116444608508261249920);
  (false,177290382347499563399590882663528235723195248410814267875869156235697138230263);
  (true,3222712030490903123468401379752663720837621092450557731395503866087227645001);
  (true,14865072999549700417708187629569628745310870584461526316309207205505159);
  (false,18143759657555292602358496068795861038706766926356551393019357857405072705348);
  (false,20390889094398393946851968528855269332953176376648681656775237926831118292691);
  (true,5495524225768156247448340174006867291234289877482324193243241882627344609103);
  (false,9270537712019861301908943048891839566360443451993697795127361532997886207951);
  (false,90552343269927901614401084322621577139324504154559968652369745783069989431508);
  (false,231167768634724740793074769983375784101889190067895343817709458528189425578895);
  (false,70906462904267927447261775607507660161753024765622895547346026779477209060494);
  (false,6893612868533476978823177214424852861293541425601672010400047784776928213496);
  (false,118404118453352294175096545145408103308369227608722836171832181955502417169929);
  (true,363770313628133194526128746115291970622862128416164779843488609898851738546984);
  (true,246676130947524463024504885857093234670948954927199882994627048652514587137982);
  (true,5894517661555855281884687173236699172311886063862312943228417784470892212442);
  (false,106221693603116016386768456382583150833657187984302176408951961532349687818346);
  (false,7446314483698316900449435756745638363865410545525663403413163053947907614851);
  (false,206895795532007313564079775074045190891013983706757922760052592553749582694664);
  (false,1589347087949920385017288268792762563065473579621856782355531827499164834192);
  (false,14754038925929117642925893426251545892753729183353342564433861827484577969292);
  (true,124985541525203127348464573516010844266712169316198079909909783283126018050772);
  (false,22485684154482867524619762425068018019315907466738858718903393834510019777369);
  (true,279404955860130719989344669416586676863451022516423377986942894579090832210185);
  (false,346663807717728483772473526665709341375936086831631104362091970668440163325);
  (true,49647361719310660666806431234406268726069269405907293054053543905213556004263);
  (true,453479041486353497484472747296190834720028153033668628793852098292903555877411);
  (false,4517002618454962040726676817266949419127284207158739443068988860295537562353);
  (true,63318594248466384819047256529435887085779564584220711739451856233517212839315);
  (true,97002872551812888874594080653057110184377165213973879772372704924069352692076);
  (false,51900436874931580505026608857665728813125415921751492966940892088372430959091);
  (true,1987965766069217123911785900150446210681026485368678524016160825056506350567);
  (false,148759695420543717146207587398792062717927179664731611124334100220504058809270);
  (false,1272006228962675399421051102883782221095056005051121708880218786927121124565);
  (true,162960796215670868801971635791237923474427036791582712144633034735634008367903);
  (true,30646147517346759102679756533739721829238304808130578006021365282399316595814);
  (false,200355717090993605816767263477133799676029277688760894159893285700792708657361);
  (false,4328505618708881391946463366447071903480232589223694322959997318483220951533);
  (false,8289937865039459291016949724201260033590910800402846532567062456110452134689);
  (true,7001625116225399086190123172821564262727865999351451333995667434415346955897);
  (false,227127718257775167787304022591342755252093624271760073440891815539734021211251);
  (false,113884098958927860103579702785815009845412898417139992013631041101442349878416);
  (false,13658528738924609618241916030622498710399448314411960351506466306474832856322);
  (false,20133177418987748987101920953792769896237721166101467057910527775299937489805);
  (false,183877468900260642918701762479475864414950720004766073370164604274399016017094);
  (true,136550395695439432977234345643757060703686408302217621417570095122488176489416);
  (true,228850390380711028106931238034812664831246464925116251024578870319679550079037);
  (false,52400321910323772166925791497050179571171528443077268439658035175365628102151);
  (true,203530127059851144683207423402104750506097348614907919383730716851507392732572);
  (true,34691131231773312058436542000013225193404116176306106354837110761353871326391);
  (false,140320389308323626452056253889751993562012912844181645726478799101067556816501);
  (false,594380228613158145913372126690193954292581231632131262844879151290745367148);
  (true,280585689458499627461631516787553876557277844913206580565402798978135857514251);
  (false,7990465996139146422715958072483815097953132146468387665349619516026640152897);
  (true,68935363216379308958591922901157336588178230624798433116418591139588443835368);
  (true,4515243872294353650706152321168807355835541909631821002230729359849206975077);
  (false,173169695924206853277281698257325217913522706349558196744523135743979967195547);
  (false,8796906240956992241332688708409011597138073277089296099349874753378071396086);
  (true,245889562153934682929248379338689811965368837412661822113939086959451517952210);
  (false,66587061604304831024417164308635969656876251298735002286832824577169601820146);
  (false,10821485558455820485748339782076442298594546445921910191928453666223443862630);
  (true,9060998337804778024327660947933730408426804924277743814232083675628955641670);
  (true,211014483114621935369916833511094605810891116266953181631103526260094414851976);
  (false,118815023052525745440667603704990221943626017262676613953239746326996891212472);
  (true,140738819477570660267059684360107886526113312289257864753484577153495726870127);
  (false,14556663748052824439812056369809297977771994141356643102943276275257779971698);
  (false,200006974402660141561964114616953515356425760380267587962179600696217663882423);
  (true,313997152341217694412511610354523134172428507332636699720094484874612473234438);
  (false,41416916897584184177443856292214433719947715937061003291990333434315187600377);
  (false,42165827944407145018433272743418030573752228455210657939738142251299449258875);
  (true,174652435455187526953577260678468316739941654922791661865613400390179670145600);
  (true,4601558415726395945218803325530827362174043532785752025401583821949564780901);
  (false,103353024566389374878835906939654511067031799659878891746859205412384154285846);
  (true,282590328855091821186904140447519069384967610055062215750951656392415844154392);
  (false,213859758694769834210119853300214114322115968209273289765617496440822379899934)]
  [(true,0); (false,7072652982979841424953386216997702168040188835194884060662615963867986772345);
  (true,8239934192157382111844160681878991187880177947675148073392700296469320096038281860290533171218988401912749110670435682421634784727440832746043004301987811)]
  26003359550209563744163083515256846423918939390171034702941798563131556542460 (prime_check_ok 5 eq_refl) _ _); vm_cast_no_check (eq_refl true).
Qed.

Lemma prime_safeP : prime safeP.
Proof.
  change (prime (0x40000000000000000000000000008411020510040042000224202205220001008 - 0x1140405044904008448801050010000840201)).
  refine (cert_prime1 _ _ 231584178474632390847141970017375895721234435598034906433895230293273925781251 1 2
  [(true,0); (false,0)]
  [(true,0); (false,0); (false,0); (false,0); (false,0); (false,0); (false,0); (false,0);
  (false,28948022309329048855892746252171966961480687883065918715491888217300779833889);
  (false,275798952912150750584933622654772270207331277787244098975453931224062399995);
  (false,144157847414038642156325001417290601179951922773123949015078884630126479777539);
  (false,120561761385606739614668648124991524012090616311694176955282660918997644298);
  (false,14813408591844451648596429361776607142234839023315387236240653100143433085220);
  (false,215680290141226477406640313460946293098252614637404612206827118599550706536520);
  (false,2596009143382112010769690886404059421064826820947060129962052763005292206296);
  (false,281959749229639965203194589497312983306114619670229426461716303450185026380511);
  (false,238315535051034904602677839394175469938845247372034087807815550245564996001201);
  (false,35176337723982328918626556749892055167659863460387012117430026827130667983665);
  (false,1441657008610949772698828985793446018005277573181998764309428959885975920896);
  (false,29746061777923819646245680415659812485859005527087780198642165618212491309948);
  (false,234546920109016584145309152318326773321835937289277182881212456738743738633441);
  (false,1829590328519753569010814474894187658141254550655147402917495109129287769);
  (false,978972712198369974464983640411073906024350443327918857031727282447812862555);
  (false,39313721051448017975052057540934155007698838042172118834411179826546371714612);
  (false,1612827515573853967540526780877411359205982641429478635262906390525818022713);
  (false,180474337162299906951008154256998368585560470784976211672335086246366424723308);
  (false,272651024316855280418605234934449957879986948902907206000382541825775162379670);
  (false,272670845863701177164411180720696452926796746377848594746631230243562161898537);
  (false,215060529683405165457957884976146027002825156507086027790917374115501710090288);
  (false,152335556875502970268586439474902196874763275837392405663027402322772409923153);
  (false,342603915337297759447729382040066764278924714358026215544983500080434797205225);
  (false,36753281055772544259986999620881545516193573007682430228460427203581666295631);
  (false,153756193618078870873232764597415901293180274317592910928602064130998664732653);
  (false,37733273047636319814665664078921911471833331028776481079847928361777702418137);
  (false,67003783740676422323795002377033317522771173979466524481447534134719342981241);
  (false,71684492094833481023955484142383065198860438012000266471530232969294216134449);
  (false,74288389707013857334743336755500065653584163166999593478453219857200250413330);
  (false,19379967147781948994000055543203184147979099177086733320093826477013904785241);
  (false,99947395517189864739843515539280949451765111505641202125327236846695924013709);
  (false,25641084000498268261417210189694596536844608533223789930247899610788103147891);
  (false,306100560822219352594614967625785028313667327035221677903862608387736295423144);
  (false,317108620336169705294593453266390221061172953858522415390228346253741859292698);
  (false,412805540281112777785032185842202483973964002487817338525006982982407256831806);
  (false,286608464986656247282155073553924855958536626720619159443288002454047598971380);
  (false,15415281362977557632512619949075261177746739876410603051959327391795729573917);
  (false,354838406993019226543011234216550332645419337274998653664268027109278586167923);
  (false,452775031132191637315490219998338853341056376049155026080040858958198579041375);
  (false,352920672648815400157299603543790947759680523224674932808062938327931015242631);
  (false,140696844696125003546479159695068718596960252572201251566865100562022712893779);
  (false,318089619991520917896068826827640885369556141309034009153299841557889033782122);
  (false,65040812093663152755276235102909467889673926305667295431631085238511572430022);
  (false,29603013681785873879151902650308996716034344220454315248566310097813118512959);
  (false,159169833430261798328944125975403649510371454631532858293960167056052546220252);
  (false,2250380865709216927497473460195569989884827595688096887758139065712076669688);
  (false,25500484391544633621252281353377401325513168233019661794623663620042784851585);
  (false,422748267578012077645595635950463495921295417802449046929477575509111278815653);
  (false,32118212777232598249518445602844922421024407312180188301005346828165402543473);
  (false,225099881110461927075453293849467030463531251653993612244983899607723505075205);
  (false,76906358141758552457534616388724722740662710782283691288398447447286609942308);
  (false,56334499418524317061033110044673140944562781037974285836979400620127962162010);
  (false,259350668999005133513182417959447633616409167008219389831026518961185468007327);
  (false,172512677468895297331993917660730504021994573111082170672441116993073858367860);
  (false,142684090331159702940527012449355595841343714156675747389191629895756678333534);
  (false,57388072004678441436075938907681887049546754106001872757365018098853513969201);
  (false,756107229186712405722347714134205119659665033162387006529567194933050243747);
  (false,5247293130520392105268557385300105794535500349142657888647228935044302966601);
  (false,266862582750211013455997334001086665423325710694285997607260595623411118327553);
  (false,245323789639321585802936940379468851217758604373005707845534919065412091947719);
  (false,30001337374536756156441439644794389451125348095354332386483476017827335808506);
  (false,1260275457046602008341508486490368159532129519106676995190536391877937426607);
  (false,302333146435591613381917830177968841871542964505451916998738914695197438936343);
  (false,52376446532186074564199253107169708913914118386421268765565327784556881183571);
  (false,413696768126123281757405121444017191029099530899623480602642397286136676725388);
  (false,18970441253883189059675616908529423611655396493656896895803564269694669675001);
  (false,358175358640480222624577669272462622160299911481097596905572891635522087728089);
  (false,302589970779061350345290178292782173646020824829487078805357552113549246429650);
  (false,300339773791898067471787340970517877858677167920405725901716931940687052453779);
  (false,223347184908877555471158586064441530091589721288053692116759525342784496945024);
  (false,130218027472952117130738450054543003752381795895191375566936514535375345511042);
  (false,165793717910577731476778065595831791292926540811776421113581351825318277907388);
  (false,69202867227277504442323071471569120096556507304929134474104202652711393430880);
  (false,6882315792369609676439135972186849936971122353221552130038073838824420800);
  (false,25453935589706074530496410920070505616667757457382677751830681009815877241);
  (false,715199536469391730903291082002552713598670124288846708976277525239291860164);
  (false,225443364326615451654896811678351298519663873278387328385644480577347413666134);
  (false,414953054507193121210572706968418380396720683093361624647040505332586666799705);
  (false,119612835160844031131404258833202923226446364358923115115505566031997869675737);
  (false,348490335181562293689766750040955834325270071753273622832062152350191040782012);
  (false,25255732249326563340227337683407256571529658596654007008785941821541334585524);
  (false,358188165832069690135629362942093389737264669102086344425148463754845096364);
  (false,373590043951208248185716967190085879266142735112318860440713595204259826805565);
  (false,178618972816549293586043435746245172486651676413945097389931934765291727289866);
  (false,231723591569431618706372663666998109901410496271946023072594003176832805798511);
  (false,399506658968206038450490783877298363139473774667725009532897000151231842699120);
  (false,133801868754562153767716159969191977217683282901566007964197575175354817973617);
  (false,85651105968253018961355138806192407182858149539446990098256023660974071732999);
  (false,191070129756305159442354137773107730028025373291464208385690151188533352763938);
  (false,344067546600272113703324189012985115098676945873031949258531787265564756904375);
  (false,458001390543834378515537492732797331441227312744904880240338180910928333189607);
  (false,121325568285759677586327500563038214750546204544480085540808387470204826320381);
  (false,75489840658524520101817490340881763311441235408709400549695229056691275760856);
  (false,8896546509911976517377180330131589128172783117217337629663855487709422616514);
  (false,322805631613887001694577160553650341716346301699934737747032172155778878837539);
  (false,170205591042538086482553405891781536413754997903198565608166132919421881123840);
  (false,22256179390966952272721004244566859608002540177510182130713092936177828113540);
  (false,59172149822013626503300630242856851365752061059223412279827209115122133500801);
  (false,192757426079603117249760294093320019945270488944350602317455212187508377943802);
  (false,222489885459264755948319059478319774158903872817071747546297666295053238251776);
  (false,9240490510994997534139603337660715442153856220306991846726366128090319711435);
  (false,384424102496073049298160150277810008922995364010082823545142644392678624673158);
  (false,43299013460762486404303621532701655621768533800786693844674178933470466339559);
  (false,200006612338335984509447417343803833816790178761646270466205287049280641879024);
  (true,4478251669892968982892354585268802326331933118941610475712209992040728370868);
  (true,93632548194219433569792193602108978224890225912590230475131143202737235111043);
  (true,7774831087607490280805088772651604024386479208588010539111683188027409451164);
  (false,92775728156277652409018079790315011722610824859522810932221013096660799254111);
  (false,450571171486041198062494616733670209378775917733470534725974110265218177450450);
  (true,1342210712528217250794198192690880221175424233838712964067636052842451237380522);
  (false,186013783018861687061690949769160673962785196838970830715954512037894408647049);
  (true,822836698093361568334346368362768961200701533888245041412088533700719536886504);
  (true,1360465314211682936030601049747910789979250452653831862737144728134846534222684);
  (false,381476164648279289176872792921933771066383740444065410891447161274642659160563);
  (true,2072586904810899317185129822104831102856430743737240399265329143723367368054);
  (false,82237136702902326514542360452978537245532348733378109844385375379477746807087);
  (false,358917814696391711338784147581180791000690291944473043452769842131392183811127);
  (false,125726696628359362605141224133004490456886347734585923691691978222852516324900);
  (false,70814900308784658707849792627336481017795961705762570166657572817438758827183);
  (true,105883217773827894272011394222042998483939436929945398839792261791406599780251);
  (true,7128499395955059828287292502585276980317895640746570415851628389518293485833);
  (false,89756739739913823932876079399749786158606705589738431664727213769848289365454);
  (false,2561236783249432975551937080299907518451841676478744864974397797221448822769);
  (false,52435303507802735114133766380254201718971943702791600314551580351687579199196);
  (false,375618331302826512705659351914854281497653539162104789240271626372773275981774);
  (false,145562696886278084468473560346441784153645523609671997534153179900631449390546);
  (true,318843153288040707846210395545027414015664286380090550952221404038690636638424);
  (true,1039929075398836531525948446592859774709102647853115102199714325315523298615332);
  (false,456980371740608179650488302383640127912877326444783482610931289540914157079915);
  (true,932563571998695221166127249479220946186981803243076886963747366305455830997914);
  (true,1124637680660322444282838283772068411719262415807371491952083245887031327463322);
  (false,161085188935492441257409546649887627088780519247314371969366335314582805539639);
  (true,654463045310520175894720001508955073775636159940229555635830399224899529284221);
  (false,2406333172091024290053460553873824218454164074636022053537443695405463720362);
  (false,369393356036182827970391054808595400304806584520249508953945135036331325926456);
  (true,141173987249469810805553935276936407723816935243052478625804795878930377581572);
  (true,1338450462056712777044378631199590947063933739258932435697465432551910765);
  (false,244950739854725174614177074646230442379356285866531712028475503561419099617385);
  (false,105807174356374485465007981077477256954224864491533150001129232655532532138);
  (true,765596398906966416996960214285121704851897831990180479700917208193647499537008);
  (false,67184623577266257251325175313516571077528286834668049153802473866567213327);
  (true,119938002911282940373211081561896604654028292420470777211494072739085140129921);
  (true,1266882810148940645686147622860235475398162032358515505065295026758914859986309);
  (false,12689158792353095391297206690459643839221076557078232366206131297626038002085);
  (true,18345210192338507153291535547109291983939900583356693953107407851998435337075);
  (true,391014914189119444625158095301521159969274309238222295603170214301127922942847);
  (true,5445752057831755774177081231844821640858780442825540094121749282213402543050);
  (false,210488647798750475787366213784860347414027923860762920759361205791983715165053);
  (false,83173550820586761912903292655321252554753251561957496734158018659228200910753);
  (true,1005729676644360983039660285121942229781049680719666753287990083003177398955852);
  (true,363895104984464727101934040201368801232822995434692119138199030926754023944579);
  (true,779394786856821976976996203519288836988700492024810428971056105650583561122618);
  (true,336317244709941559093767846522618741456284042293372567417020405053423605172734);
  (false,120999346349485462350553643731334199108694588027679656971071617147052348405012);
  (false,10171448836545119394988802567101270981559597251868005847330575861533614396399);
  (false,688279093293166748399326075787724148049391637029889131804644739121887420870);
  (false,256603471154623931218087798970433011265591704085388286182743989380841662748790);
  (false,3492055274272225753182880256741096751604470371538962733909482148250709663076);
  (false,126379124074351472882907050121540992681296775315293036757857859392583186182561);
  (false,7735378386124599190621060150236239235308291462554994633961157510844049246740);
  (false,44563680062188078790962420708471478541272475127181332860882970522929442470745);
  (true,183556651133501028531032316358641534110182018718068382877999232879755866045);
  (true,895093816535653920812161347651404487239484342612198625851833333799420782329421);
  (true,921956282478247983296624653137129399827603596435170762327596710524164645603079);
  (false,436075707540420074471701697440620778789108704286394876935121272802217988791248);
  (false,2162996962931419794528213102112010711030544724664152709843142276221180449313);
  (true,13120438219253700342897014430105963168886918754271830862669105542901472136809);
  (true,523642998604710252794334335843060026327784865589774584770410120073693282243827);
  (false,309960262481604111395393905860245237425931527516912921155344424254270225350221);
  (true,372487362619383153180653075872683460752929585479650770043748712200020926296252);
  (true,871118106288673998672086147883633576426728298163059259968149297632334054250543);
  (true,297444227091041626618826386977466610718402479918978152180781719613460948135543);
  (false,158488168027490504298753115768858098845380205588616551810305181374571787255752);
  (true,189751033756885931400225646697893020586332322046269705287293931169487437864789);
  (true,1735908050185661974873286034486485021957729887659663001765410483776102525785);
  (false,63232305119823193277572214799599072978836660035051685739620424875120175965744);
  (true,140864387441822424144526394331389293299003716179191705319515700416997926828792);
  (true,1042801717858484231142860817333468318021936246781109771308866187925864257370014);
  (true,16611322408350068022662083122585968163170990297438073795111449877684202339645);
  (true,879365784281142000695500907289096328452828828055206697983045714411438768749685);
  (false,203596900162495226502883165827093778703475250608127047653242961962146683659244);
  (true,30773125832149811014297693523262979824256511309134763404584808092859368420426);
  (false,69531911352804000731954599794286428876087052555404521119118735295724081591960);
  (false,218279224246175258666688253400819668049301354190556190248708026272590000835380);
  (false,84153984030832205310535848424909173884705689948099996752412049860876759778768);
  (true,11973006428738984072699631078813846250207959825928733251184167791488420777424);
  (false,304497605490051729397034647584956710881340961207821092472799426468182847326211);
  (false,383439575425735505427823191033485644949033621519095559082617967738148241697058);
  (false,85624497661207918719651200015159524915144470635727845300334182149162535939771);
  (true,477057354910480305043276490831694653284410780327050251624782626418883302194772);
  (true,391579168416031191984801175360956892553508521921484412779650821411344482778568);
  (false,146223062935404384459871739825499800128076092668407282045012777342300776635669);
  (false,58996071415453096459789138099941116687536510229528508850562250592630293596874);
  (false,227930734220855565709950509848478559171293373673991429934745915402101724625895);
  (true,1320036769187498093635573826067154599122925177331479730033124208746800566652107);
  (true,36369814634042801400627063680106183359800232745268613983098524770012211473035);
  (false,316133516952311807301070370256629390098169177518359696297845047127226680003536);
  (true,541458910440716951434749864417335895346534543696346552619250979774768583229050);
  (true,108410494796394580766222849010733723911052912953740234728212964581299936021220);
  (false,14869285960640541260567140473759876989274097996589579874326938756179112271554);
  (false,97688440128119133943470424224948134539570856843462246087459545963386368987831);
  (true,281474138834250726910826077600006261401264418896964253576291100112258158659497);
  (false,12853982226524746129795668764019656151203004090143694876316951427808845298115);
  (false,234237760568215951432527120920880775762744197472320996343342692618356881971485);
  (false,222376388108814218068747528963246011174648716574053017000819020747346336259097);
  (false,248417449938037413478021859055782480379486570571464393492401971009584373096932);
  (true,715873918520101402436833414452646404990548426893881056524447456741910007865107);
  (true,913918969870821417876233751754032334026979020896920139597995664030261379050796);
  (true,465987754407459261190297537446418178895326835830826350009437677860147763987308);
  (true,60065575958833400943605398748410023651951620836586814034638430577636259942041);
  (true,661003136550352190027599350882985378106021714361690864125191215173006671928002);
  (false,49648010226858499152214567606335869985213157738172629534206712518436673319788);
  (true,42857774101427044938295966034964004880705527938470754459877948228699752899398);
  (false,349230530571752296896843928180327839076450821421560774776606722844260032547584);
  (true,607344504940278637505435158193654430591208501872920949453631070632974426063240);
  (false,237256328321734813801672426991567593230642829693330522280740812246462073086035);
  (false,261607251526458986909688239960400658436399586680431401014175055763749128468301);
  (true,597215325252161581351575588006046627831571493012444126809775880838549635519152);
  (false,6110612139049612322264576848494507319698337808826879244727678411743171814989);
  (false,183332724073056303104103614319035699721059367559799719687467781223712991411651);
  (false,223019555195278375446091274023169104511061423205113183953556589064587104383389);
  (false,301347370353410959697603084029732798812313887457359855192383923432364102669390);
  (true,27180434381773142153027287547788922654717493345381351290417967065323969272269);
  (true,235278029555885587901744252174201812481201826245421821604745625784619322658511);
  (true,1654967510569221270507290976251067701216689233315994202774227278351736502624713);
  (true,1297235596486716463942607378320877996118619331696115042925095291451207146446643);
  (true,1424284804141240437499464082247583372799499687594620678873572183611525523741053);
  (false,411768175134461579349633903893925142791590665549999552235870206285178200248008);
  (true,767074612484958479206988128355944966341700583691544618333742491939654163178954);
  (true,513724469363759588873897661931829887917120741654439558908845995104910905115632);
  (true,29009022434575399480693342154617614557679983188709225821025531736883792132470);
  (true,804319571906321083959788524635063769336266143797479235279323755253107743190474);
  (true,538582082562264862694521950896064715034986367498412815889352081670306710758881);
  (false,461995645173493937512284783690034406242169673145458286439793299889531034358515);
  (false,200253614924417040247912722710796392514182211219574463785698012940623499372740);
  (false,314383528523215274990201520778104529470575278543568861286905070268652089425537);
  (false,80060012490115871938916991320922195526067503415083497919898357035747620617800);
  (false,84687535026992495213474815147794874177749812328642845793678993301748406468377);
  (false,1348176470122407189936579817456740846160201499761248942875308417182326724916);
  (true,1599294966114019377159406083742393951583751632386703341539606697297993286934462);
  (true,842548119338564574106758259901692958109286147799617765445362291902761480018558);
  (true,904764705846189408377500485315636033310171764432618591415189132716966817934602);
  (false,21341268230949148302884575562568546849654239163128610354832882217169938578973);
  (false,382952106062822956452864333998187633860100060082162234830490023693398818257492);
  (false,395870761481644964142702648323221008920027845687764973255251666999316578837244);
  (false,79165859593459083604348261344884720220493193214108457116404497474641284897713);
  (false,20655221902063003432381657676973923427271825076258292595659993563089503374353);
  (false,51755079939415806655526484956719695168854676025912708174271148983211879084709);
  (true,516487895960061287305786510740215454569020245375326731707310320530266784141588);
  (true,463168356949264781694283940034751791442468871196069812867790460586547851562505)]
  154389452316421593898094646678250597147489623732023270955930153528849283854168 prime_safeQ _ _); vm_cast_no_check (eq_refl true).
Qed.
