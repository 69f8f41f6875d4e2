(** Certificates: the fields of P-256, secp256k1 and P-384 (circl's group.P256 and group.P384, group/p256k1.go 199-208) are
    fields of prime order. The certificates were found by a program; Primes.v checks them. *)
From Verif Require Import GoBase Json Primes Toy ECJson.
From Coq Require Import Znumtheory.

(** three different primes *)
Definition Fact3 (A B q : Z) : Prop := exists a l1 l2 u, cert A B q 1 a l1 l2 u = true.
Definition fact3 A B q a l1 l2 u (H : cert A B q 1 a l1 l2 u = true) : Fact3 A B q :=
  ex_intro _ a (ex_intro _ l1 (ex_intro _ l2 (ex_intro _ u H))).
Lemma coprime_mul : forall q q' m, prime q -> prime q' -> q <> q' -> (q | m) -> (q' | m) -> (q * q' | m).
Proof.
  intros q q' m Hq Hq' Hne [x Hx] D'. rewrite Hx, Z.mul_comm. apply Z.mul_divide_mono_r.
  apply Gauss with q; [rewrite Z.mul_comm, <- Hx; exact D'|].
  apply rel_prime_sym. apply prime_rel_prime; [exact Hq|]. intros Hd. apply Hne. apply prime_div_prime; assumption.
Qed.
Lemma cert_prime3 : forall A B q1 q2 q3, prime q1 -> prime q2 -> prime q3 -> q1 <> q2 -> q1 <> q3 -> q2 <> q3 ->
  Fact3 A B q1 -> Fact3 A B q2 -> Fact3 A B q3 -> A - B <? (q1 * q2 * q3) * (q1 * q2 * q3) = true -> prime (A - B).
Proof.
  intros A B q1 q2 q3 P1 P2 P3 N12 N13 N23 (a1 & l1 & m1 & u1 & C1) (a2 & l2 & m2 & u2 & C2) (a3 & l3 & m3 & u3 & C3) HF.
  apply Z.ltb_lt in HF.
  pose proof (cert_ok A B q1 1 a1 l1 m1 u1 P1 C1) as D1. pose proof (cert_ok A B q2 1 a2 l2 m2 u2 P2 C2) as D2.
  pose proof (cert_ok A B q3 1 a3 l3 m3 u3 P3 C3) as D3. clear C2 C3.
  unfold cert in C1. repeat (apply andb_prop in C1; destruct C1 as [C1 ?]). apply Z.ltb_lt in C1.
  pose proof (prime_ge_2 q1 P1). pose proof (prime_ge_2 q2 P2). pose proof (prime_ge_2 q3 P3).
  apply (pock_prime _ (q1 * q2 * q3)); try assumption; [repeat apply Z.mul_pos_pos; lia|].
  intros p Hp Hpn. specialize (D1 p Hp Hpn). specialize (D2 p Hp Hpn). specialize (D3 p Hp Hpn). rewrite Z.pow_1_r in *.
  destruct (coprime_mul q1 q2 (p - 1) P1 P2 N12 D1 D2) as [x Hx].
  rewrite Hx, Z.mul_comm. apply Z.mul_divide_mono_r. apply Gauss with (q1 * q2); [rewrite Z.mul_comm, <- Hx; exact D3|].
  apply rel_prime_sym. apply rel_prime_sym, rel_prime_mult; apply rel_prime_sym, prime_rel_prime; try assumption;
    intros Hd; [apply N13|apply N23]; apply prime_div_prime; assumption.
Qed.

Lemma prime_3677 : prime 3677.
Proof.
  change (prime (0x1081 - 0x224)).
  refine (cert_prime1 _ _ 919 1 2
  [(true,0); (false,0); (false,0)]
  [(true,0); (true,1); (true,763); (false,3190); (false,269); (true,3619); (false,192); (true,7319); (true,49741); (true,3675)]
  1716 (prime_check_ok 919 eq_refl) _ _); vm_cast_no_check (eq_refl true).
Qed.

Lemma prime_66417393611 : prime 66417393611.
Proof.
  change (prime (0x1000090010 - 0x89400045)).
  refine (cert_prime2 _ _ 3677 173 2 2
  [(true,0); (false,0); (false,0); (false,0); (true,0); (false,0); (false,4443834500); (true,77439075871); (true,44940277070); (true,13694741694);
  (false,9030844552); (false,289639768); (true,7468165416); (true,7728570703); (true,28336659180); (true,52443023); (false,6792945043);
  (false,360205539); (true,81677800374); (false,397096101); (true,100098270989); (false,45086503606); (false,3169198401); (true,41040919047);
  (false,3739005905)]
  [(true,0); (true,4372006855148836322160); (true,3243589043630844902664); (false,15093777405); (false,53862148122); (true,4107107080223421258426);
  (false,29809356600); (true,94792669640525814125); (true,1160456065499022178115); (true,121082177879163297477); (false,619654460);
  (true,573794238576307073479)]
  49445954925
  [(true,0); (false,0); (true,0); (true,0); (false,0); (true,529); (true,73994804115); (true,11828699127); (false,3431280196); (false,19935532018);
  (false,20096125776); (true,74739792735); (false,158317034); (false,17360852616); (false,8917139202); (false,54460945893); (true,23772056143);
  (false,11655451478); (true,101852642030); (true,89605584216); (false,12914131731); (false,21662602937); (false,12462948225); (true,116068423913);
  (true,5697564759); (false,12158557518); (false,30364598732); (true,85723686789); (false,9930406638)]
  [(true,0); (false,27884107934); (true,2076391598735353181339); (false,9916959178); (true,649867933578491877235); (true,1318923435209318247382);
  (false,15335955141); (true,114081868292627355409)]
  13216419853 prime_3677 (prime_check_ok 173 eq_refl) _ _ _ _); [discriminate|vm_cast_no_check (eq_refl true)..].
Qed.

Lemma prime_11290956913871 : prime 11290956913871.
Proof.
  change (prime (0xa4502020110 - 0x20882441)).
  refine (cert_prime1 _ _ 66417393611 1 2
  [(true,0); (false,0); (true,0); (false,0); (true,0); (false,0); (true,3426248680494); (false,804253329192)]
  [(true,0); (true,118069623113984185949337873); (true,21501321572057090740559479); (true,15067307680406497799818239); (false,8769681586998);
  (true,40991192273783095078399616); (true,8530383528469381186770639); (true,38373435543513396402918112); (false,1650176974492);
  (true,101411521157536546457187882); (true,38628110133873580766428303); (false,9377792080640); (true,99390989970399332004610105);
  (true,23877444385881958785672822); (false,1764035519184); (false,836826188313); (true,24102139516287154782106089); (false,2777337531983);
  (false,4340977408065); (false,2592947880467); (true,30237738844870049139061404); (true,6823400142148803521386275); (true,85367204255397978288991382);
  (true,1803218769486511238551637); (true,959516810479308484852120); (true,120316920435482051743869); (true,466993305252992766202427);
  (true,85264350963369929782084091); (true,44339262510133248132393310); (true,9669090439383902357097253); (false,4336967283680); (false,3899335484822);
  (true,83874412248779205221499843); (false,5991869719711); (true,67819843421041429623464035); (true,112723640844382295485481157)]
  4247528171144 prime_66417393611 _ _); vm_cast_no_check (eq_refl true).
Qed.

Lemma prime_3769 : prime 3769.
Proof.
  change (prime (0x1001 - 0x148)).
  refine (cert_prime1 _ _ 157 1 2
  [(true,0); (true,0); (false,0); (false,1); (false,28)]
  [(true,0); (false,517); (false,2445); (true,1620609); (true,566248); (true,2505630); (false,74); (true,1473739)]
  1898 (prime_check_ok 157 eq_refl) _ _); vm_cast_no_check (eq_refl true).
Qed.

Lemma prime_204061199 : prime 204061199.
Proof.
  change (prime (0x102a0210 - 0x4004801)).
  refine (cert_prime2 _ _ 3769 11 2 3
  [(true,0); (true,0); (false,0); (true,0); (false,0); (false,22069847); (true,342012232); (true,110349030); (false,2057589); (true,12491035);
  (true,1089318); (true,108919465); (true,19267180); (true,319326057); (true,4722819); (false,17774014)]
  [(true,0); (true,978531301524693); (true,6491795982435565); (false,1875426); (true,2653471781453745); (false,5851055); (true,2251073561228680);
  (true,154394637389261); (true,3568661705788024); (false,58318942); (false,56514529); (true,3864680610298626)]
  108819925
  [(true,0); (false,0); (false,0); (false,0); (true,0); (true,245179119); (false,55161720); (true,1743605); (true,34194816); (false,90596883);
  (false,105329436); (false,114883086); (true,348549117); (false,97976479); (false,33535903); (false,28424478); (false,196917322); (true,5447612);
  (true,13654134); (true,262959281); (false,81111271); (true,350500445); (false,150969915); (true,16206810); (false,34177664)]
  [(true,0); (false,15376770); (true,2963849158066301); (true,9174957939520301)]
  180927367 prime_3769 (prime_check_ok 11 eq_refl) _ _ _ _); [discriminate|vm_cast_no_check (eq_refl true)..].
Qed.

Lemma prime_34282281433 : prime 34282281433.
Proof.
  change (prime (0x800022201 - 0x4a00828)).
  refine (cert_prime1 _ _ 204061199 1 2
  [(true,0); (false,0); (true,0); (false,0); (true,0); (false,128); (false,2867284843); (false,12343053582)]
  [(true,0); (true,778919551903254737069); (false,5967920949); (false,796965069); (false,9821970377); (false,4162886263); (true,881796375761657237);
  (false,2650324054); (true,974126797783218721778); (false,26648892155); (false,33342326); (true,588703528972668772505); (true,185443807375234093005);
  (false,2885817824); (true,722719972882611701365); (true,32890000215961443115); (true,146236864000805128739); (false,16862487881);
  (true,975845206676750602242); (false,874391843); (false,1482544758); (false,14340146794); (false,18237190848); (false,4577901737);
  (true,12511794042035668901); (true,378585824522158359153); (true,231558709372605513741); (true,403509894287861725418)]
  5692688330 prime_204061199 _ _); vm_cast_no_check (eq_refl true).
Qed.

Lemma prime_774023187263532362759620327192479577272145303 : prime 774023187263532362759620327192479577272145303.
Proof.
  change (prime (0x24000200082000010240102100410541100020 - 0x14aa84a400952001008820821084000012a89)).
  refine (cert_prime2 _ _ 11290956913871 34282281433 2 2
  [(true,0); (true,0); (false,0); (true,0); (true,0); (false,0); (false,0); (false,136058316341757623753);
  (false,244265206660442447161664216737643015360678823); (true,25938415546792424416427901599001629610141865);
  (false,83355438381767382721393759472390403914591539); (true,1191397001040899739476775682165638126773608165);
  (false,123306276842550984051686961961342763779521026); (false,675603711595115885608725931443957542126719953);
  (false,95172851854368314433579691141017004262983760); (false,747012957229851661429640870885216418259110971);
  (false,479646101957522637727096770012431660812684344); (true,1420879047935609120511121467154874416276932186);
  (false,647000103139466394253370058538508924132300202); (false,80776680970758724307209771323944965507943745);
  (false,717989599032325445709136654946362226924408640); (false,513539899086033111563650453728953614532782524);
  (true,95931480635402677876329073053066344952354712); (false,33802006925927356905273686737835527644751625);
  (false,25569937037574286940985834154963790676272849); (false,56864937398212084362808968929894967858227002);
  (true,1116004206659931274346545413098510361706056972); (true,494794034010986944143603823662838784753226870);
  (true,54977545388942097975583366492297118357820706); (false,135731313159338386793251868115863070502326848);
  (true,1478441279756128967139355128893242054930990267); (true,96250427023976749440745464124461773130794568);
  (true,1366112164580818624439197785511128176263646426); (true,1477630880522954301520392038606365917941461629);
  (true,307015943296489723198265070811224609848412314); (true,14313051942336057012252921422467813748490049);
  (false,347774236526027005112651397668989998224597697); (false,172198325873991711432272369986202143723724572);
  (false,3658824781672587303324493592484589264912); (false,341372120156103643956443006140040503033076269);
  (false,33226932396798430592793816806764303313096979); (false,270561168101170129292706183719116381912151583);
  (false,22731367255877704586105126011532585782866835); (false,180684048640334747382968627445558322453590);
  (false,42177707183167779787091143256983257209976416); (false,695004368700282667480313580925870556833755416);
  (false,229285600288051354032595614359735990501863336); (true,1552944672859652128932640843740219186194330);
  (false,34980986981459682678046225731985428850308437); (true,424556186191332861940631805463354719509779708);
  (false,586263467346797104910233099476313549538212654); (false,19368450511630587672617037621680579454392309);
  (true,293533785259957254921035028111622586653584442); (true,388925492184303679163837485934047223693874267);
  (true,44582183755039873499491184977122197019349631); (false,239589678140255189921500563866535794891768292);
  (false,585638194986211217944824099249639767976165999); (true,121590831991915928246436933066907129520362786);
  (true,87627403860354106024634874175981487124366387); (true,77272723352755907990073172815430099507088607);
  (true,1106185031589671716293756406787201886748198376); (false,266209766984227681655408927632332930440673778);
  (false,472705890109676794838842538584210608067393829); (true,3041240978036322602097764501276901029707533);
  (false,567989342597209709478791974732996852073581845); (true,189137545279659692085069380991567063178328148);
  (false,71466751444493208098548546125415422116192040); (false,325802418687095462892298128804255083533970659);
  (true,452799682889327869338705711542211350266493949); (true,7889103317764513752978685230976622235732638);
  (false,770290543080344082190673797657669079442015340); (true,355209334631945606510814436902718443455967417);
  (false,177354780633875440704531537701255808230900985); (true,159595647097983054283501235640844498934067020);
  (true,1083331617660321041538082282635244829988639079); (true,920903853037578030428032524307001884722502396);
  (false,233456361339874080166199842799313443007056724); (false,606967200168894477931448875907577849215324852);
  (false,32835378850400817543452657408970190159689354); (true,132480018434376587830992968752908509572764947);
  (false,59430642938499942093346626064902416397947067); (true,680644387126922111008731350797871665929149299);
  (false,20797589703161846230691411444363239568207764); (false,104189590120853758542089425174366124626684828);
  (false,363797739520067359066674778835682334635881411); (false,106722776498968660431566582253803515122954928);
  (false,77692154480829349768038024584874393300916399); (true,1371458958711951602357583183000248840921777031);
  (false,434419358315484727395062426404048807910334362); (false,582103744332598384042178035002282907863885965);
  (true,1445288588429535307700965515817361355406412780); (true,220950341659003604051258133956801726566313976);
  (false,655543633129149277196092930646973813267099040); (true,269798685168120415601399413361483546310163129);
  (false,267567599692548906701275871064134279824771477); (false,113285661058917743013256349101117450996365171);
  (true,1268679348845773991663418706632540079018668686); (false,212125416645603846789799406536236950281253849);
  (true,23317365023369710516268707920529625797107083); (false,674972319798289181080398394412523882003929663);
  (false,67123909932190448783735925777633001568090163); (false,212159498792511565086464958042152266630931298);
  (true,135123703695996483112579419091438348457357600); (false,107436557501532169760736328178410875782);
  (true,28800824309139665388085952527761366588437526); (false,100247623787892837679904843345491302457015248)]
  [(true,0); (false,5024636993977224749702746945870186685228189);
  (true,5648533033538482086656655293745590562932769234501521405263933059022403333572439589147705);
  (false,571970651050956042041951423889171674922536389); (false,293218729014989444816511975705684755512506135);
  (true,29605863552157370335421719021132199120466720759209886523395268744244261401246293379757403);
  (false,360602376973841093373855063570485727097161990); (false,499071324121380663216507990391932843132921688);
  (false,3120117033309138814797440728093193738946152); (true,43071939409224776496616915267733328449247238522616240519833225492826585925152584385861212);
  (false,5933594323592208940114359167070349133654241); (false,1892176588641811763851643911288704456605770);
  (true,37234049341517435078966122664900793482086558743567436648904685738113056799556952989186244);
  (true,46712523263432083397142808509215696731272318483332122828439297309695890274313048940064625);
  (true,36093794498893533903372483268172315383626299233133228106879773497493361349473513264063763);
  (false,87416367465921282592998584725002710996684896); (false,119717391996219313078356156875717337003848435);
  (false,37002230307642344995186446005336226603746829); (false,10655446224287355396025969133004492889189515);
  (true,11491252842794801484608196507235264748818631663749458908410542065361499272822884362128347);
  (false,424646146890956292666854952810264191440642711);
  (true,13025248579909127504394480919097782453082616982542080602701079169368862596816757383165396);
  (true,44413849532407606986126738585794538547791124982730085733258877730631651662987291072131044);
  (true,9978422222262648212837834911462683382190571372961612749689485404910069362333073126514775);
  (true,30183648687253872840985587918775655956177485341504914375007683291956821293851249173155120);
  (false,76230622888152205795746098385150425295093935); (false,262320320231815402192134691312011343745050894);
  (true,10133218785583542346674205891456378852513406294556984951965585962419856373262391319471944);
  (true,30051265578524043043800566399005196905360274942021353323560176255882516540925795693687319);
  (true,914590096318979744023295208434317681872394660142578317019701840657828725922401348482248); (false,451671231708048152817933630432548876753091759);
  (true,5756952757707830901568272769473857442934720163693353537185996252992226040961291134938727);
  (true,209658103037987314065056402592017896091798834732350679888731591106708978812306009166778);
  (true,20194008169115942137339133687077385733471384310990158371675841903977058799096413376094468);
  (false,46052162939299251241813092446135683119075531); (false,16259622115225690365289097707056222582715531);
  (true,38431187345088030429618735004345248039709829382769147061424918844884747711627829675246657);
  (true,23315707238900302023349927228564298151472468763244272180572446462947059266974239056473654);
  (false,681287482014107156733193431533437092528025021); (false,3896517414268523412068614339833171936870137);
  (true,34783640402557341486183983222983336280835521163689970848439384022763014586231444896351717);
  (true,14044707044744074043122954219421889963507040483753651025561747864038197446899862691183887);
  (true,12897521997091371323688684172811692698957670276496407272199522551611080465481153629431401);
  (true,15916395085250960033715976670059835447812636303707851458949855291419606641509965855069701)]
  320823578353898442153005187681585320549721256
  [(true,0); (false,0); (false,0); (false,0); (true,0); (false,0); (true,0); (true,0); (false,627458235164054221652278202723723632917);
  (false,365651067938860898109711121360519598557804925); (true,100884955873421079781361256508545187253910236);
  (false,640177480795170269251202706959926408680883447); (false,14549170586843776536845721608651273044876856);
  (true,861136118582900240618630680338200078118114485); (false,47472325230726360933779525085106058242166456);
  (true,43078274835547821625498395871337286797380990); (true,185478563550069432464326640810674015701262);
  (false,29377534203455444510071029177145404230450795); (true,679183067445834880204989192164952476954513469);
  (true,638836916749110046984531229207390520784294427); (false,570072931544084003979430202888765670960026965);
  (true,29476408149143252026102120463344635575365595); (false,4078612885578952016410777092516284744583811);
  (false,395709507923714026095247125305738269020607847); (false,29581555400971216926292051994167085662044107);
  (false,71806526939693233468292764685728527729558490); (false,240665098701167637845544603824481839613250);
  (true,509948318901605318581613119739644168017431951); (true,22569015233618258657363574624497847210272193);
  (false,665273515912538165063651446684859274146003673); (false,277194094037346948386478104347530246663645365);
  (false,195359180651211629178054955512030131108357966); (false,8015382157047393761812406018725342354983169);
  (false,304859306735822541053392979962923026314786255); (true,102858567035844234968015683511756079021594553);
  (true,628609705510673162275696519224817161301156856); (true,351138124499840654856280988709899318779684731);
  (true,1220800407076792121404827235758803363879810098); (false,279520026971228261535525381745679506645340480);
  (true,835683103995156140701914642944152710842860346); (false,398246516050716229559668327250448980650792376);
  (false,515443825951466197626550476515007305132169037); (true,93701711689891093019316227897468241226598816);
  (false,271842921291416681663129264533626668613989161); (false,424124718794956030646997603392133480585016177);
  (true,242547870518841673458217703886416596440838); (true,280587758667601631561612124571474362683424825);
  (false,727884074172528516442205823496090184305735086); (true,141273789729345823942249001133854023819138462);
  (false,205857382907463554225580345875443980455928349); (false,399313722126736119859741510366122488446179975);
  (false,108618937966272666663442467678018171853139058); (false,442265859228268299846993949199553352082894095);
  (false,382133530406305840285821365581055891093007507); (true,29057300605907218825870631132820578764388141);
  (false,5111529173080092258225045675366632162030106); (false,249101745927589470063485380205114528685098683);
  (false,46489517528292220913752199422884854208139298); (true,196340221813178395144216280114469641230223523);
  (false,315488532470957509054524698599146911205250571); (true,1374585352709895586329217802530648449645190391);
  (true,908658403637869680471796606614551566583965120); (false,962793152084588096486579308652238626700261);
  (false,73320187012206436419181958231972204882978366); (true,89631181833484915436228915607389746695826733);
  (true,343854646658337058898236302340684001958544034); (false,393620625570177255054143304101673546020194521);
  (true,377277286751590739394005208301149608501859654); (false,325729273064596438154485066781798207320572341);
  (true,40119928157725601976442321172476083958612836); (true,181454403211698614474210554200491430932400663);
  (true,836145283261290548294136725366420609892632876); (false,584460019504755917396674578778288495386866451);
  (false,251234812821500620513064252249331052484698464); (true,1529278352967182737951794466041835616382212083);
  (true,5689563149596569076116379674055655311687468); (false,615505521684106861660999999733103677039274424);
  (true,756687298761393409493406666436500705867594503); (false,633919427470913325818157592274459253272273779);
  (false,155253923737345381891381058709979169071460944); (false,117817432286180844020203895361929043464323635);
  (false,42938884801806512503782351426427433998239345); (false,8604992191157499778982364769032968608375689);
  (true,395372801385713353096682343115800978335650209); (false,256978781595235503531345422825400765032474743);
  (true,843713614100295809845156158170600460849191405); (false,559107091618415414009829203667382784191488983);
  (true,831256957064503284197767401822407516827253192); (true,762412329669097916726413726669999152867123863);
  (false,17314215656982099349881698766532505743335762); (false,631520740918291200484547481155831091485685901);
  (true,180039570603646888095404479933013132062256470); (false,354389816049245478232879645111479827624849784);
  (false,181063210597367671639080711398064868058344213); (true,1295169935032124964297902806658450284754591570);
  (false,533092717966498146365574804470439582151815832); (false,26761800196309938213856487277820901595702606);
  (false,390260278358208517166821316644655673830149980); (false,50962410519270830735513682769974660724178356);
  (true,1314040805294599418063288390749219931784866512); (true,29650425797832256321661705062013874240965119);
  (true,268862177446945337683289667213791481754064794); (true,669459076988644245410006864493467353019474129);
  (true,3461840874934320707790417666943505072167018); (true,119181208194629384577356227654342123008004851);
  (true,915559314270743421137938733164052676906934811); (false,3123234336126849591219940594613504870935187);
  (true,346907712208383549914966220702618149697033552); (false,15944110742906334752519930516529396197407425);
  (false,2482010996729458313971395890518314178109671); (false,195537137773628089987755675559204272017922334);
  (false,762592684529674590860529628857102626423101409); (true,552046164923411945696658641511258779174687302);
  (true,202882584930400122077429152690223670144076547); (false,383519990619557596025689913601670168353688811)]
  [(true,0); (true,439406767038170591968447401637792104628845818970029040491163221948744401182775632640436845);
  (true,321785596356449660881618312705846358582519971682801725827250050540014045148443608896482145);
  (true,103479373933291316366943555615776450993250901416151333055462144732130505636483911044038885);
  (true,77914523311841857503852026801398495496967541327528782580548838288723493411906265321925193);
  (true,207732768993676130939757970105625014619971582411530060708617441226566763777938243474037384);
  (true,243046939592142330926510615814864552832627976018312985244319988850571189316673578719311269);
  (true,175022056496188538109057615822843464697172635107430444267347918969586246873729716702022383);
  (false,233547566734818833458967814938249994208218622);
  (true,21287897000385703588051528901588133179008555307761924748574924481300757431476303641384955);
  (true,181366835474237432954494909938721501229260290530591116715265780521328961498799384081662045);
  (false,194606423905318489920498149709007456754667980);
  (true,365994245279813249928145048588048268558279995247512067252159302017560574639538638463166318);
  (true,4056326707816358755248034075108552920807177764580888155380776910411965749638468042720573);
  (false,624669636617880791413379031617183868182426220); (false,441259618615888573636298749527438266324453651);
  (false,652879378149025838157253098706883225324372117);
  (true,69431783685649081544648568520265579745725299606571564589216660089732523869794662767285432);
  (false,424499159302342700563961299259155594989608418); (false,51030615428228353535356888069803086998089110);
  (false,27244862687303977441442599791659607122799047); (false,453676562333888374422412238187758092643711500);
  (true,242963297087549066856506239117245312079303660935914361641538265411983914332391124143445611);
  (true,103089321453464700365518382128595127463753966683281965320252599237198494509793612725873585);
  (false,523330621789626126433482059937177627654370391); (false,357697986247305782884905953273259454004255564);
  (true,236552983396600655835801886537595684866275442907954443937376142310766024427951583357119532);
  (true,213156519637341530555475182076359550519983007483639122663610044203507820834473986654473166);
  (true,21649564871351367607323236245607915678571720326535112805735721349056133178278821106461949);
  (false,773047106383378533592132593941791492291895704);
  (true,258993717704580333611018771187199441323851065100076130060454865145134242756988221890172126);
  (true,10908888912135354703938731057171022993846652435686095164296033698973836255133826301295128);
  (false,177289681499778831861314762066448968999506488); (false,586186368417630836470484284335927584653179255);
  (true,69979436047191452949386967822529617602498871846943135374371516720656424007153029385559485)]
  596433626971722769764445466971315030968158209 prime_11290956913871 prime_34282281433 _ _ _ _); [discriminate|vm_cast_no_check (eq_refl true)..].
Qed.

Lemma prime_835945042244614951780389953367877943453916927241 : prime 835945042244614951780389953367877943453916927241.
Proof.
  change (prime (0x9281128004200014000280010000002a80951509 - 0x1400092000520002282088124880000a000000)).
  refine (cert_prime1 _ _ 774023187263532362759620327192479577272145303 1 2
  [(true,0); (false,0); (false,0); (false,0); (false,0); (true,0); (true,0); (true,0); (false,2269452528805172966045566416101430);
  (false,776787730083807680699469844070614449979033824724); (false,7579020221569101565058498396507708743902252814)]
  [(true,0); (false,689273230231255300807902159637831919060980321952); (false,501276767915099666124679438404411616115335513061);
  (false,443882921256948393968160602109980930362556787879);
  (true,173215564419878493187434115235020223287561112146231812281570586197404773338445425984571204274378);
  (false,119485560921816137504584673779819700390984854678);
  (true,68965433985146903689983588872984406973429274474788367619153435897261929756330798393996210720197);
  (false,41236837104853328082743962635371621669352534453);
  (true,373119119804536054198540795126909510192709642659786658787325583091749146762014935824707155474912);
  (true,28584534550048668590410457118692146920931703231041451693018662394650884593290498939681314464764);
  (false,530091850576935433839066240625364265483014989975);
  (true,41911435539826960987397719650089855606759534655209645701350301929340680710639744395357934721051);
  (false,61893788356805878464087155812289728684174252496);
  (true,4127015797031267250511481969754929880557078637340983266215800947573620871830370171068932380583);
  (false,112191835443009278818673527170654222114343432276);
  (true,2509494377328435024778769567392072399435281819580499941300571263870282215156130802401777385233);
  (false,14088796926778398834334666628864335114247235);
  (true,56979503774755311727951305194491531274374544898563486855550871488316584763678423373802184354224);
  (true,113090512514276148331715282874890059415489259909544792062330315562578218210267290070286864011940);
  (false,151475913350946187213446936293675669254368492768); (false,705860974369530856050779382733414305760180560066);
  (true,70672913552790222272401748684144260610448515007118413001892813837480978347126235590895008044458);
  (true,289308830422906318021301219262218720081278870646904007390425941883237012698061177334057599749056);
  (false,834402397095497676599449854366326147406804465546);
  (true,569973876725715281124044817937947506099069175956816198727902760141279979458093176313616209507101);
  (true,507047540427901223877233208457103833797217619323301529238871029352013651862358903573761548566852);
  (false,116214198715929032789328020134349281568780481847);
  (true,68053765528066648049543633157188562421371498077477863214878981531187638774850901040859675807881);
  (false,819863353752684191715723674094635547071587542048);
  (true,338724084378715289009252262292878319125069331572139261717787530567767029759761903464914077302651);
  (true,298991254482125965462892394889704769584338234855100539803758461924628611968689752111506628444477);
  (true,493445273470483845997487992457869276465918644649475012723254545765669934076701922213124126437649);
  (false,671072944306794993428075860613461477610981460782); (false,258947745869315152799205560193194637118479882517);
  (true,50997821019756576326164584140294347163302321778537442245499717130068527515763309333723814181004);
  (false,44605573949370381195885470509127337529470568837); (false,12978346774443743532117860252459826384046704129);
  (false,36766983918737488900476559301016989362017568342); (false,84425502095825686693497444762180405773465927364);
  (false,660013194190710059314440133017385620094091591193); (false,466773580096773113871830304734218895236354931476);
  (true,153952916259020304727819108420727319444053260265673278179374647501288944932618487177465394459963);
  (false,68568655521121452624021556601374263566720681080);
  (true,7034582087746616398926098453387089492415016760589871603269948523331956448957880964936545946);
  (true,142986554965077024791327034665904431085053293105767237326589295921412469689384435630280721324332);
  (false,410017412539961113317490338314702922168974057295);
  (true,931850959280584850381222563008831664435877079536564830201648236926399110523998722743385390315);
  (false,39309047799323340096644401385006834890669874677);
  (true,410378051942800395762936292730376369610993638479325899868655782852290393953936930798564615463921);
  (false,315185528462755137291357672935646441991371869544);
  (true,395813101061377150481951267365116957489208498181746740510033286664682027914249002594382554068612);
  (true,232208817195773355089747088744131824288994250881818646362685174418570033276861143620793756892273);
  (true,159622004663816306808521149124672267287387818727518765562818003119564758025920205342766587421340);
  (false,295923782023478787748894583165005680568252164801); (false,588357006820363141117657733071801514090241356430);
  (false,476384487229673670356044742562573731627422244252); (false,47579866448654782379223731598763553898856352901);
  (false,143786562075278045172010718581130543983630575805); (false,634760289338806928550229458313966116156796106322);
  (false,138769434466674695205334917423385925280589178616); (false,45500837297536826416983720702884056570936773093);
  (false,256436190507620087673813011955486246223068483087);
  (true,37455004000530253831232535298140461266422848311710244788445456813390289210497980758102223482631);
  (true,158595333294797096407257013233489776754714480160217996581759122803843314931026369455197604573539);
  (true,7456035834545766101701346101476625198759057537401109087042925332536355584244541198030693564639);
  (true,583935931408032196286221456942294947651044768869527908028023841943499855232687596923697857708573);
  (false,234851781432153636513739320476855161772513602545); (false,342839557438113923986869047074969212506399307156);
  (true,242154334130352462204436456368550335557364382087112258577266602121851421358133587540605478380052);
  (false,238318093763487235945537696001306643860595948141); (false,569370463306809810552154688469349180376134789);
  (false,175799928028290591710702520613038058329215493955);
  (true,3088084456100958572779117115717328476797614320163157996570188675294677869034169835757898439497);
  (true,617723945172225904425305668080694597172702593032838352948590245600443804131664110919838540667475);
  (false,649796775252172143427147449036200649166111425737);
  (true,353664498502915489819887015465493285230267299470704152228857798490378054127137359947801226088030);
  (true,268711000276230041919701177575890783797953700095011643612099460527364343364959245666930205829366);
  (true,241180967093022906283692296114522180440933714357909609034840556233268082185522017613201159409901);
  (true,553791992641468937666824510493422104910589039734827689834618248085847727199180072748708097882367);
  (false,9175094448214060386204253358876784942756926965); (false,7336536161003164677356946298419202697712619136);
  (false,701586317748481004687034281865826497294267143347);
  (true,331778358395833867651195227922393019202073554619280633332678856879770318571262390825383765878007);
  (true,39330221994285901670623376995820120564432690074328046088250298380748300916568747878674031432508);
  (true,50950148040083622082246730823181912583756856396725123854706633767676122213535972465788342971687);
  (false,219885726814396686868737797473375912993577801800); (false,400124706314853837531860282561012543803263392552);
  (false,709459344608884904458958072050050650431464614915); (false,57400566578758770284741594681769330235459102431);
  (true,24922292771480833747650032418394087527634683755581669106521583907070854766829691315364641210395);
  (true,309492321501559034575200229153051462357106715017534986059861839054372858074261267908921286120658);
  (false,23529262191254684382013851209291676807799842146); (false,601231831998859972871332421003449589604617272968);
  (false,217909832332889220067033187800449774188115426764);
  (true,20798136855665094660218104902235004041091142544615138817425944086399155574607295240382441567166);
  (true,533493124726831880530987648919948960774586433498078526407480966751578615558309385951050725705246);
  (false,11569847700912525274730492962914789854897546201);
  (true,328918772170313153540221970636519561801258778412125366065559404738728294521917853340979102060358);
  (true,230658571747319671892333128967406553934549307737173023755385534435566264259168080978831300669350);
  (true,598062344703735647905987182316245036687515883864094249082221861492721143345911271407067573613115);
  (true,127903384226043117861409273312849250333889979715786401486195432189634814920098077738512051699090);
  (true,221218433988201490712033685710735735232211763736056314094402632344468553457823381684368399757279);
  (false,106025979633810301817657250653266871798171640407); (false,38436799666772019389063665557729083120719717959);
  (true,447020673585595339503886221553603870146025915480643150499532201939758556617869743272069865816878);
  (true,87966880005101745670067222772561557047543026818282832798916724709078470338186792801864367538871);
  (true,225911881528612536827143629421452286918910850307839830838169849606721824012342241769559562077321);
  (false,9614721775389109019033840206050921298458188217); (false,46732994756959110816758183268517930545749685639);
  (false,466169427896035924643981710952742813649893181785);
  (true,472046152560047072855513371783168365499064281725883698462388345091960064188222632825783009865637);
  (true,16151899388712700661074752327376843585046362069888693928927033467833060135845776262117129562515);
  (false,167471196988874115852853642919651149799402864484); (false,24036813410424673076711576236314170681496136964);
  (false,257739637411421324290324191745108626941096527120);
  (true,257399518598832868735022032622901231684097320249042074869865304624211401495083565180391945048162);
  (false,11468390749688963926447296029106038630302719227);
  (true,404009136063349314607433030961665064037225483691063129156574874293767973338564660560212162699609);
  (false,271594506340302108759175293782805529715439098998);
  (true,495638243792774004172191125235955948008391034556547056797049609497502689167173992561817528162707);
  (false,173757347508682195719794307475299732018903657960); (false,406217586194077841722604132997620025306903070275);
  (false,189067382023558518158137616993027331626920324434); (false,66769730621588809067288450364809414647793222293);
  (false,271844701959572607123003179724691361991690729856);
  (true,108904090633005201269973593281700982916896591768598885654519794423205023190769168827260405492125);
  (false,487756818626523976603352311245899379748377699926); (false,332207674474238195636279694657959807118325293978);
  (false,261870128889521300369985576435959943598551319716); (false,2521337007125016066434136329949659402498898337);
  (true,151449980021548189756909737221393248033236451062714722772640380257204086912032147121981652409370);
  (true,49374233353710601585167352895157424714973806016145708737673822292450675661869959962376761896802);
  (true,30400315217437076439900281463421891088491945954396010356393945234685788954638584036410430259799);
  (false,439095785996469985780442101542743532051672244288);
  (true,1462869956116788364062762193931350666891775807673836494324254254555401572305989242462522351943);
  (true,259599734490395247551686332027525743898652708781260121413680571283333352172182962219216983935816);
  (false,592757444951762118570923918638283810190498870912);
  (true,7167008587722032922764339800619225207698782046486580441992593129421138793910926943834790800681);
  (false,37239944710249515099386852004066991367149026357);
  (true,155989464279039615511865279657244932782473007990669743641733327459137939641594964814850560525799);
  (false,109245083100646998404862604587224175705522950129);
  (true,27744128773977837535244723304810042010277786364187071047032727390192964829935364829383014534);
  (true,263977991046900071350175187876909702533158586585315892740582981188033503231663134482718779664269);
  (false,409913950934375069568226846549711913309582311335); (false,18215542754574836357914965423112370910766108445);
  (true,3220289253790636617651818790115603812629207597699864809642805183228923663407634824023822105016);
  (false,112871559490301959686038128019004629947274215134);
  (true,531461280405896682112093980305453742745512034780363597895305028149366401026887958381781157870924);
  (true,36087137890259389518350133169575461240098062406170092872926915631986637640736532533411605455202);
  (true,333384944285534603805733388142400238857675257403788604632273651255332033431287693452511744921359)]
  829816007257442285709994915664332448456883264405 prime_774023187263532362759620327192479577272145303 _ _); vm_cast_no_check (eq_refl true).
Qed.

Lemma prime_p256Field : prime p256Field.
Proof.
  change (prime (0x10000000000000001000000000000000000000001000000000000000000000000 - 0x100000000000000000000000000000000000000000000000000000001)).
  refine (cert_prime1 _ _ 835945042244614951780389953367877943453916927241 1 2
  [(true,0); (true,0); (false,0); (true,0); (true,0); (true,0); (true,0); (true,0); (true,3138550868424091200583346170666061543142963691224209293311);
  (true,57896044605178124400180028683786832333083798832572583267139251353487992160243);
  (false,28948021682510292132272406057371184035276482887658093174820167126395392094961);
  (false,7236993160597162976647285314669727912743611717768931684319769692067399117643);
  (true,87891679127125344373362125074278730009525552210418488480960560076470394136991);
  (false,76728220288947542565323233435462008071344883470806601023115118951569240036906);
  (false,1267337887097706550623213516429058979729003966561094269425874321227806778);
  (true,168737357928126993156260952072041771405516196200627494385845533434492240736813);
  (false,101757086065743451066261777345222271290853669161037673646541587726311977161772);
  (false,19349498081309890137675302123294495747946732898608970038036840466783170766486);
  (false,53876231916723186033880294753058113825177141626620236821840570173954673170288);
  (false,1301984589087006006337255812425941008540147197136961450252960660956333887233);
  (true,108785664686685592985079616637452911442191047050713432625439572930046663042235);
  (false,41969686102321400738969372066078871919024513500400950574559049416217534333148);
  (false,43915045275375325016505660598248499252525435434119172424088585569575030899584);
  (true,93204055921691701598992424600991491739881258922503608486701047500912272252442);
  (false,1659662490985930547396356331729107459607114403478758509458615302680820942973);
  (false,35440329601903835363644779369874591150069645604732072047626465621389904111029);
  (true,1582955070668939146354899086355811932497628282928288117586646823302549621571);
  (true,51425893992227527778906763647535551715251840356239036587264532362450796626);
  (true,152840088574263782664224985001313741087325490053239055554122696580511504836971);
  (false,12059251920198845699720269319536619204982051746301942114305270500500864922906);
  (false,24208150254529539711841391183542234539233312024509695930073268287342721380177);
  (false,12654838644041417644167459944471904244944637185731174118048279860085921467158);
  (true,168249335590411829865561051413357553433870010814068582912637373307234323543);
  (true,3034176678953247922283551852677408076245777824123544643449171549350540550733);
  (true,42010545909325699174928724315815663817955899509561005899510562225191582990024);
  (true,146950686675472429052143546886588508245384465520517712120440333883806393421348);
  (true,205456759810205984357415323003486241820651179765680299586429930179979077457952);
  (true,33119037102738040489711222913778773890956347701912105362347854244129623307688);
  (true,85261110960975860345379740553766065933157650189503205272061235785962563311122);
  (true,29330760022339782968808336139744445437415499065406164511644532046902326926653);
  (true,10180309438179975463563148072488947163342083258616178538617269678653271395);
  (true,21905353982664872516744008490866316138607019722232715363891544395372818542960);
  (true,83161995105584704090629756693136594350747338617516837491646948377144254418017);
  (true,159115756017397497668102582141790524681889204529184739623170553365638559973142);
  (true,3470053728010240341174314500967228530632469121486964636356314610722183615925);
  (true,84706272371413615790230066281990290177156404135546611296083447156709368014251);
  (true,30438110105603660168474177489998249964282498897133767040275762021065297007788);
  (true,54624615259271963185784378423556844500368194530177168993604251921975995818620);
  (true,21256310655300103047888807807589900262059234352596356773700579960054493272738);
  (true,27022139497498881309202324162808580471197406732467105569348811437069658027142);
  (true,2646863394383668479705063673050252398320215021384852909987032111637448459863);
  (true,51301538989803055399709630256143216637776194551374544716068338501661232063626);
  (true,154651110903900034690658166952640023657286779316322990505732665920955111631689);
  (true,181967804296766663609944431044125189730298605859182550674006262959563487669364);
  (true,13196582606096885012685832429682783494746735293176031127091713508338223047435);
  (true,98914071523920397362016812134545800308076139627564833447503457773312309669322);
  (true,99808652548785500408347305762481132125080625594891656837970860220838658332129);
  (true,2942524918009202628927193638045810114738068231524206364183007395697515935426);
  (true,215252122785822893584827704860138894456377358182647626618787282283489281399841);
  (true,78934941422483746902840322038005088366492988692660316281494583131192120746948);
  (true,21276700291483226178393361985838971222605294093629721247550416614590340738104);
  (true,94644445140120461528637601930710412069415810639189037688406102362110321232466);
  (true,6324562750049143754492244896922147948802457326851714076966093185937044074080);
  (true,4038064692458146236315193545308792752081743823913772118139798432997046418237);
  (false,16377264188182412597340432874829949793487990520147766424116966988887723478301);
  (false,2899364257295365451833692765721623202068327127191498471837334000365629301803);
  (true,40874862800133052845681893557124706132977550612519111308414558229616305825936);
  (false,2196699452239009958623438864389749527899414556396974275311157403122427751055);
  (false,94400512112047084922550924865077014606424184218432342526254172596120850063972);
  (false,1839155176192641985505206319927154961239220212526436521117638622916856558951);
  (false,3717692394731883869716712521739852480072005983951906576393005999140634770092);
  (false,33166664416632135241044787085046555024347379573683152247859828042585952567120);
  (false,10141131654186557353053258438779390460861748475852282345488240004240328398256);
  (false,12098265126220413174436040064838164284191721484497366385015093094597235795293);
  (true,591847891568690010423381242433094452451853480883745964845393220862455858775);
  (true,101117907085634965417019280606872247505530240969327683083720286781789884882);
  (false,35495678750540037484927240359817752705776489538326667701572423368529611531297);
  (true,14216304387248116623457210717090253634939809740798181439170588322293092408083);
  (true,5561765300627535156430467213011604848913977873419448534477073215086665296285);
  (false,97926980382678781485346585423156909453594538021323348822429859178480336402244);
  (true,185614423029644772532409147169679003849258256740583511479049669443698841212684);
  (true,3122463133258890607326412909233115675086778659730022883244968805004344059284);
  (true,198880210091483232252186771334030220298713674122997793954161797287387022966499);
  (true,204110903505607251603289213742373169123819362464155719152905663755581905092855);
  (false,624032866292575676781141387383451522643154137063830409504066587070366622821);
  (true,122196159153196618674805952538448009084909768055955541762606728601940205564160);
  (true,228082899317944606231458099367363037224398148065324842890869425202207195844265);
  (false,21299328633098056503760802930608988898836918046296017591218468664353138248450);
  (true,11367579960172236669182679263068248961700157601369595653057651047749581338327);
  (true,28949096922994428665203819684181710395085346260993514200466587463106785301121);
  (false,54267116403052884675798181020075669130544286000201753230559999703962454685678);
  (false,8035744751700511280302392902687226041950248740155673391028776455053434219020);
  (false,1086085497994785009219871696345638817174807311710688084209093118009144717);
  (true,105943620288416804693074098984421474827079736171343934043007139425134130126668);
  (true,25586954289019097355970883637697959410559325379050123044673837573685648756170);
  (true,120732973179030949013774832324147902386922671155534360804409138680612568075580);
  (false,489787963530214912387912795203782825022867742497783589067581846768027647806)]
  [(true,0); (false,21448573294544170472655412528810831098693183198980888702170054916863537234831);
  (false,74876490745826700175428160032438036345155585077531259588882631235768349046012);
  (true,5399142579802908620435952193348099762394309223278464272689290633142974582105415641710659597910162172462907449335492489006688733589144822247448402817310703);
  (false,2307768401057869049033309135123235413591482885653443070215356069943334613975);
  (false,32491612864603856485014642652131876530273391378890038849427686569677890237923);
  (true,4273288994456700959179171559044927763131763694911189178688824680489997923138396032456107456253642908587357054906231474441324147934638098311972439422089184);
  (false,73988154254162423644368117613006722947767236311343173159432618032318594512805);
  (false,9486271275700692818139365060269083635650301225777645916509126509341719957386);
  (true,2071313733473281394609300675163883511241656778837005454614040266565567342541374144655044538394413131155181590029388852254479092531822261447196638604328757);
  (true,4279203002549555875228520125454340738820217863350085464125487713932867037253382202199054924926597862070179576139310918797204486919978113799469997306930666);
  (false,9798055426300836299463576348505536855781043019203967911226586798240291600375);
  (true,3498843766735772106682067788912657562865135235096407608799820446633278962643182491744074784057841602400656115646646015585985268246569188346412345263390615);
  (true,2330406208878427808346586981565716219360155673171516453936834622168426007395398860351438739324186911490434966118257318585026350432101802573069884772275094);
  (false,52829433559795978199145516942699259993636962819839621689223097964303658692282);
  (true,1788001527553939931703583234073548404137823253255948337266544370679841103811510102587225719060420042143431048377324566719102547050929689699916343512648988);
  (false,37314787331000103410517824808644404553340765725667404550511857873628197628424);
  (false,33194323246051795140912862749207237132654909670127159622360090837179829936053);
  (false,969292316855022109437698916587575552133806280299256230933329327665451755290);
  (true,516111831665292262124730526146195344819513893041809357443306200748416232094963689967001855720527298800853174114752588235570297693226978655808980969552125);
  (false,53516368822261994785995586006923516504319310068886159945409393928089585524341);
  (false,76969111196307577726703401771388484631491407276129240640665741886116628269879);
  (true,3200855086492184204943005289507813082590018765274895605900570758359902925982242103138548312218837757412258609761577178555363978600144627353462793407903590);
  (false,30903278418575779006245842980098606992596106363539661963643946430303822144500);
  (false,11189643593835701372204138363905077822868379384718104410695506233904189847656);
  (true,3129103691683023021132808644349649432995324539800708865670438991059121337503053379376418673668460797751431646333783826063134488156034140930348997161308183);
  (true,31443769469598116649424132772167175918663899006520712681154101552817072587504435842114804566273768321633964609001431875291359752551019900461351681476714);
  (true,63454601794250028256810193665667048291832443311796550918054290985376502356457951864244324804763113440522362247714899054841851808053869849665625267696455);
  (false,25079609173059836316930608699323533055952942792943268770450417182407406355758);
  (true,99663190646854291800312627394495445305789031033313428626694356947754573607881379335849156278109870342129350914949352130921863113451287499766072247584120);
  (true,3610443868048405733237224682502087140884363161643284425815512818724693277422628166571269857309023607192925211877697468416500706464375572131612814901086077);
  (false,5202602435191440533846071316376079013217529047035069165662217353765927237884);
  (true,40738131896682498479273321307887276603029814642526869165689614206033541674338695653333146988980059696195139496451225422615380569220196406848372946402664);
  (true,2400237589723173510895251660171245310690274290134942766898895442105524036303295808684708614349796320374590061736783861708014829030350710291529151129830806);
  (true,1951399870189472559156563283685624001284841913272454012491417496073488455801955470041827425692755140755090744037436183222849042014813239648584704218398475);
  (false,29038750959703678658443949335514997946471504409833733242709839503405520911884);
  (false,54924718535403301499861657754842619487440425600690220363754916049563857089385);
  (true,275211629501387391167375518117505195414898941670115020339929169083933039849976691407222561209564489477415322229080913513307970813617286501089037774863243);
  (false,1865204480303790116592572740284164621542271384562142134788944226883566633886);
  (false,17832436238968999847047197951290724193293934742627016661724578261259701710566);
  (false,355549220671341032350642960795311721003166279726116575030110308082457382678);
  (false,6846535090315098640150181769092922735766332420590056532483714868547162323671);
  (false,57497444529565828536537008344873257457281816379878075431736918698344102761392);
  (true,225692951311099040886681029945836030384909595757983798400218117277565413017432800455459252456441403914678063025837522377687982575692255739940476891528463);
  (true,1423872361196295216888727822311705977792244164070522270087262690376750347727521260466501993355817515086082650453369975541889689420705054433048342883805608);
  (true,16328466185905822237533515829200098773167784450596632130397551503825680725519662036728116912279717166721200984383341461233193978032666222554753796904053);
  (true,1903932541286098944041928571243584955579717724425710119886470539472612763708172665369006710127503832618432583999433125364857501471371647640529846308259770);
  (true,39362236078873424671048774255459016952297134555026547435530739934119786586386287646701085147629464532424524696275389750469553053697963352270761722877887);
  (true,2572887118993329303157325380860982295358545017503040689812374623504153001062876911449952872617848246207388773560999253667418591323064758422080626345728915);
  (false,43780009588402327784495219269728705700208511617663126082352382440205242833600);
  (true,281867367486926607489112638119114871882275485654507880685050153042445722376236484104022182280025396972435254810812441751916006904520904776591534691500625);
  (false,96766818883929846590990262709383068893754590403972012048086514731895648262096);
  (true,3187442506577115727443263796680225663852282922028015175959353005145346826020023966414265124835336909920553730666474554851598898090232549151265343240400443);
  (true,40132652109841724926658735419493427636374678720260403165173008752294352150228401675890185635351677271187672396099881977660849486740563110152557099909568);
  (true,4456249392472772788414461920638369169596600545309259216089719735839812923382423628122638899671643786357381721149430509803416733834721897971798477820755478);
  (false,2554725758196374111892535980911703446240928013511748479018965960903566917099);
  (false,24766419913183378188961934114372255871025820279434011490156298277643958176684);
  (false,12824420251845158207926527743159561281014622806774254686500058849618391844572);
  (false,14665887140982819131120189718091872308624861416080767946832226772967199591527);
  (true,2482142027142314791126857104402180198784725438497796071994557920667178895555347603919478102392493668868884967443097323760207003908683083589504018286416070);
  (false,30090128833769631313839797968615730970146444775633961868299822132187892788509);
  (false,94857034712154053220703623478080909021734505961209061174904748351908467201988);
  (true,3530705427309470697279712179591952280739767498216536603469237861928443051754298221525582403376298352236342110094706255356451818780321897396808358006785782);
  (true,1825804856932094735964541400926078370152193854963913702219790299652559575727799590490277732910145999460485034897877287162959760408646598206807146146736044);
  (true,60456742100856084298309982035763676039193158612565334045851144382243158712971821107479487655173883502774031594074727209091802323710209702244970402428503);
  (true,195359958487221945065452678625397129026131334358108283105925145343582455940834896686496751459100758311945485894701712126120339795593747468498848408603355);
  (true,2274908401331385565349337409769835652224678866440541655517735317476146934981805912417059362275323687366318983629749766800854035342517019365809538913076657);
  (true,4211203057801781377815604705758727858451330222962711833136241365852536445359909738707430716407778417314002997968248578327770381827020254133542031146787);
  (true,238657067889472569047064594559726882001801002509589516000234677372683930678771081457029693320859329948737947531644860789035138626121118287270178773041398);
  (true,318572026101097672989120957576211583606961034371606672719235139599774787937579044304812683995012325549158644460041366777949052416838929553144899482288328);
  (false,10528330886260842041352088711537819588787019057646281864211872506170196252884);
  (true,25631618017447102350392845286840853100982553068406116572814948365836012489601307758194935919778865776188050394381442584763157900134635722100981443730873);
  (true,178344611518738671567544325533499626173329931660281472631112247939749687307757243558520652022167774366933624357048464688185540208403525014182545707384076);
  (true,2629549485819148386258403196023569575817106724303927592089004778449717785924648039685647745200611549243134098213422357645090384514333033459370559944222493);
  (false,18030976737411169577663260850720617224812613254663736367794662256202054652371);
  (true,326558361430693425401676045047048176017372926685614381761807976279337743305895277323978110237590789897144475752898205772783659310697950188694885263777663);
  (true,1276476798377069635011317855095551254263593095476751114296094868231723348851632483580229375046714107925100181042532391066042638674810423138822623404212526);
  (false,33275429519937250877225675675602487962913925894920651880441262185510798507531);
  (true,1283273706327291475257482704713197511281816324187937326426878406536756743834959188765887787417869967509585647172245126446306552942928167189164983858534424);
  (false,107635801928819739296007726538424450292187946064714197420340286584673689430845);
  (false,96411216562837208413017960510578471147809872976830958240103555992992568040536);
  (true,2634699655267223215754235419753801710190484259736382110072640857927474432777591124094637063930771145485555738482366703308735505694124920491301861878548669);
  (false,65547100192568214772215806841113550422086928751764568140021393189104537755637);
  (true,1171510736668783799682511260409955377630879841078882621931571291727541233861421954501669839331954321831930808806585753524597145638514044366470637565106116);
  (true,133081304362000467037527059380924634059834899632437840294845868819493522242953252875935097008279194580222797735523307421660474794935952435978258169942698);
  (true,1754988811970133434381978511233845554993642358637692309966408359535114351846101384861841448623745130110343628423187723652205547457308992980675455040526674);
  (true,2851597367302417395619057725404946556995924756870320131961118067436029379190211088251679465872108205922303408312991248707922567226387847043195119250470478);
  (true,3124460889234113327564764374326888674435086598600873918478635621360395969842418572777802827789671003270596037441817069553359504414693206765249484692632765);
  (false,108041589905450885401308781684105286144657302232154332547045033004218587266118);
  (true,188337294390313972749961497387841996689385571646038577040264557035509793304995117779134300551967568462890015881729799146757422923075986086982249938364354);
  (true,2636301100826726639463128699876584807484718736029167601452408324571228523086457611358004193902309192827243575285980297805598787443864256899272647256903406);
  (true,3813501790007316202088043321091122713274091344065911861228476255639018561616161745223237564034981212079485211220608946098439535588847175387003607670994299);
  (true,2657468701908905595999552501009334351784882570486617144046648735429824476573732939759928052148590308871801246073404750072674498177918062478603373039678158);
  (false,25987362757004139856970839459814968428051687779843999674541332140502506192057);
  (false,1514642710304727059794098434128550205877053824957404418635842161367445879872);
  (false,11330120532621854569058735753028100540047926700327262241739261154871251286623);
  (true,4173006340091288564510978033872014556071385517779280075635623334681423266587867411037227436275776035561457033294562539393218767925941050311591739748862503);
  (true,657228718958245435666328457283043315007848661659390008775668461506809717901795029637038436164631249955313402073663678320602972533822430000893530098903794);
  (true,4074994420517817087459170398240956881280125342040372810108618300110922191972252021053173606733862464903577195124755237655429097383533896918394187027821097);
  (false,66919379635285553406415496634046540032374181124304715127054479840843749885565);
  (true,1735066237264408476372435490174011939058771788472133853991812091575652824434751070613934145344799544953487650163968719512148497613493289797824985157516976);
  (true,2222131676603003450884084622065105070803094095694129301161289813635811801037064157780020754740127853285703120739716310469615574487589886008900527292425243);
  (false,86637891651716832697409169521654981148571148280570791638702503446688500238060);
  (true,2037099727637497853083236182445340442676123767260194243321671169306721418452349842428124140957930186829921508981648612918065949545303699049647279996563912);
  (true,4020614761022363234037381840356541904824470154591252079254034731432920923070077668491731135143656369170540006367565600477606259822223596438060757996006);
  (false,14848717961347932301794321742497668997886975479721168029766698569167752412120);
  (true,686411592423977855543645457394777546217470690655915091348660036920943750997160921166087947836846086955013139062750793451800795929987174111543203902957981);
  (true,5642038955043898224427139704930185639158205231298744702374865242058540671424793660203836117703064788761408996198871500238887053701213226463577526007105567);
  (false,88304370839223398236070001067364501497129691188395633523311184666983251410140);
  (true,4217525746874067912715697623547544610133129318347450746996393185651832026435147193530922944483049352725198953493721335117654750851264531723489493647928040);
  (true,3132886804161546501650494288799926731355556741659606660875748064982551690724944345233616378282433628897437821895900808169817779640298498184188758838552156);
  (true,3491942039037150361728250302538513695193447095406966188951692020465791989020757836451271085134899505365099099981408958103553222455966840815636293279424926);
  (true,749216181718246821704026626100986892294840888475483962597033745939945720374927538777117786302341587498879476885605516428258970082989310082771968407767995);
  (false,14300875590001720569293780799228659672938344591731629937527113122546456559985);
  (false,81942643980791038059061350045850453227754683468079016071373554915908334106822);
  (false,68036695883669284877059919163793716192105269413472819881229720612223158225652);
  (false,89440221718024009620647620756696152260143105603571774414375863168861039424752);
  (false,43483487083263417852267483010533256845581550777418274334650246050853112272796);
  (false,3647115555244471123658054635196393442623789219537887666894849588202567386553);
  (false,105453932500308992153457367438089291052375870684559562904129860789515834477839);
  (false,72178458423556715412522519010593014060504937526668492646084746154224903166672);
  (false,2391564545831146848488809775049057880929315930042792552124817099910616907662);
  (true,3979533340960510632830580570210895856893855058012323680658950089639437535055714741057135294414447999898522782398960906880684871806147035074736806213176475);
  (false,78290868576568530023003365354603379282886091686814791088005296892546747947833);
  (true,954861423229279076813819357398446268721761008730665249223229646021023781302938340457823170690415342831869451751933535737936164106073585735604404827756391);
  (false,13998929818575883167669354992008367590469819738517323603647324674299712058980);
  (true,3183014038180705952187601099644777859758631136749481400321565095414814639772690006756648199146002708601982006493860713502764715743122057877320502957372601);
  (false,24596977793291986749702186330946233434212554553619495189867782037380103611388);
  (false,2110471093719254584438779130586373175644199425009097479075780548119617010731);
  (true,1243153661536256875462109268386156135594917609996721604788676760862832518397821935997073448945881800038315176253525566020993075804168162500776029378856528);
  (true,2223982778760039572289654783276292915324118553067635083779396565665234058874837267807150112245685131442446740676246655382161844364845585886988541260398403);
  (true,3913011725097531795218132244987283728667360214539728261228490951624865752339760066500301725230979332318793845772318627040313890383698641079281881069811995);
  (false,6844273395360774041274805363949455179867740009376602607100861495089435777526);
  (true,313862453508735424946047091125242019588867077815387313109730764065151318789554461838202578607006264117808956023488509820417469293695230657700687161168821);
  (true,8191520890533647829716225022027613755591777184535482229931557975062984117135633260621196145466084597559986387274371819683007727969459682002057896454972);
  (false,41329598687568825316740650892673100018368924477486600885924701559762293427473);
  (true,1386722281606036599441975848887521526077168432585993137828364243845881320613857348237359647591767765557653201252017256449619914498297659296143543060515121);
  (false,68213033856664575364472111852385340810027124875139825383562697632622614103735);
  (false,22455109398812329593494139960643631980539962260368444211114213558467128714202);
  (true,1291400366476422220323424708795961613782105311002935179207802640146148250232969706891408784831962489846529212889554772955840549739812822060833796562280591);
  (false,7888233944920405115024718345252534197970368868976571647119391314775620052998);
  (true,7828570831428516211983870626608667821143800919293519127110688290311622754844854215368562564173323585539898307280881284388507693384630826919682816720546);
  (false,16264596005504109355609364235877726018987419649297541851855785967703586653585);
  (true,2969824616240504873349975758579192954035203231580330835249487326269385117884731447618091484020839171935440812806983515275665594504824658545773660860843394);
  (false,109451569647666603113992072928007002021733101539469573700715173861074003256337);
  (false,8469148963351992542138097158399431038058190709959411796456537758649303013861);
  (false,80596526075639674952584365223142752175948847220320481273657700787557646105);
  (true,22090373005434402348014041631725570584562872097873328714233509586136462463912714559505611480318675925461078631200740133626509227527794750976962323591628);
  (false,62164369755958526518295248353162610627230236088296777690281219615552733388319);
  (true,127426565765151148102807776176503789986040242893227619221324692831111480121230012768183333871872901766517540000716378754205042299180534444349360304575250);
  (false,25800822906427112903775981223669175782999186594731582382036653530031311450396);
  (true,1141434929328061507167970732335861753894594746192457681170083927185623017364404650773379845731858799598162733363080235758199013334074714546141895287311325);
  (false,3428962599518429267235581151543716853068790756261327745201803439215827398422);
  (false,1357921758002776208456239174078887499929470051311845547434833397125314397344);
  (false,83811339244402431013538067112560384170486449279133532692398936180441277316140);
  (false,51446391267114787626665038387933520169718175151893524780909026287322775488414);
  (true,4250743248256214166018429271183469435876485904618907587550862810358247315000615657885365328344437945033757870694455691140882781427909933816806194890880750);
  (false,11608594108268802004511433468145891436752127934137683496056708755875793097711);
  (false,115105381473301060001745190579932106216455367550584183873903482446375091706);
  (true,2452919941919937385562567034090631562969419008995952936722753030188218940735878945996896351841878661219093461360807952255047374393885607447806890128808291)]
  35893950584104763925847036954507472337811148100266109799856099637894785463246 prime_835945042244614951780389953367877943453916927241 _ _); vm_cast_no_check (eq_refl true).
Qed.

Lemma prime_107590001 : prime 107590001.
Proof.
  change (prime (0x88a0201 - 0x2205090)).
  refine (cert_prime3 _ _ 53 29 7 (prime_check_ok 53 eq_refl) (prime_check_ok 29 eq_refl) (prime_check_ok 7 eq_refl) _ _ _
  (fact3 0x88a0201 0x2205090 53 2
  [(true,0); (true,0); (true,0); (true,0); (false,9); (true,206633841); (true,87389265); (true,208498670); (true,185234700); (true,53452562);
  (false,4264316); (false,18757964); (true,360479); (true,131384907); (false,12485615); (true,76169807); (true,66366038); (false,61850684);
  (false,32832337); (false,77112418); (false,339838)]
  [(true,0); (true,180841904754186); (false,24468523); (true,79671282182294); (false,13725327); (true,27009737239946)]
  75712971 _)
  (fact3 0x88a0201 0x2205090 29 2
  [(true,0); (true,0); (true,0); (false,0); (false,2); (false,26360659); (true,51383560); (false,68318081); (false,2231563); (true,3126979);
  (true,70579310); (true,17850733); (false,1180); (false,9929352); (false,94935105); (false,69885122); (true,106079963); (true,138332429);
  (false,34490598); (false,1509913); (false,56887639); (false,83352379)]
  [(true,0); (true,2953120065829082); (true,1178425542921862); (false,16550428); (true,16170876812783)]
  100085220 _)
  (fact3 0x88a0201 0x2205090 7 2
  [(true,0); (true,0); (true,0); (false,0); (true,4); (false,105442637); (true,196109662); (false,60479924); (true,162407896); (false,29561622);
  (false,17391012); (false,1569278); (false,744513); (true,167715956); (true,107927987); (true,164529316); (false,32384372); (false,17365501);
  (false,3055692); (true,133002094); (false,10942389); (false,2222500); (false,11022841); (false,35636176)]
  [(true,0); (true,8154086492627868); (true,1877152169284463)]
  4923006 _) _); [discriminate..|vm_cast_no_check (eq_refl true)|vm_cast_no_check (eq_refl true)|vm_cast_no_check (eq_refl true)|vm_cast_no_check (eq_refl true)].
Qed.

Lemma prime_20113 : prime 20113.
Proof.
  change (prime (0x5091 - 0x200)).
  refine (cert_prime1 _ _ 419 1 2
  [(true,0); (true,0); (false,0); (false,0); (false,834); (false,439)]
  [(true,0); (true,170128254); (false,32); (true,43651392); (false,8722); (false,979); (false,9876); (true,17608923); (true,25877300)]
  17111 (prime_check_ok 419 eq_refl) _ _); vm_cast_no_check (eq_refl true).
Qed.

Lemma prime_1206781 : prime 1206781.
Proof.
  change (prime (0x128a01 - 0x2004)).
  refine (cert_prime1 _ _ 20113 1 2
  [(true,0); (true,0); (true,0); (true,0); (false,889); (false,691517)]
  [(true,0); (false,5099); (false,420533); (true,86562322546); (true,82678274943); (true,17456477384); (false,959919); (true,74269222278);
  (false,319226); (false,97359); (true,5151989924); (false,563896); (false,325766); (false,505126); (true,7922787179)]
  709359 prime_20113 _ _); vm_cast_no_check (eq_refl true).
Qed.

Lemma prime_7240687 : prime 7240687.
Proof.
  change (prime (0x808000 - 0x120411)).
  refine (cert_prime1 _ _ 1206781 1 2
  [(true,0); (true,0); (false,0)]
  [(true,0); (false,0); (false,2); (true,46589086); (false,526027); (false,16385); (true,228039627); (true,68035688); (false,4626673); (true,195483654);
  (false,3902); (false,3622876); (true,437709692); (true,189087790); (true,138936960); (true,215581815); (true,111339972); (true,436234548);
  (true,366938413); (false,1663269); (true,7240689)]
  5746577 prime_1206781 _ _); vm_cast_no_check (eq_refl true).
Qed.

Lemma prime_96557 : prime 96557.
Proof.
  change (prime (0x20141 - 0x8814)).
  refine (cert_prime2 _ _ 239 2 2 2
  [(true,0); (true,0); (false,0); (false,0); (true,347); (false,25021); (true,86739); (false,8273); (false,91830)]
  [(true,0); (true,268210017); (true,1526693786); (false,136); (true,1091047547); (true,184598667); (true,832711573); (true,379330357)]
  8329
  [(true,0); (false,0); (true,0); (true,0); (true,86); (true,148619); (false,677); (false,40886); (true,19549); (false,83469); (false,12249);
  (true,142593); (false,4734); (true,44446); (true,96443); (false,33225)]
  [(true,0); (false,96555)]
  48278 (prime_check_ok 239 eq_refl) (prime_check_ok 2 eq_refl) _ _ _ _); [discriminate|vm_cast_no_check (eq_refl true)..].
Qed.

Lemma prime_255515944373312847190720520512484175977 : prime 255515944373312847190720520512484175977.
Proof.
  change (prime (0x100429504140844222081011100208089 - 0x40080051402200088024284440881020)).
  refine (cert_prime3 _ _ 107590001 7240687 96557 prime_107590001 prime_7240687 prime_96557 _ _ _
  (fact3 0x100429504140844222081011100208089 0x40080051402200088024284440881020 107590001 2
  [(true,0); (true,0); (true,0); (false,0); (true,0); (true,0); (true,0); (true,3457410591561739775222724852590384);
  (true,134216128494755344654953506939717640594); (true,508296923887414579644556304431000246354); (false,146345925063028580650480709592123234699);
  (false,43300538450320718474859067922392793938); (true,344969178788518076880204320325182367895); (true,301146546172868939378099182991367843798);
  (false,107051707546674325652964344852226551195); (true,353659014718370575243430198631936828163); (true,2808247511814114647898615241080413139);
  (true,155384697499862678964499644313165888981); (false,214849390742979531510678320011475759822); (true,313139276788420294332936109563136768801);
  (false,242021446384486415758359894033000487406); (true,184021989620262086622254536133347648598); (false,81929298152514434571515035231742342392);
  (true,19324621718603258646420734398711533672); (true,3892311511998328507957280404807101359); (false,198473670628428478930929079206596597775);
  (true,141190830674429719040216622296594455397); (false,7777141421665799007481091944063901629); (false,20885997987957383229902133412206854297);
  (false,5778979548343018529665370084587144332); (true,218930557455750611814241070067606663747); (false,174670868963371536518089320508336176837);
  (false,32838709500830364879020472634183316713); (false,94838818258366960769294301671544674908); (false,71555480166795662573488823956374120551);
  (true,14346641697670785034417760935679627933); (true,1019377932046358533800550054046680283); (false,30039008991409224798330930438997088023);
  (false,87203101550382067646707978518880644342); (false,156906394817301094179883521102050290980); (false,22912272104086743920112147486307924314);
  (true,234459916849261754231849610871125736808); (true,67231927556059327738643637071170510591); (true,47650390790119733023251391651494132571);
  (false,146190871565657765345569888088672296829); (true,32925288649628639902991467266683039035); (true,66235599883594900938960198850427012304);
  (false,172008367120311649072115795418889483114); (true,453253927886208404725469102422884301081); (true,115591751459745237971168283375493153921);
  (true,346323358602330655394872794353343429630); (true,92311572641587355811043327508521060480); (true,161031051025219174457009570598699238867);
  (false,99677507270527197037263805341110013894); (true,391307017112504646636872096344128908224); (false,966564533459308500423060730412645740);
  (false,84906493813802114072671900144630069710); (false,12264861607235552297702249412733817572); (true,109850864576315003583847755802531046098);
  (false,4451681379856021732307624982398625879); (true,11453219005260160180828685337429797617); (true,64877178737080417024507117999863367286);
  (true,121787245526594947237128425018911807825); (true,448944699898165130633855903939761976324); (true,102364060980597607900700208428992489137);
  (true,10921625592441003104479575037765080614); (true,487676450524692184398752277267487000149); (true,249904909246110847727034944534730941678);
  (true,10085887349012624351996789886808653422); (false,80708381405238195587493003354432584713); (false,2593322097003191108544365964928517129);
  (true,28897199869953151078289265819529866021); (false,181479173387918313712659498192053933); (false,52814302102655036075642694611192002854);
  (false,96595677053044329535340661729165264513); (false,17815639915313153224225463948862828157); (false,67116930988245186977805196799698434607);
  (true,29446139722905103637608703428759609370); (true,144754799331870340370344593028501390924); (false,100483679579594355676248457458403237642);
  (true,478527486690655176186009447736610915); (true,313106575177527398393635940209164303808); (false,2971465033337081113535150597507718772);
  (false,39215802319153663214824484283152762265); (false,509186024943377597355254406219182551); (true,68785671208776466084320964716395750260);
  (true,70905444104784887162499005207746956908); (false,63103802877313830957233371279421173079); (false,172615077376056433431863688730941598500);
  (false,245980098876732603564719672942090863292); (false,98202624662931066776603717129432020921); (true,7500301171267252053529171584339512320);
  (false,147737575047230162002010821334827114571); (true,1711910659770538538916988384054698942); (true,437611918927906623421671185764767447179);
  (true,86592685695882089084330883786458249811); (false,20140685236376920191445325110661233822); (true,347879522232697113349420768646862667855);
  (false,180502645652683664387257285635960295496); (false,133528776566131692435872518920831666); (false,1846846558831222692174286551892198178)]
  [(true,0); (true,2188096943818805388056846598472168447834753780870256470847988428720097531932); (false,100754751750030980189838687178680441601);
  (false,35522103074006844979073895978570376129); (true,3427731201077629568748784059951836310702246901002483329416008378909132508132);
  (true,561013457349774785492241170573043235146916481827555014879074613493219597); (false,140540578919152639316976227514658003888);
  (true,2339090792094887125214525510300362837820645404515471894616977260236746012350); (false,9921419435254725601714881466581663118);
  (false,133134881750633969531530688455386362447); (true,396304534139914621938085834987932992503227879750376303052077508873298206655);
  (true,18578051817115421088452346712962155619434650083728254062278278162914519103526); (false,4883077706193896611998269641072979595);
  (true,5740267721415969358484937479050421845222268939477483619086257148785349117809);
  (true,660121374346484290720110161433309491186244810760144208332360001186054014121); (false,238086770611862008564781841151218182897);
  (false,111595437256845653088119070648481433666); (false,82543280152026000411397678957113428824);
  (true,14338098733046408974916822438422872467155791134141677720940350225807119074329); (false,14909010948663275725372838898617799863);
  (true,22340639605051780540800984713189021447441701340418007928560957470284290407);
  (true,3452716085365443688071071236027918747286532572586452451830231620868877306282);
  (true,12557086106214589500401035088412883270892740406048861253055494428137465110827); (false,53348218091416717160235109576702709355);
  (false,478329960598611666472087413599793939); (false,16258021448396018690041292386706558269);
  (true,17707437760070586030424275999375115876695944353205671617431107071169662912286)]
  235081362755335172132203715226758066727 _)
  (fact3 0x100429504140844222081011100208089 0x40080051402200088024284440881020 7240687 2
  [(true,0); (true,0); (false,0); (true,0); (true,0); (true,0); (true,0); (false,26377949459546964837819861241);
  (true,2993970839614740465755013028081141269); (false,89011048671186438288527623117368502); (true,196698593217778780913656051193851340440);
  (true,76438938977086182354325803382128152860); (false,134308865447403958509167781150357755949); (true,279668089091487494146501301653881604783);
  (false,82174109908319696676410417375892211883); (false,112021948254015322600551746081822841430); (false,123027862010831328125096933960757918877);
  (true,16468117911361007775282663991823733874); (false,2791934455280999720567926027909563646); (false,246502492713968845027820667513688638724);
  (true,9673385049899451172031440601148970); (true,1851169233259847792020271576960222256); (true,149927194477368366772391596567418693879);
  (false,63933182323559029928510928342073271473); (true,2019030206617813526728311505256213833); (false,159666749264955551000942553428812551768);
  (true,176234358825048880520758039062297885718); (false,3548062913180738233727732704980145080); (true,5012687956477254423529889215436112316);
  (false,215740855812640275933884381123768286911); (true,298203059763350225959997357187623615906); (false,6916597429682745464595505389632300992);
  (true,373123012051958893848844380778691381518); (false,1372416980306610173217036508142338871); (false,128925878449152371296806922496337103963);
  (false,1158481910384006090861046903227177723); (true,47895591803469570364028767958522964137); (true,295506299012274417980575327482313369318);
  (false,130253266723001894652175379604153932767); (false,69325324708240955132701645573427374600); (true,469445863486542461263128876281736206248);
  (true,28675289070795196938200517706939487251); (true,14116752291644264270935952056959478748); (true,286875341617477648902102215001903714570);
  (false,26379147541803809108492257277794779492); (false,22404821947427985059349619945817549423); (true,51091594103732551640636779488780714167);
  (false,21978549629430294324130621876748447977); (false,45605845825829581792689990769920838121); (true,10314379441544525405838153742944248430);
  (true,64547415474927795217674963858574142658); (true,31069475716751586547077696293286792298); (true,7685046467894297757239781298849474005);
  (false,17661372736795641792194885410048114742); (false,26178063794700565152999344050094691768); (false,2518586994153733646133557125087269664);
  (true,100023617573998514768645566882711130631); (true,99750852982808916319509724265470175657); (true,383543528847093397697313713342904898786);
  (false,137246688518582416157875799535386802631); (true,126474349202252249563601609457060151433); (true,216134950805058282450535279063076289505);
  (true,194826843131680995132142827209619454125); (false,61671047030276417818320581014616174254); (false,117629877616559735758358567777075117816);
  (false,217407418469566374538108836697640596676); (true,263186226035114594397654472945464699414); (false,23420020587670763911148943926296263706);
  (true,152297207711338536049209929026475818); (false,6583121287661600908898706992132666395); (true,418121364145511287509154585702469615342);
  (true,1216365266180426447287063782511889); (true,180830716295340923432110146342354440985); (true,100886952036517435366063702522663250529);
  (false,98652364941549990268566532382831960948); (true,203654118594807308021851575219898013164); (true,2574080550267146677640455421170746047);
  (true,101622772818640720772084643840000226138); (false,86782212751714340530234834437679854541); (true,57194839301794354167157135216186702114);
  (false,148023930762742299135126468332689297628); (false,147629105728661609917016358313417254578); (false,104028977926901659417810937610694593588);
  (true,453991000001716126251547071267696964010); (false,220376489610296459931981272194259017776); (false,119262144961437407281230077293736317329);
  (true,84423284885364125445289573183514361108); (true,360339526814238330917418212374875868181); (false,35057969069242520455870870310057025621);
  (false,13875601463092388944047318062480722773); (true,395368234797992514637057064576951995863); (false,128838915397496828814450233735568670187);
  (false,16815190908622555235780372471461993671); (true,107964744452084251143016145905234492349); (true,27201515697359910454997732958097874292);
  (true,1121713958141136341222066958678944115); (false,244365834984666469310153033339304246851); (false,46862070213082735456700667475539066939);
  (false,41635619715894099174621976943554700034); (false,16683466714349391405320276113531860726); (true,263837461824276484273412551832906568178);
  (true,1606119856840131285377813887681822396); (false,39662714718619212649784115972841809295); (false,83615112516797612093998251114030380894);
  (false,31887033962467208190229398548298203565)]
  [(true,0); (true,5386339036228975802351659793179651374726406744508279442221229650441420926710); (false,22189510867143576798549735079043935049);
  (true,26534547645397948408902877642998364090059569732709728904270317402935072395929);
  (true,17658170769974007136909055495569635475070811092703736507759112987790904687);
  (true,28404416918908729387717610117669703818614123827852404475131414810941081316512); (false,51230859232031758388663819033831961980);
  (false,2659428628419218197509053614575927891); (true,17253872552240544093567674324916478777706025392005590802505149074590812599954);
  (true,10359143810945178247248591570641720117702292573145664885595713476524671385282);
  (true,5940311005709575003978040684089338868858986092158979726345066787056512598893);
  (true,29915166896320331397562558502841465059677972247982403885920660701040753157); (false,94232560772085677809655444009123326277);
  (true,15533247667947525954024157479990406883981539407755718407564346496279592340031);
  (true,17408471228126177552400875576342470073942760118195742831089066132137756660101);
  (true,3668962508662139135791297614271732830251575664274646396177437072176694145626);
  (true,15027300236830544478002553374730627875311143720206408145624330558463833614327);
  (true,107564061466502388732611697571211147082025146190082163321798568029136295281); (false,56329447317644258174491905851399919504);
  (true,17782727921408067862972870737486855372256512328587141786075126014329855804630);
  (true,5527993184712419582905524850538805318725567016280923691194611137502315104676);
  (true,1781675338373257239471537157282277112672802998789473346816219742071439765085);
  (true,5503910015017665093204715156933987855586199549866648040212557490065168748539)]
  175544394104025381149509263364095140941 _)
  (fact3 0x100429504140844222081011100208089 0x40080051402200088024284440881020 96557 2
  [(true,0); (false,0); (false,0); (false,0); (false,0); (false,0); (true,0); (false,5); (false,27319469410168334320916585601006002305); (true,0);
  (true,698586); (true,48153665883001037474600009226591137278); (true,91316228765163429625300674955216556805);
  (false,1794434275389905974774224119389840908); (false,12025652785404342481496275331279503942); (false,12592887627859861699541340799020582546);
  (true,451890233243736713154445556070459810403); (false,1230130047572744258664468369734212258); (true,194015155745772416353646154916994271942);
  (false,9445785126033261025835149142665501456); (false,9058122114478036969722591540855763667); (false,134060180815232995944987869849412960698);
  (false,13166726113308300863596795599483974041); (true,72345015649081574435957129117624629644); (false,11956808038707413796954363769745126908);
  (true,9816966714444028438371644995476422881); (false,195652635107786420775168951099149716491); (false,120933080558356802790052202110365818739);
  (false,252219795710622679607924002363062084963); (true,309971996390531870401177427794334196765); (false,97977312123974705420556580701706826961);
  (false,4561626390465659835585182996097676887); (true,137972274929253128750640578445409868133); (true,26777569497243512578977602351030831258);
  (true,89865086777949483382959322701326522023); (false,132671016822004742154993143162294116667); (true,491800938248790402537705886470724768497);
  (false,6713296006650784302209328312043712363); (false,34463904622958697487783775075439632994); (false,652442833540574466887282486794046874);
  (true,304471126297111570601430550922559818355); (true,181202432120274299354805082502126047911); (false,81837734931431198429292276988952403193);
  (false,24470541035300165033448121221350613325); (false,237314842957820125622949674591392692014); (true,76148219140743103612254957404729223751);
  (false,114597329147077348690645481909493810583); (false,16075778174482103277341256389720103134); (false,141491848719602514052173457037763552413);
  (true,87462358858689575112224511877546965779); (true,112525614974872658022735990674316782249); (true,118717999303076226264273228806096096645);
  (true,1141136049974382296590551020365564731); (false,6240714266759748374280123841237061143); (true,86072486339324898832646306639764005150);
  (true,294148150213772958355049410109424295470); (false,120892038945770987015377639254285598889); (true,64567869599614514229734110148968613364);
  (false,110033698673882626194222669184434506); (false,2509694582392570392655190715594319); (true,279486577616754487040371787571482323966);
  (false,228893940531288421474630954989181011400); (false,84467572424874244376352750335325528966); (true,82730167947689873532923442745829664063);
  (true,112430877914879566330648011771359775630); (true,307835134751218643115852968739201754497); (true,446359025431423885436465954919463643244);
  (true,146373088476713470312392284840269810387); (true,162183123704859545777983718901133258019); (true,193577581624331976436488119120517062408);
  (false,2340142646675007828274647135674191236); (false,94449391718474105614283745089616902254); (false,1006652914194948901113514258170959102);
  (false,69687385562305159958875766022415566902); (true,62535436775035392678978707113078725692); (false,12435768963696180930747075518878731025);
  (true,117959675879671130684250340469261015802); (false,231338847509827558512289949161443503031); (true,180466336296747895073490540446621616095);
  (true,76033425279635168820183371747344342904); (false,183253581595296619872625777544107715709); (false,227731495060737575142220768690418431535);
  (true,234768561464668921475779480952013378558); (false,116452689801887769080325321711972201447); (false,13059614517735069531341623233211998655);
  (false,74767277644908041608239120245326912068); (true,326205274317513549612373997885901510586); (false,74202874981289945552824305286862541909);
  (false,165572706060574415328894107434853739965); (false,105631503322860764716964744122426611144); (false,28558474019974299313739560271028524390);
  (true,92339981420126008754763574549063643175); (true,194376701956768217369671050742711975565); (false,166074887051185244502713814638898730);
  (false,138464971819245559477989784029642277090); (true,312078898914379770543922497714729); (true,142890210569222787608816063249542887154);
  (false,112504029788196262918104943357011643387); (true,238627026561140186716188655686139245845); (false,109804503818339641102471609560441279842);
  (false,90387142173172622647181594689290144559); (false,52471740730765244501434368747713101761); (true,391887741848659536531102354573138494594);
  (true,26714038385284333692903809606850259278); (false,113058031546168797194928008600447839952); (false,2763676988881205275078663490606704604);
  (false,34884567204812597856830346847979683650); (false,22810009665739189838834210196992549197); (true,284154338320785146542125106789996870584);
  (false,5225856433502904380901396607022694668); (false,63874196346288347099671787301728038811); (false,86863305148040860860403045264993419965)]
  [(true,0); (false,8799778850945584720834122568972933384); (true,9485061595202127394161051290156369265770129335030219260587421368267984877729);
  (true,2323430229674076808147565817207987870779329346303563973692011698134254155727);
  (true,8733299690638400108516407800034797438167351936922106912662738214576254273489);
  (true,211543131648322819187623854543961881458704366507029690170855835507637581867); (false,101366209009788756351153499487738878661);
  (false,22697690169800891775223147860891336932); (true,402383632592336021950262204613682138780805133380921814341607253792366924879);
  (false,189101916454663840868517061170717037847); (false,213780883950335159677606523971750896614);
  (true,1468420174435155847367274146643646449114261945103686589338726026924600772333); (false,7879174211176693672276177478038951205);
  (true,4895337008977350619500912093967773107303132501939340862556286593207132435103);
  (true,785542919893582201274696817062633603637266293477950522232390386360298330265); (false,176173039626614086002339873235857627551);
  (true,11864512709314051144495007691782441186863575785017302138951781540428186679)]
  52333299885033245219942804006191421971 _) _); [discriminate..|vm_cast_no_check (eq_refl true)|vm_cast_no_check (eq_refl true)|vm_cast_no_check (eq_refl true)|vm_cast_no_check (eq_refl true)].
Qed.

Lemma prime_205115282021455665897114700593932402728804164701536103180137503955397371 : prime 205115282021455665897114700593932402728804164701536103180137503955397371.
Proof.
  change (prime (0x200028108040480a48a008901100a42814000000a2800150102504410000 - 0x24802022205020002000000440a008280928a2808089404028011085505)).
  refine (cert_prime1 _ _ 255515944373312847190720520512484175977 1 2
  [(true,0); (false,0); (false,0); (true,0); (true,0); (true,0); (true,0); (false,0); (false,650849553623666468585472); (true,0);
  (false,11724673907914626136410960774024984892889); (true,4395819299303199504890405264355360449696744728517192077812720581047649);
  (false,117395472437909750473244446506820296382659955103356122103053670776397325);
  (false,95622630508968592824108359790230654919223468107801429351277242615631981);
  (false,2913674069087366804466864258947782257974030311788440168679713759622250);
  (false,90201153309508291792943080569038534480376680380301804129349669207961444);
  (false,101637370910190473677705100837340023288221101566725510470953431204590597);
  (true,198222314635742054975565683987538643686021763364242553108535285005201203);
  (true,10718463720083561327532708068591588260431916173677927521625919297079718);
  (true,293363510215139712543260762461709097273287859657060304110348393663443741);
  (true,2498846153030856229439325376344436893194464631983849583815876507894732);
  (true,3682625169665079509037377618497481133811422828179257739896879725285117);
  (false,38766256912608961969231982650068095531692571954042310384269627912533698);
  (true,391203950832896979158200470976549015162917407123602404898829370163452648);
  (false,172394811465660924915881892556471541412744231174607337278478973174599781);
  (true,5516085108429149001974410170611910171170425204287297434515002121672271);
  (false,50473194443283711237943250514676402951370918689456937556043125321185053);
  (true,21571666675949569493629080052831182099881207242863135802208336241901414);
  (true,199217377355387583020832434435510198997204287131547247070087692470649021);
  (true,263361420728701949840867171430840693813750617848999943952767414851855100);
  (true,948884881529526417493184165905475368189369544464797074377500235446951);
  (true,383457076367420488632976890625272166532663861613400526965389001283218169);
  (true,196536046492759550147343774787841790210823944802575814738644304406491521);
  (true,97539077842962649588620010686335580923076964480934074329151024774162446);
  (true,51950587561198486183966436085536338684316970643981634969808893831884698);
  (false,186377614661044959590429251918280356737506112515689179260562375002120159);
  (true,281335836389984422609467655095310190662384447876401139237154062843427817);
  (true,104230482037727425800376818109136617786067121307895812596541759886444621);
  (false,71895245320360270871084316710183054516421858437349435699200100953843376);
  (false,1167947894303311038033506192367460776766769073910142756734174353106788);
  (true,159270726507520273751265046229548044102536471286211918598183118952929167);
  (true,64852433273476671930505703973692136751305034364892460730664396119517616);
  (true,409292223140999405826362333720028682953975290398985414134755829759621);
  (true,821401448192853651946010926452438868662226386396655351245223148397375);
  (false,2794031888115061145445207134997610334787210657251658925577531183046643);
  (false,14168386097403404166973298546255055632106056876304816542355728298479629);
  (false,124478370750750867740972434270815795417859472776557217121828297885321138);
  (false,109772329335195408689875633345114883187182379914224375099831438603755058);
  (false,142956910916016385057254469032568287251274672368448733000993490793170805);
  (false,148700469526878310673382872136954839445936568843008737501854591485488176);
  (false,822750825908982021299491315251292090635409418716660458006543287898860);
  (false,1001616318041528254637574716468661262001029268592602508199043278368942);
  (true,706293170654518025266838844237654272110847845200016587137671882088756);
  (true,208695035083942825737875488829390082698262927863961272565440884200624304);
  (false,6597367298402096684253786905067611347820349711444335853513304350292170);
  (true,4212714957928705237681828534654956680477622216725368166813843347178195);
  (true,16328467777112269837962315984711193465642431374526335195116726037491386);
  (true,234884946385379515965199458932230976399732870023851336009778318497762158);
  (false,34557932914729281553845980167690399242128718454687766987340050642545369);
  (false,109474416153361149699700529062385012733143596403177956259448791293513097);
  (false,91300834110528094306967936454361379074326425761670375711922199230068091);
  (true,66995513761320037904279532229519846800659925016201345871831206951073223);
  (true,1350123029130521527269754024716933691896148519104320248328532812983570);
  (false,100214351539269664995834108957453169901146387594363396436413107169434207);
  (false,50797577783932842021681891204699923834003320973178290479864492567583248);
  (false,105263501196256275503475429090422592679638423570838494067807091168278438);
  (false,94318424427419507072699922948230059420390719378223354793132453588597477);
  (false,149643603994094668061156220705810356165004362863011031171873467856844093);
  (false,18230154528432462828374370873579076164805992689983678126085180123467852);
  (true,99480161852216051412166491243010077766824491518672231764018543974172799);
  (true,337381974202215079010763778796522788255152042959035697444536108523523887);
  (true,300519161035568425476428106246288454471783561918687020082663850039367036);
  (true,36628903559400274035683797100178565619896126816776383054833034598202274);
  (true,255224961901110977426773387289859991037570229846108450405166122578040880);
  (true,343108592690439963782878647430865427158613153308126574817021937429523069);
  (true,145688703960307535634662348127375811974744560896991648451429570146146028);
  (false,74600771141634851727426710518673540448038778168913475352548675233648843);
  (false,185162978220505819545027703772695346303396433907209018682175696002576422);
  (false,35126203436293125686109964978775765193088199686441859840962041493731719);
  (false,110867619543809302837997576739112689610344365405667677697867771331504968);
  (false,2031981239816741367606719232694158118306669437930110343344838915788845);
  (false,13849474187521107123875271839873757088229311049150819289622625800713525);
  (false,62413864524013509031891969267762665873792098392571845302022669399248365);
  (true,242216381809038846155767768579494232138287914010125670461290720083285015);
  (true,209489532368761288438951571497311236254255724678693339721285048544967150);
  (true,326492335137769417839457258137378272487902257701768651502143150107346822);
  (true,227811015278321367376061221693433688726224343037448983011875068841721311);
  (true,24376903439429392887106265208162752625740066394752492742534500287962411);
  (true,214428864670906967245564242347658477955374548232046493471564163932648221);
  (true,53295111254706910991512574059882963671376435249781884836734979089803062);
  (false,105334770091505385723359442491527028145075929090883283929618815318848323);
  (true,141344994296816319888343461935865915397131440973190083498096691161595722);
  (false,136178929471297247513641937295432640755592857448751859772350404745068101);
  (true,4898093592811023839746483631698180312330648295201685319544569072250540);
  (false,22530988580686664776938064188486157980143306668274606837718656335479614);
  (false,189512496376555959604704004135906322947510808525274985217452263808184596);
  (true,21464551429680932793384552181551396316380648453435039240343561204647735);
  (true,49275950780836634556775569215096717156061515233542807236960248678260449);
  (false,89013486875885873210789914836854876982689353226665142531485462468499106);
  (false,1214681154002728390837959366536734856723864069936793590504068776490050);
  (true,33220621270113463487528977390021638905258108194834886639715664811654082);
  (true,145093182543214160567046162073740382303436842715512017113952504841415407);
  (true,66164397366800386619864222720164547532554992791637811586785388090161712);
  (true,408449578001389948062768849297795154416046951736455757952957499093127143);
  (true,527572897734746207819765079685641179040928707135630901185794968058090);
  (false,90833774417036698285292508667431789064418589113208443052031416617243045);
  (true,57938191148729619242909931099335874734618350630046369586156314959950375);
  (false,4617858437010567990626494472177231882011363744197370384498755238653270);
  (true,194957069703151040026703554485455373584779052456050373417724007555688885);
  (false,202162151169181986889064343107211261706237136631525002461779801123942165)]
  [(true,0);
  (true,728783294199620754914340127226573057277000752541315796276036735966171626483480321370416072172067175827205107588937537694377137255062061555294);
  (false,102700093476998505366523343555175703866106011377460119188076612620508966);
  (false,34410114242241173029478093430055333341740048939440107274578635944033272);
  (false,66113327932814606852753357903589934267059654541176262497073033772765875);
  (false,36658111321394129162618242482485363383190656708454801178965226851840660);
  (false,100565638058485406430073683228832857136571269329109300830048395122169976);
  (false,9890212190041092855239777434091228801505155414763588175983316544653948);
  (false,120938332983430051733939837133696578038868001406095646888584715469213154);
  (false,68946197095440121275790246479682934813809560737672454452751559941291110);
  (true,2316681799618658028365432226085526291674497223206616066652840833207230316264294823063213865996106838931612216007274107386305264630338159187391);
  (true,1590328895372265157246198985140714307062873061159556721517642126672539525635928230520565006573617207492756126591042373964486427403030270593828);
  (true,2787914225745930458201041908871569930335942075976887423284757466904410800594233695984184717938735682468747102359469039815206312315216248890091);
  (false,7701013427677756812291131774399503648174356013343289498070731250621851);
  (true,5189567231349202420969781763363445985515787097734500513850039816708239735477471471068993909631724283064970776279130542921002551572449809793159);
  (false,17537074503217114642982819660360834024927174850636745995250202903527035);
  (true,2163840930327356550719997490111253509846978304575493534812582196604927473356472058862724682022551951727398579643719332408669924141435253105668);
  (false,151977823543756918751158612854380879668425188851260636308152277242607420);
  (false,46202565141756985146644336383882327164707489565907579647080143314256953);
  (true,228439104532465886065187675400152083114227784365326161252691713871180494041964876020146020362312888744443010136034307631715204981070736399400);
  (false,158845032713105370344780451061414041568820322667562312104079283889927668);
  (true,1896570432194386582330696219824169571072365233548984665503994873903756708792564226250481561906413048083086966706429770832987730504177932992114);
  (false,20422399379053424661460247563448710465240469187371474012319857778021855);
  (false,435891603328038696103539955497146049319557226522246625955840155396);
  (true,1211219440115774214750249671704858365758082594041662157003707717155488890867271893106797635369922018591033194334802504569815540259220713477521);
  (false,5164335208757897096609360642440575450627320198613850835791675841268139);
  (true,120364034390774982218035500454161837440809727947691669606555222077628911938069688060710652000359445537623498719608126881165381281055689654603);
  (true,10380810501587562380161343364756453638570469102758436704129750189323397706389990888322750142686854070953461897357325513297701651078245650345291);
  (false,2123666334623542452718989442977220959412366034371533852411613858831624);
  (false,1566604836019924747649491598619203958314777488889109740306722973809477);
  (true,1396355028329046203813850668845295750479780513716412468654691629173754255953998340152110149262210130493705264567980682283050159257424813865647);
  (false,120865268203942787599748022005780369975699784353432352536309175340751182);
  (true,1490083434502755960578646078338872530049841030899443963310620411308660581190396988449081219492485894396989295002591448602626413353178782749539);
  (true,6684551867400003785766056317396144350995127092733308197395119214212057941135018990373906320331637687183816788731473896359184510362791513228559);
  (false,64949229451740853203864394702998145054122741083442374773745279341278686);
  (true,9745682200476982541228293237439156689408474871229905418035509441830893812710939393868429764502971119017781202825888921270827899002134084816508);
  (false,20037577640174819244062239023803146069498507775485422009957932589568475);
  (false,96930340315797928694002915676213215576721225899996290651873094732500741);
  (true,4423083128673101837898372132414324958216289426055370156855237399656151580448452096110708596864405697694561317342829163852519223785916021424132);
  (true,2924829100916905875430111224003239414381494938258458927152258732622393019728499081289242277791891329519729338180998602304834881605516357517239);
  (true,2182953410382413879435274659151081634565435529358432586031470684674153231018931968016410417077721020218353318868264939079354835698674050219400);
  (true,7579406809035056296216498921053300690474312845674348093957902415721803027401570787559682554987592761078051673234059094650519272784433666360443);
  (true,3806094816969338567493307862949360264825574275685993239033180453338267470896042484760860961596613317639384452151294975930180809118529957493256);
  (false,161232291384467682452156407987873767807599809210966811765162400180494895);
  (false,37878077736054499160401313885532457167966319211649383221903671493518069);
  (true,1261056933612450393027032366046044625935161154355567819264329859302549764109675424930732059703931066481908897269502639429229629488710673053814);
  (true,1952147287927366024025125880146338120562061666101515730573853603590570963420534100640054806162364391747170878512991725009699233475661468840497);
  (false,75547780817864833764370997569925615525504513297997224509684369328887296);
  (false,1605372554794647914750371544097737213546638846210501006048075088076);
  (true,3052531250144684601331142768017945418090064301922680682135803861106333609302677596223877337123035997846147653534972749954704911398064588999663);
  (false,21864880073351706163494293951327398221019521492950503037818569259206955);
  (false,52809230366474482850914145001704489158871028898777534617430712344722899);
  (false,5151983845125843388971619771268874992164161795334759892315987645276812);
  (true,57345728521292318546663293404732383322122295433148267228212215318852084672523407614849719261047645267959957460755002223181302279368451790701);
  (false,24382669979961074016865527872344096208438162406817509374332061874954075);
  (false,189132006210019078614051280322919438248280856883959665182620544717736299);
  (false,878410216243411999485153741617670444792635586017401226123327757528355);
  (false,79424161426991794677868074137691512131065993019583322790217195738822829);
  (false,15105161854996035837738573373819513305898384249189124233499319774546457);
  (true,6877061819973917906833490705825592233136844774524769642186472161294468312631824024105171333436689710997982978523248284200103098356621960865876);
  (true,185320628430650757251706113477745924039086577222362860596733152062188228982113051954652771723361115307101200604083946980550186299521221214569);
  (false,83372266514066345704564999367801571916360399909457921840877950239492686);
  (false,106587572103660012008420656338579901474180550759426143441683435231627357);
  (true,4543644624810160884558605614421682036479122478610669914824531707684062016271985922885964469135644768373212206008054197597436743014573565665329);
  (true,6687607813381403853374029535976526214875984958293694973432782918318420843096871034834427369368305798582850025625172567424980108718067212361931);
  (false,32318011782759007924702799298816676465210041367818802243626990069358268);
  (true,8179359083713140599815511595081039759987955988307624188281895757479214814548233052769671353191860263910947828807587690772109905584805908358017);
  (false,57839493467735109883253827972554809700312639862167227649236347375126174);
  (false,229170923601019238695355269221618256686686826187450196496020032339631);
  (false,34562799503491148857199760509657166640359156457433060817216321391004459);
  (false,3203195685079576212351958246263155228214355386636965295880873992215586);
  (false,24839797419733401943494951850768444232772775423488533050945988496770847);
  (false,87790085802191614465461100470160147588243282630436798832785783763592662);
  (true,10272597888747347129749352746790250016859605051999625947321725541815773151122414271389076725829453618923137550379978924003528714001358033620685);
  (false,125857456564141127493520322749965227160100545487546906578405476298838810);
  (true,878897861127844773207963695475517251378425123737272288617000470227093548535064299644452008033363190183261397897906023457217313849098714747086);
  (true,4487429635278743692570361144139406783378045797667170730151995950734934078107690478307450290660939540979954924368693486863585714931120667783164);
  (true,2569255601659821433984882394205631713322082391570050432159774439797222933035597533533123518858758059928512675870023796437194646842940263142567);
  (false,71739978578849649772920016973050236504825659012392263903624722431198244);
  (false,115204655745149837901372157429020837527794530112585649954043439279780689);
  (true,1789890120620957674919103074643353625951470077100475445318272754218207528355515862891491421196347628848746794165578023540001976586922939817029);
  (true,157368454194737194974686528940206865212964155899183783805234101033940126455660062435174722965539718314357278505999120862799598758077692220016);
  (false,4230130085601377267410077228925425950558417620603427315735997677044084);
  (true,4408735144355763819166829450813383354501300850668158652971120707163380483428354059747459815271505164726045360806570464494228677556796882565925);
  (true,2741770505847377700121662231945112654529104303201955806053273171586536126184515598785288480326113129260072182068222063128589349242630455558442);
  (false,91288689892780031859141372730647368343170495622530785844216273973170996);
  (false,80651146383228695427977590515958500892442912753691298427361813554472741);
  (false,168745688570283447807346350846070161303148853345795307550395875881417893);
  (true,103544273867234318944050120000738200581027776294946160186231156666358002713173027902398401754977203560923392619427977316339353977902158368195);
  (true,739185076968790836937797975142526351284594800736645047531402796118388186423954331700809453245639700686390966428824856348597288371047074459813);
  (false,175423457210860789658370372385146839260125302034669453948320198014998480);
  (false,191242786861785401857352304444014219688610967124621505531554383348995762);
  (true,1468925599242706926383137050052882730005663087659655235873490257005947106376518762589830995489410279895813182753064508249483114063199569104045);
  (true,6740354469370535990537894222331219103159424393392012181213031758687811178199162174703066061805227025586873005200663361932532369010417094577531);
  (false,162547265181819358271968504120153432651241169873499491692605033810871);
  (false,2742117099147697005141637866838739091649495532016540426994215125862431);
  (true,6480239927401973704634341126002464265678370835811353374582282466563999766675321722289707141427870930186716991494779318105273935376599287489080);
  (false,419681831321501553892768368144525091736646368154868367360239991239514);
  (true,10039748921954140496335110020004411047979354596669991362820644025891709870084080076226278231274372853795956646395355173887099578502260289990138);
  (true,3486733891861919624262599421433280868863755737654807142269091865029919941867501306462756727106041429492680094079274112631150488481637487612854);
  (true,3953241531735369850204500719879464355208471391681681818257890407226112060455658369118050751813777550827930288638981239488607328894080568008707);
  (true,10166839656496449295823358736073180345908422267518066015575708125204975869208962058110149679649314428438307547052615235159603187615014543348951);
  (true,427435114589977194472258467260610625391263976500332639909461270121467339257838348897879819106618065975029362632750208346336250081795703627038);
  (true,7262669639779223518947913601116430558603979097827329159765195774366008598791664490405247176127248775370815286515325833742540348503080354700156);
  (true,7634555672985739270602521283742347590739829296297899454108559804285103508076180285556477417856861291686962409824191600117612202903551847277152);
  (false,80789809232102211867659725015776748710255450768846334376574706655956766);
  (false,4451942022547861502241702609107282974013663102372353145095024040544873);
  (true,4682581303123717902984656403174017919276659076029346084781488357009327674365637423126840910569908523737880167961726125196252905072685230492520);
  (true,62150940767372334679912867734264526750579362039910380795516659464351001639937072779603290229923486294875208846788863434327459038111263585290);
  (false,14583866041256901940192789019202032808905085102447944083433011970518213);
  (false,32426192512355099553336518091318820369440392568877294500142178105039721);
  (false,56202776363178619495653684207174502834810968275859541951500920805818496);
  (false,146396922553518467336236603112535603114765493830322992000819326327728411);
  (true,1546104067127720133941476880913947558550586447550795788263267798964053343945704314717150823869466015309146505074905597379231943412634984020548);
  (true,9788330411475736905293537917307086785476142094227496449190788962307163350296895704849284067686082485428309124079604024312107538339568291645021);
  (true,2964984043974145370356402387779003483854842146362277073371244615015555096748714437617654069587705656251267874589291859777789949311750384033164);
  (false,96410357394151759971002274759179740086604338499355993502483920815520783);
  (false,57287181770478394562124311221718413781496954688901986473054552267155206);
  (false,159761888001208498873573299296090368504557720404855822105851370955790909);
  (false,42075562422642316843873253582186837264902486041898181830205393974034032);
  (false,1052719275053485764921975887111709791428604596936214757851772605702452);
  (true,3990979161056281345195262871961958896278035220761136607447175797715473125979020980918315250404137331005694045873923895812277343388671967471563);
  (true,9458000786545811778364643260750426479777192564367825326430479448333717861226517021889070372078250107193972455283849352624220135979813656300455);
  (false,13854623732802483172982486274789874961654812378840155540396750466179105);
  (true,2483925554069410094020122967801103014690644800359040738858350954807202350736483569247994322606919818120749542521536512173987767518911344870189);
  (false,27129610175389827306414636173725409537296261842209172603014847834984499);
  (false,130665362354230236321271910263673504391725256660341319903789259723185372);
  (true,847421032218375385884435841131828195233184131366818745040581518085089902083888032488802274810306401144082714880502300942708930687635741963053)]
  81475874003799270243122483189086420723726815346591292526890606927317739 prime_255515944373312847190720520512484175977 _ _); vm_cast_no_check (eq_refl true).
Qed.

Lemma prime_k1Field : prime k1Field.
Proof.
  change (prime (0x10000000000000000000000000000000000000000000000000000000000000040 - 0x100000411)).
  refine (cert_prime1 _ _ 205115282021455665897114700593932402728804164701536103180137503955397371 1 2
  [(true,0); (false,0); (false,0); (false,0); (true,0); (false,0); (false,0); (true,0); (true,524288); (true,0); (false,0);
  (true,182688037122500036178338250748691612996167603899); (false,74674419781550446515383349898116450519865848479614672217550059922380635294746);
  (false,115427913087193657726105552836911613169781942902559006794696555332514814213525);
  (true,159100229011232436113792329002084839369661327631278245839350777496668518396173);
  (false,12952968683930235282050249031635751058312099753835029153843181154087031930953);
  (true,4481093583225066106016043012510019839169269054936365452464505059403782200199);
  (false,19555290813972346060461496320810833008241925042775741612844417871596092292478);
  (true,166174418488242487781012314481681267009913319288638976822631400923580132163166);
  (false,1232093041507727189940228482212970523878674031206717103614127063491821272336)]
  [(true,0);
  (true,236295667369298484645089577507960434527216153680946612998928906584873265255808918127053538765428665252268403843360511449630807700977579570789313833958802);
  (true,413964608898769043514161018944665714125402498273751389142964323248181811860220548545451514888926658906608087402136252147617840059139638203856726264527285);
  (false,13915143885842266495388834971367068752041102092412430747752838956715740054796);
  (true,2076810933780291201226273064830362973253298483729817757783526129341665621627523724861353511769379475459234792258580911493592427401589849059487934507166990);
  (true,207659643096489933129338751756982618303454723320678292609919042828213189819315305309251293752589344361066464055577410216131132175535566996962981398821);
  (false,22325034787460661125588807994191842193180935728550809546939240675427576534295);
  (true,186135334917108049239519330021511546566941817655085993055142769584558016414878496947939738899802999376736469674354294359355920355712656092430822922768468);
  (true,3022301929425221882714673569947646247368814552976363762103859263528352253084247942316029189760157301732097537925713596883483133905322579444316461989582072);
  (true,1118517283223972185539822937911401227198571163778251306902832081749895339241511451326933328829770816964115095285398304177121673531678421156330738540760728);
  (false,10048076332343091487234362631703639574880481320870177247102209954752678864087);
  (false,44926167884541215890146432325255114308267667193063519865982200909373712677);
  (false,35215725929666229778524899852126877139546789423750563916940959213709471304098);
  (false,15501660043442765523599423775608718797182740590089370750833886745401017516173);
  (false,90666269085229773725458133353282810562993023680875111210521693160025562043457);
  (true,555050631974637230642344096182876581923502558125873432427234902177850192470461056474559216240620170861755730287354655042670540268151580814411319257038869);
  (false,3866994769534233372638670555239321945185260600619173823237181994646039924754);
  (false,45518848096716307495631950944202459063438652797476545758809969390392679569996);
  (true,492640664064289994461194651803515759922796470874659472911429229476469725292639867370641761845948518841755222549311286489317504219287016347037249845444289);
  (true,2434617150697810038201328352639597244777328088623462649373316453614641998439953372973608616701171979363071263504317329574690968280117479365377073841277050);
  (false,29867853181755403817464863900141199534338941640996393112395039116616818171737);
  (false,100649564720526592085762791808297192191982600662260090463024755985070272193000);
  (false,9028225851913323898172062919452285441278239636438784997851656628630278143551);
  (false,71277267924324654076503884740629148849850058716496251561798377746156798697058);
  (false,50738799251057472765091736385550986305785995215559556300169475095421209977953);
  (true,49835084749959293388825643824950926940215205598379624815273817105634958417524079562446216036203710246191777176736479179092052440201280400225354769942480);
  (true,2882488956740208915930779240353055738521180816835865961319316643223004060795415332863355967898317237030824656863081877247859317598905750599050758246510725);
  (true,263079114137527392400644511477502718606458035613983617756090033518503221805232685999698557231553594752847966575381772170941585636818227058324543036872628);
  (false,41384529105168484348013401648645059705043374150952470573682153740362733932070);
  (false,19799864368335421971006688218246380235578070453036209199023674975036290245538);
  (true,2427630020581500785569940868526889331496737562100643904036452805968392773104207244734637927664067332872899130804622405198168284593311012630807318322617818);
  (false,25647359317016044130809090882322751019289058726196302759924095561225472365146);
  (true,573119629618554636271202766045363753499229828791637829677098318142780951106806461515644151163440677747536401648883449136052462610067536245040211057604601);
  (true,23263631966487134765037363424371884335372065174951595799914501649870276615304599892085599522754287268028419643427066537340885832786034391063887386551566);
  (true,2037336848946375992501962225584122157835497660105104162493990427445471638438595469307749465451451272706973171847480296228600141181355751301415324618813441);
  (true,2903629567367400602348152251449260826956108999019341369111373020858237282376832636273974499620157674704402689051677673022937603323971296504513499205957323);
  (false,4701191675299176271190907880878366532093928146850634616734852453465842982590);
  (false,152178922998833553339332654933557414879456148702018369409257739834753892501);
  (false,27811681992925147730919104564493799640231196085743033110127935692289235160236);
  (true,761891307464617903328092391094512366410930451800226600551439208045740401053782751278367945435680915913040989311266158019921006308919040663937545486927776);
  (true,2469887461939692802611450681270755290408682273837045680439198007495973373925150497393828746077373405009276588138454713515028911672704245585060508912329149);
  (true,2164390270870267827858180594762849819864113396776660564905186515375577426481817667747117844859526373943063048058919241088020518411751481334912452289988090);
  (false,88079002551293285753069894726985115103200081366231686804995880614469761926762);
  (true,31155891330493950974759074648576830436474261204693084348142287528992774300829290788166060193826743311910750993848614632480753776821733484191109780462900);
  (true,655964471706973612558327631337596818694056254981424993492507269490070679321948960518710108034410879615898866353281116699593476090806804544475714096097420);
  (false,1016973094139267852435672571839339961561826221853302982046819636645568272863);
  (true,507527984388632542081579197842420410691273598481565764977585989784134591146021153480652811814280670432584407083418077950204449219803839860925912136733952);
  (false,37362598693165573291869026071631536530303593006515462080559610136184194689409);
  (false,60058677792993503762055098457257627804107390444520644234003975289890487263768);
  (false,4771125299454890810998336670822532030328944227418673257038916454857074918529);
  (true,1643985582665842682638790195937406138774160620406714162241479243362280917595666650755694353929605623732908737203514795887564284666210923395744494567340753);
  (true,3303537046781799216510799757015784265417770156484841807908057018783982035929569518183515297916924178922652362216741274627206795747415409720938218560265640);
  (false,115324183828238568390614733403203866322411144482639915416957931059591132093421);
  (false,85322453440620364922036522200772375148037877727903382415333431580400462713527);
  (false,53652952627598895897405732092606303759012715637317612756758128222001599167924);
  (false,44816820765708020181735010021762923237865155765661513315772313336291159662343);
  (false,16426045650822900563393761039301891448745640613221587845660574429231748088576);
  (true,1279132387531185454958094586880325447932462288947925975864256469881148581453997398870002720088935605908866124370006177615831991974483568561682158308611676);
  (false,296928906217241713287424010229799805633359930859418615989536282029489794628);
  (true,1124552274450060791229639609180965487130139714480398951445851872002040900420771873720626336969341570129399220219109943640553615413289121783397940358175810);
  (false,57277738041490635305960609521996683020905135203413982249975127121866343928922);
  (false,18755329913215635048391715565832082012068728448406980292861481533209765733826);
  (true,671473029833073561501829946517266089953066620699700715247180130760758043365153962486999612488900694995098175818529090700228996547347682646838251892658863);
  (false,45889082587069284976588212280888275014323327420366015317664551347504335130100);
  (false,47190641108705439649863284566960579747281597433562979299573882379160521890);
  (false,18265280016155671910075090068934833535919252052330140773908243985437838067);
  (true,1692973678302287169214502552932408934174549500711031472906759580399849278512802855209048293502154959519864119138230932028660807738273815724971864517524929);
  (true,1264898905336703956220983886896551401825016713163773308840786760943908803759991450961596308940576681597412583258893550811720493319920488173232107164732703);
  (false,568417420192833069643984037633574133833268112618474294128360371609152799406);
  (true,58466655583684269662387419855033249820239150759172741440090105320521462802689765674074429602283298200007166985069267237347607384692964972891298862944316);
  (false,85563184866823273035737058774992407590650255080483571335565382022177806783068);
  (true,2084583574279554670871208943214744141482245033444016177220331365897082181901591336511229696200252102249401734203867039043555289275055280297887581001199059);
  (false,13474113580393145364713623462162677379717207245563137920461784871514681615213);
  (false,52580227641700950643689204379089130422829915773510858803388519373715526361443);
  (false,11988826049579885864222854743155866343912250638456612684467139814529656354256);
  (false,33970294679156871896586297637567083811495133150697595787564811284181767967485);
  (false,80088977422214771197525964182984130563000265938258071355512327277838896551440);
  (false,96961591651449913264662199975237333976021876871557301574660222144424690935489);
  (false,15318098443572072158162833631941312108044032111481071637955266704343248156629);
  (false,568613025632758384116258540888894464619465661118656993877689262553856876508);
  (false,34163918605186279807777359261222354050518578186532103931612731203789739613206);
  (true,77370365210754786624495892645668139328350938178322431276379096964940091127269409057287543783287490295223882093541344736260785808862175978661066143297401);
  (false,111779422327034014071870695117063232180806088279524071739604193372133518025480);
  (false,94436357091906187025851747585312819314220935922248037069533559324251006555555);
  (false,2154314971573541503560456934736538789467524606904641940655092389341818904486);
  (true,19761138141555576306240772393969880030558189073638788852235496078137200993035773367758945573576468002364595556437390380522209964129339220704693534659398);
  (false,65762245528712084770205577121123895219522102025731424675103073940306223331233);
  (false,23394386978815691146845267829379993745862060338091530451020769343302005897909);
  (false,10197725685166000306536484983426580695285010540179821004862136227927431919020);
  (true,247203126524692017255330465433210164823182832692054222169936544118596833470209538173295037189621581810304107005925644989334351929045726367584658509581061);
  (true,16541590854276499210709483054544589683021324987623270908260470388093834671330956150234550260640614851138923274014317719869718217809677707451656892103774);
  (true,3122290543295698894902316183044233853630530924678642766126397573219402552531803475488404765592413408630890187448677320776635861990520456553125743230573738);
  (true,349221431310975010083984955632003484771194006386471460722838610040701426747214214515958101943457061084652252129127922011550816758500418477994238830748188);
  (true,1689298392854041447048495096746819185766097150867106882919836001168748773973094758027726817799353403421943534514075779222704302188238822806878073798866571);
  (true,2758167111412736110833597498114688656790813573166742934067413971921629585326151881052489564779319762021278798884402316341174506919486855683948354040207532);
  (false,73546822319201808514893761735096609207175355508725526102537708201118851694523);
  (false,102474443358848989289189858756327261350485827935834289844459622712766465430818);
  (true,1163400783468072388822668669221231434867853776050372729297104619675037144137396451192557685339410962402508631579548856124837369270042477849694137396973856);
  (true,2240316646947824534485693768174728039575797023242549654855641022649677793368411635304577810207962868197645782060995937527818788393727086392912749576209245);
  (false,3593001699857988498595590108157946117525188687948321862246234499053919295244);
  (false,12521030669892843513118287725318484717630388976394782696925314920161969574945);
  (true,1057856418745809681214947764480528739581376478726315683752163341716873881200960355737260471849484940767091382116051529092911110928920047297569502806296962);
  (true,2912990085433820829853262870087077747956481578276112218446062445034240713071218079250232903545726752029824466614398106199857093804437986463702366278248);
  (true,2316400042172624784388193297476495325350131987728147842892786212027178695932674609289677182871815093123451285697246768308693867932835960085477020982947094);
  (true,56826244276711303236827005561837969685143123690834760840395804985623578104820873393588781753804470159174648887207016099349324343171826127649822425987829);
  (false,2757147055488898338143682127059599139194508583000981685644789538073096422005);
  (true,862911761983764679501026440510152063802876965114671647981459829653583829984613538647776562165563069020345408189517713898734433763670924590245472339781910);
  (true,111106902387408236453566988344347706226654415835884976674915116773859885900832354922120547956203834924284923430271178958978142380802451676514283421677208);
  (false,6665577310127239396004133358866645006373619301323745406977525273903021780467);
  (true,3198528025800873406304138544826108560866877995670129712179441163117486803083008116133487677737937066920645957751765244849605873486237433358279580408447579);
  (false,2773679938623355526357230645789138336997010736821633105329446362590496030876);
  (true,1331633245849023694584899255204620751882570171233296390647169060030900116068568703352432693566232694354868034658439074895654217078563514365645787523506778);
  (false,24234686201910558742699453908059234688241718118344053825380440246209069912070);
  (false,1647860532960009726174555088981966159994901695138950986920638101931155674040);
  (false,139884059294694901829572421011887661728418743884610896375201011331996665644);
  (true,377094746060406644893586669627830774149532007428249097503933273639302227740285962869580815962862642738207761014811571423392331204185598625256877077535921);
  (true,271391781816342956696824331628593858694107684529912544517315092639096437253447999680178193383892384943949843435111471250362450905927109435985728563830036);
  (true,2509166442148947604240119568649741105434140391544415036182860892569501658261753656833909672402726221233660570153131310602934976931390358263238769261323483);
  (false,20868868657487423853403384334429035533634628931073652129712613327243430808503);
  (true,16399640125770265138700890758761099943215827697924718190506594118207106335616988157332285990112134321341943378773934254657947574290605317847961167073879);
  (false,1212006836549322965056117049161297502032936937477071066839488105081016067);
  (false,61542665774690871081019493135687171807052349517082402005547526284093709021421);
  (true,317289771870801405877531565520870355430288626062675197381497868560039093557464105596319458108858108473653341333180311597566202329827314865388542948313338);
  (false,25434231027957510411040236734180885146478591198363829821890060039273253168917);
  (true,424496167178650460759766043418044306456378501781592415390199972030350050176922087304044901276379226973751121188165314915242903176708196972717970833824714);
  (true,358432057362453859137135779172742987758139553973040281159359765831738219455156904814520491045857547551282567552367828561649207532569748622351044743211046);
  (false,82216419476220754695221783613059588085392743820877530442299434682865775494662);
  (false,41575234967684420066560200557203934141945604492002018255979813567734625473124);
  (true,806815533834834141961981802637919626218551678820771766146591973392266118989699095211910380210538491275214658604191800056027416542298827416294883029851931);
  (false,108328914473620002494725546163169048118326397322296412260257858208540935855659);
  (false,4247422255544920932820700369232498651855870635695518829098170860720498139173);
  (true,2388167505894799538714732521475644058945330921353616295753315205596969700333169196558847629611332795621503480380334433147785530352936151665370392137603719);
  (true,1273614940516785160130914388319596702257169852784863977949004008217965684510217911700899653554843832903909938872351772204046345198697108339528545246203532);
  (false,623477858907478786262236664603016513969192369984378463980637790007883920333);
  (true,3268764924086460605750145280103108550384043355136120126243474137236509730214173616438022997787864448912636453255021728317502573544841021599140083733238306);
  (true,2658247169085448950578811717966848879257114822866409100833154519899153472668411964571834675466521272515767047981755921293562908273304030016325159344686771);
  (false,15614206392390448468058810069138174303671541858007869723915280637019102090083);
  (true,311673513818904896425437145598255557889856629515030236322523283749108732557492005548056343918990069231429624502176491483842421621745879076867885027605071);
  (true,1244287029983107706205201651593912810592867504887414262581526012186455148194424713843420170012320721446374870092293762304340755332466838732721795539793);
  (false,64787557950941204855188387598121729416852703466547429846527180794595605472797);
  (true,834801313263355427744421915531589237615628736275785458258766072331406780659275065130408912959332995216965379423092816291684277776712928422213826109812081);
  (false,65935686831087690696131083130251518644774268936458997897578295783104432181);
  (true,1313968273989513327632722991783677953932577140075723895320937973021558580859654283902747708182668375029971036715075744658972283264831237887821387928146896);
  (true,2881498626263373682816573015783877222800743850845157703928286513124930738152300221219694743432170098854358251231272897329012772924345266513348425281573974);
  (true,2440187375781304440258751820620937088177600319629607299821712312571388346767524697224559949463097892520169561554816192484204894284074041771416032815893599);
  (false,68641055757348039365914244005557583565409707251155316990033424054974392964373);
  (true,2821969015703147252301562144857374178183559931337752916706878821995374734937416428784401717732834058003524656818276010843045297428777131850205141599560758);
  (false,8850424217603840156509217069467972816188673033864808397439927223310812096874);
  (true,859941710063459060611334466687383289044213486438209945113485265459082368112857798835797884933868367089946217359488127855576187815422828859608753332343596);
  (true,2438862800443514922557185288264755000102389207415945434740012940044071169225452460048344427538832847731280677897028605190562722248426509631449838949900761);
  (true,54667438633988905604474196541687611992133713173458072230748440416810164646791050013236950388627882750681008581500500343048926142717470645213992440630852);
  (false,13211533289553530757603132196192257704417267906550890709879740104641298408405);
  (true,178139011367132231382124291360650693743944141471989584990843277080871084299646277159319388437096714885105666978399237934390782578291817030468175218190666);
  (true,131416805374807813762285222035305295185727993928359530564973412873030201101590059995434626131743484170545477494868267691140813521077414255012031132510671);
  (false,54249658111731806753292004395501951088063263409402357647426649189943878247184);
  (false,95876776874794312523068880958398436307715355083609073829748641065555338013);
  (false,42872529609871124676163784760453512852079937587811962329721527259252365235114);
  (true,3351860950998319692428799264369104941833938080199889905297550972814086639293279012435773806797363851164662894583380080297731311497996600634615483261537566);
  (false,42738896979015487978791957282609010765512600849628215571987464308972923206387);
  (false,23034301551754726463490165661214169459186232413562189052156609849893783107365);
  (true,123245806204949861515360250279583101026515030869812831688849294412602332087963741665895053903741220337792473815455691906431279597126548345471981906603059);
  (true,692457104062310751058439630018272469057704953904530630948927589467831661112372454777357696410287231905777936478389284932811977727069595341400198227233139);
  (false,4934547274411816817913032906297562483820942644148014877418920872498367520522);
  (true,1705211934556827588895063503928588542484298204762583802230363274675101551799519145674538013270241208794789838706561639214001522958894800214787448909230402);
  (false,1895959898576673950452151432814758966230316110044528394964335810257298327073);
  (false,73825181222931157107881697766727301854951390391066542185169904385646200609298);
  (true,22228852960087751706915146223449285244513408092329996829535828312370711976255943404182229766214080497675236336377865524032685840600231164616161609881695);
  (true,2249709583253471826933818496712245080811356830122714772355520895914706746256768020227627515803661160036642727396133186182900894047702854932772435191906168);
  (true,422079261386124289798557161960002634054468952704147521908912293378890130384440894858156251700335562951892123845735817283564039561446184764206620033336832);
  (false,16810474103942019216915666730752793510292367063202818423537775792676842444106);
  (true,3392579634018754099450608478458200337501463355201298038452216718369689605404168819555393731050293788111447127546629591572039011190212731732033550808180959);
  (true,344019235492845875707026457022269436980359882149317017138271147803481456164517496158070447518791901528865082462508712551192343244060193087756036852624263);
  (true,2363476609902533111443357065742632776432458053927125694409527305013906946197377961458030575412361435312912893421353526487221575864848585244798423168651906);
  (false,2290800954082701872389755865515692066566947936612863420451082773438454229924);
  (true,173771731474298195756436610918178349172585547802108544761234086469666078707017574838358149352070580217058181867786493555592718744472997641706800637039504);
  (true,1408936197924565364003632200464595860512739238744764262667959858217708869554130685479245640977802046575302058770449000009314052817099014815597067599497732);
  (false,5106186928857884602615284316371322446612968324286936715702564631130475054229);
  (true,484340598147179246423815540581749344366814852811734883866871176218663503406046835893930581694370576232695274230665999799942943121070644505863399461727859);
  (true,190478364173347219936179647830689069743510652076688868209914713652281508406692359140786874951555205546306716254259288281052377384718093371561343676647226);
  (false,42849054671190291781657925972316325642314504171711579160000694667187321204986);
  (true,374764080984228465273805012882484470372380470593803891044192397910411935786499382826440989587776965167180140068967441185877233823408144545030380282906323);
  (false,274157860024648278218221246840901120040468544557160879577394383910504611274);
  (true,2870104018795531283616168864557789788670560721836883966409290587902741193002104622302866974838966908268709772428371375800151707119633168397100125025294723);
  (false,24516982555840395195588634105813440163374637199607787723843986868631380765932);
  (false,31593134011669370729096411352319802883067914726951543491258732403042420629255);
  (true,2559844625330040191788167059611716032700150065989802736581537794839117573574434925376981819810967323533152386100564206364585549155132018895549262851161748);
  (true,2642517816525067264446562987878366248354829431802943602258571226544112633382295180256834807701661603548655685462508598127022887872739085020138328399673910);
  (false,83612138175258194943011477061331358403607643131055959610877599161767534019063);
  (false,63396329755184658445027681651235251268054392946888260493320006880511487571919);
  (false,946687610524103349397142480211873980805505900219558876519271041774680617579);
  (false,22167226397378533969036752492018453600272885482902263506650654187737705142916);
  (false,694816424000970846857649790163034522571386131208280936814721053523954016307);
  (false,80627871622204756356622704979709805030544664604233785841863800672866124856225);
  (true,41695227662886506427619152416157226623370693402748038490156492689183668012431192870209623066180419170193938475509470153986149097585245304041949499469334);
  (true,452944398237071018698508011826612447209813722433464737205683825124818418984492337876963706993790910093512947056939177720551881354079230717873520943666523);
  (false,114322528745303052908631557346349955426700609088044528167695513594535883176457);
  (true,817208240190464155082252142632545790385166979672080190149035566563434206961480757254623193196110029822975746184229961378277785837981981787069323566455397);
  (true,248279463369246079821962510353826990554926851403014706253531474430648899958450822449753040584004982539615270359282845340696241150038910821857744427756552);
  (false,19200338474239694753218576213943479016388846741475310651666653018546960592285);
  (true,554684970005007233978304565801164494733870144900431806279649026585057470097520797710937341379382214286860139836624041679446116260895175112135142919758908);
  (false,105921815824257741612958280623155289604491353458927135242415900095797390562839);
  (false,77838874871179078714433369881051273970358096255393511882984143501199290098913);
  (true,108729859697304961397295819355001608439727772276595122910900914665933171234228388301017551407544591327889642647266828394261932116219379560584590770216);
  (false,49769979469830409292813389934990906944816214848828647680621971004875570732166);
  (false,9033525552545919093762280666579397142010706682981013252558117565445618523857);
  (true,145085161622794826893022940346274689518223746008934619818303379560120479072806602418664996800085349605580541124817060171450661381546001053917823258428944);
  (true,2250317678796870395354586066627577789555575144756698448327863976561770332035089935760395216601259819579734381595569118126532585154725129636290710348698414);
  (true,158452906215224215277142527958800291991673025678150323323336577268323011662651529333550685891023798105194705510279014017751582552856759823853872031643255);
  (true,30899190067286844581644245170358216222210884306782902871102099574021753624790972466586030704571560448262424789947543534229401396330853080972148359277447);
  (false,91169024233237232550607785302756413835278329259012574295658169118054659879978);
  (false,35524708675127857955472972068971870665324702340654128151767990060768987547);
  (true,1957417666243732067328729866048247406089212447484218359635454324119801038355550125353530793542778370684953318405460148480493220734405950813655604937771780);
  (true,385660265073830569734121576709280141028032660353683737839778492690448474630457716782863580351057138569259074145905218829323743791529422569137409138262493);
  (false,44207079998313827212131365718411036016958137130220513513773981821010899078425);
  (false,12172594832544417303259879883769958915089639848917414502981607565731207865158);
  (true,23493752619881297214293913841338853444650342357092818815841051229136868059096357661510544019208973506709442304896097065141167945057583151323576004454774);
  (true,1250692050272035506285527875017929579511878713908418309224603225014127049881017340014035249338520017824611845341060959079231509568132854612745103474123967);
  (true,372221860812454898520192974147984189204454817681970318246303713260671564219221671441772891001164366123792044294113470998806047682604472321182424947231714);
  (false,91657612563821383636968049147399977205931753670337544076828362422400148897143);
  (false,12907511660959201390842480939535501008019547464097163279979307399400797059006);
  (false,76265205431915505382932290028045928694257702437847737068170768623303900678979);
  (true,1234496924786514704295087661751070767609552733821414641141655371158011180755223764606652168356577824609732781887978700178746886750222406222565049201151085);
  (false,106706225654137159909426831734396153680402469740463389982728070255991720104365);
  (true,2919015530271737015258514488637835219878176252894586701855166852004274635407731283232147849213925813944291600245031597628242138139012950028861052930777850);
  (false,31476822064510812441620577973369483634758472926500316093948271065414258354602);
  (true,43148503639655135754441349416594236904007949284453080598950391739112212370095901517224820061124457286401568570144132723958059282770303085781479219914262);
  (false,18892398398807967080765499463708390759758200813311702267839252426464105797191);
  (true,1346633558027598313798160681557915163467080579989667427299525478942182272048014474979129219502852259085554334164243674085980389439937644298391994427692926);
  (false,2711547553010705337512169578970046345713463394482892762931825592032751253004);
  (true,237398513671114645124260115295634819650473287774687717129802364052984934066593074771943506404317084129965206444528824888952724790825446861101547419036267);
  (true,23933146371640572292906328630218762770536682736047336706465641680270079408231531007297414048031714462831705890206642303134369303887147758621415154478982);
  (true,1807326816264765996949106668216808112429186199700875630763927854653995910512580410290477697111386019970238207945532114845296296685843042265219602389453);
  (true,130679071749946772042644549836765276068868749510973648221840388213354874456283528772767307869824785930284082221257251950040708396732401287713314281900168);
  (true,1414271739404871283988400421266670877113317301500214016430785568236911308601462789456451611507772405919511631853289408286747959262202186947457216338718);
  (false,42825726274523823028670417297578348701772987717768008755720942392260968327769);
  (true,535331623361436303543290226126880987181761003865535439478079867773466557875101911195102326998690732443877399269537809729850404588796060595496788659905057);
  (true,1653943499115187073459355443618782166318410805722769887333514077825860850209932789291384518854282434263263087408098307771230882797839788256955562019133473)]
  38738227534097492269493948901333532538630784921480042032654553727346127695815 prime_205115282021455665897114700593932402728804164701536103180137503955397371 _ _); vm_cast_no_check (eq_refl true).
Qed.
