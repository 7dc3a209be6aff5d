(** The parameters of generator_secp256k1 (ecdsa.py) are what they should be.  Generated
    from certificates; nothing here models /repo. *)
From Coq Require Import ZArith Znumtheory List Lia.
From Verif Require Import PyBase ZpTheory DigArith EcGroup GrpMul EcModel EcProofs EcCheck EcOrder.
Import ListNotations.
Open Scope Z_scope.

Lemma p256k1_0 : prime 239.
Proof. apply trial_prime. vm_compute. reflexivity. Qed.

Lemma p256k1_1 : prime 101.
Proof. apply trial_prime. vm_compute. reflexivity. Qed.

Lemma p256k1_2 : prime 96557.
Proof.
  apply (pocklington 96557 [(239, 2); (101, 2)]).
  - cbn. repeat (apply NoDup_cons; [cbn; lia|]). apply NoDup_nil.
  - cbn [map fst]. apply Forall_cons; [exact p256k1_0|]. apply Forall_cons; [exact p256k1_1|]. apply Forall_nil.
  - vm_compute. reflexivity.
Qed.

Lemma p256k1_3 : prime 103.
Proof. apply trial_prime. vm_compute. reflexivity. Qed.

Lemma p256k1_4 : prime 5.
Proof. apply trial_prime. vm_compute. reflexivity. Qed.

Lemma p256k1_5 : prime 41201.
Proof.
  apply (pocklington 41201 [(103, 2); (5, 3)]).
  - cbn. repeat (apply NoDup_cons; [cbn; lia|]). apply NoDup_nil.
  - cbn [map fst]. apply Forall_cons; [exact p256k1_3|]. apply Forall_cons; [exact p256k1_4|]. apply Forall_nil.
  - vm_compute. reflexivity.
Qed.

Lemma p256k1_6 : prime 67.
Proof. apply trial_prime. vm_compute. reflexivity. Qed.

Lemma p256k1_7 : prime 4423.
Proof.
  apply (pocklington 4423 [(67, 2)]).
  - cbn. repeat (apply NoDup_cons; [cbn; lia|]). apply NoDup_nil.
  - cbn [map fst]. apply Forall_cons; [exact p256k1_6|]. apply Forall_nil.
  - vm_compute. reflexivity.
Qed.

Lemma p256k1_8 : prime 83.
Proof. apply trial_prime. vm_compute. reflexivity. Qed.

Lemma p256k1_9 : prime 2657.
Proof.
  apply (pocklington 2657 [(83, 2)]).
  - cbn. repeat (apply NoDup_cons; [cbn; lia|]). apply NoDup_nil.
  - cbn [map fst]. apply Forall_cons; [exact p256k1_8|]. apply Forall_nil.
  - vm_compute. reflexivity.
Qed.

Lemma p256k1_10 : prime 271.
Proof. apply trial_prime. vm_compute. reflexivity. Qed.

Lemma p256k1_11 : prime 1627.
Proof.
  apply (pocklington 1627 [(271, 2)]).
  - cbn. repeat (apply NoDup_cons; [cbn; lia|]). apply NoDup_nil.
  - cbn [map fst]. apply Forall_cons; [exact p256k1_10|]. apply Forall_nil.
  - vm_compute. reflexivity.
Qed.

Lemma p256k1_12 : prime 255515944373312847190720520512484175977.
Proof.
  apply (hpocklington (mont_mul [] mf_41 255515944373312847190720520512484175977 23) (64 ^ Z.of_nat 23) 255515944373312847190720520512484175977 2 [96557; 41201; 4423; 2657; 1627]).
  - apply mont_ok; [reflexivity|vm_compute; reflexivity|vm_compute; reflexivity].
  - repeat (apply NoDup_cons; [cbn; lia|]). apply NoDup_nil.
  - apply Forall_cons; [exact p256k1_2|]. apply Forall_cons; [exact p256k1_5|]. apply Forall_cons; [exact p256k1_7|]. apply Forall_cons; [exact p256k1_9|]. apply Forall_cons; [exact p256k1_11|]. apply Forall_nil.
  - vm_compute. reflexivity.
Qed.

Lemma p256k1_13 : prime 205115282021455665897114700593932402728804164701536103180137503955397371.
Proof.
  apply (hpocklington (mont_mul [] mf_59 205115282021455665897114700593932402728804164701536103180137503955397371 41) (64 ^ Z.of_nat 41) 205115282021455665897114700593932402728804164701536103180137503955397371 2 [255515944373312847190720520512484175977]).
  - apply mont_ok; [reflexivity|vm_compute; reflexivity|vm_compute; reflexivity].
  - repeat (apply NoDup_cons; [cbn; lia|]). apply NoDup_nil.
  - apply Forall_cons; [exact p256k1_12|]. apply Forall_nil.
  - vm_compute. reflexivity.
Qed.

Lemma prime_p256k1 : prime 115792089237316195423570985008687907853269984665640564039457584007908834671663.
Proof.
  apply (hpocklington (pm_mul [] 43 (NC x4 (NC x61 (NC x0 (NC x0 (NC x0 (NC x16 NE))))))) 1 115792089237316195423570985008687907853269984665640564039457584007908834671663 2 [205115282021455665897114700593932402728804164701536103180137503955397371]).
  - apply pm_ok; [vm_compute; reflexivity|discriminate].
  - repeat (apply NoDup_cons; [cbn; lia|]). apply NoDup_nil.
  - apply Forall_cons; [exact p256k1_13|]. apply Forall_nil.
  - vm_compute. reflexivity.
Qed.

Lemma n256k1_0 : prime 113.
Proof. apply trial_prime. vm_compute. reflexivity. Qed.

Lemma n256k1_1 : prime 19.
Proof. apply trial_prime. vm_compute. reflexivity. Qed.

Lemma n256k1_2 : prime 120233.
Proof.
  apply (pocklington 120233 [(113, 2); (19, 2)]).
  - cbn. repeat (apply NoDup_cons; [cbn; lia|]). apply NoDup_nil.
  - cbn [map fst]. apply Forall_cons; [exact n256k1_0|]. apply Forall_cons; [exact n256k1_1|]. apply Forall_nil.
  - vm_compute. reflexivity.
Qed.

Lemma n256k1_3 : prime 4051.
Proof. apply trial_prime. vm_compute. reflexivity. Qed.

Lemma n256k1_4 : prime 59.
Proof. apply trial_prime. vm_compute. reflexivity. Qed.

Lemma n256k1_5 : prime 174723607534414371449.
Proof.
  apply (hpocklington (mont_mul [] mf_57 174723607534414371449 13) (64 ^ Z.of_nat 13) 174723607534414371449 2 [120233; 4051; 59]).
  - apply mont_ok; [reflexivity|vm_compute; reflexivity|vm_compute; reflexivity].
  - repeat (apply NoDup_cons; [cbn; lia|]). apply NoDup_nil.
  - apply Forall_cons; [exact n256k1_2|]. apply Forall_cons; [exact n256k1_3|]. apply Forall_cons; [exact n256k1_4|]. apply Forall_nil.
  - vm_compute. reflexivity.
Qed.

Lemma n256k1_6 : prime 13.
Proof. apply trial_prime. vm_compute. reflexivity. Qed.

Lemma n256k1_7 : prime 11.
Proof. apply trial_prime. vm_compute. reflexivity. Qed.

Lemma n256k1_8 : prime 2861.
Proof.
  apply (pocklington 2861 [(13, 2); (11, 2)]).
  - cbn. repeat (apply NoDup_cons; [cbn; lia|]). apply NoDup_nil.
  - cbn [map fst]. apply Forall_cons; [exact n256k1_6|]. apply Forall_cons; [exact n256k1_7|]. apply Forall_nil.
  - vm_compute. reflexivity.
Qed.

Lemma n256k1_9 : prime 85831.
Proof.
  apply (pocklington 85831 [(2861, 2)]).
  - cbn. repeat (apply NoDup_cons; [cbn; lia|]). apply NoDup_nil.
  - cbn [map fst]. apply Forall_cons; [exact n256k1_8|]. apply Forall_nil.
  - vm_compute. reflexivity.
Qed.

Lemma n256k1_10 : prime 23.
Proof. apply trial_prime. vm_compute. reflexivity. Qed.

Lemma n256k1_11 : prime 16699.
Proof.
  apply (pocklington 16699 [(23, 2); (11, 2)]).
  - cbn. repeat (apply NoDup_cons; [cbn; lia|]). apply NoDup_nil.
  - cbn [map fst]. apply Forall_cons; [exact n256k1_10|]. apply Forall_cons; [exact n256k1_7|]. apply Forall_nil.
  - vm_compute. reflexivity.
Qed.

Lemma n256k1_12 : prime 107361793816595537.
Proof.
  apply (hpocklington (mont_mul [] mf_17 107361793816595537 11) (64 ^ Z.of_nat 11) 107361793816595537 2 [85831; 16699]).
  - apply mont_ok; [reflexivity|vm_compute; reflexivity|vm_compute; reflexivity].
  - repeat (apply NoDup_cons; [cbn; lia|]). apply NoDup_nil.
  - apply Forall_cons; [exact n256k1_9|]. apply Forall_cons; [exact n256k1_11|]. apply Forall_nil.
  - vm_compute. reflexivity.
Qed.

Lemma n256k1_13 : prime 631.
Proof. apply trial_prime. vm_compute. reflexivity. Qed.

Lemma prime_n256k1 : prime 115792089237316195423570985008687907852837564279074904382605163141518161494337.
Proof.
  apply (hpocklington (pm_mul [] 43 (NC x60 (NC x43 (NC x47 (NC x9 (NC x63 (NC x50 (NC x28 (NC x33 (NC x54 (NC x2 (NC x16 (NC x4 (NC x63 (NC x53 (NC x45 (NC x16 (NC x37 (NC x49 (NC x8 (NC x17 (NC x21 (NC x20 NE))))))))))))))))))))))) 1 115792089237316195423570985008687907852837564279074904382605163141518161494337 2 [174723607534414371449; 107361793816595537; 631]).
  - apply pm_ok; [vm_compute; reflexivity|discriminate].
  - repeat (apply NoDup_cons; [cbn; lia|]). apply NoDup_nil.
  - apply Forall_cons; [exact n256k1_5|]. apply Forall_cons; [exact n256k1_12|]. apply Forall_cons; [exact n256k1_13|]. apply Forall_nil.
  - vm_compute. reflexivity.
Qed.

Definition arith_p256k1 : arith :=
  mk_arith (pm_mul [] 43 (NC x4 (NC x61 (NC x0 (NC x0 (NC x0 (NC x16 NE))))))) (NC x0 (NC x47 (NC x48 (NC x63 (NC x63 (NC x63 (NC x59 (NC x63 (NC x63 (NC x63 (NC x63 (NC x63 (NC x63 (NC x63 (NC x63 (NC x63 (NC x63 (NC x63 (NC x63 (NC x63 (NC x63 (NC x63 (NC x63 (NC x63 (NC x63 (NC x63 (NC x63 (NC x63 (NC x63 (NC x63 (NC x63 (NC x63 (NC x63 (NC x63 (NC x63 (NC x63 (NC x63 (NC x63 (NC x63 (NC x63 (NC x63 (NC x63 (NC x63 (NC x15 NE)))))))))))))))))))))))))))))))))))))))))))) (NC x46 (NC x48 (NC x63 (NC x63 (NC x63 (NC x59 (NC x63 (NC x63 (NC x63 (NC x63 (NC x63 (NC x63 (NC x63 (NC x63 (NC x63 (NC x63 (NC x63 (NC x63 (NC x63 (NC x63 (NC x63 (NC x63 (NC x63 (NC x63 (NC x63 (NC x63 (NC x63 (NC x63 (NC x63 (NC x63 (NC x63 (NC x63 (NC x63 (NC x63 (NC x63 (NC x63 (NC x63 (NC x63 (NC x63 (NC x63 (NC x63 (NC x63 (NC x15 NE))))))))))))))))))))))))))))))))))))))))))) (map zdigs [0; 115792089237316195423570985008687907853269984665640564039457584007908834671663; 231584178474632390847141970017375815706539969331281128078915168015817669343326; 347376267711948586270712955026063723559809953996921692118372752023726504014989; 463168356949264781694283940034751631413079938662562256157830336031635338686652; 578960446186580977117854925043439539266349923328202820197287920039544173358315; 694752535423897172541425910052127447119619907993843384236745504047453008029978; 810544624661213367964996895060815354972889892659483948276203088055361842701641; 926336713898529563388567880069503262826159877325124512315660672063270677373304; 1042128803135845758812138865078191170679429861990765076355118256071179512044967; 1157920892373161954235709850086879078532699846656405640394575840079088346716630; 1273712981610478149659280835095566986385969831322046204434033424086997181388293; 1389505070847794345082851820104254894239239815987686768473491008094906016059956; 1505297160085110540506422805112942802092509800653327332512948592102814850731619; 1621089249322426735929993790121630709945779785318967896552406176110723685403282; 1736881338559742931353564775130318617799049769984608460591863760118632520074945; 1852673427797059126777135760139006525652319754650249024631321344126541354746608; 1968465517034375322200706745147694433505589739315889588670778928134450189418271; 2084257606271691517624277730156382341358859723981530152710236512142359024089934; 2200049695509007713047848715165070249212129708647170716749694096150267858761597; 2315841784746323908471419700173758157065399693312811280789151680158176693433260; 2431633873983640103894990685182446064918669677978451844828609264166085528104923; 2547425963220956299318561670191133972771939662644092408868066848173994362776586; 2663218052458272494742132655199821880625209647309732972907524432181903197448249; 2779010141695588690165703640208509788478479631975373536946982016189812032119912; 2894802230932904885589274625217197696331749616641014100986439600197720866791575; 3010594320170221081012845610225885604185019601306654665025897184205629701463238; 3126386409407537276436416595234573512038289585972295229065354768213538536134901]).
Lemma arith_p256k1_ok : arith_ok (c_p (g_curve generator_secp256k1)) 1 arith_p256k1.
Proof. split; [apply pm_ok; [vm_compute; reflexivity|discriminate]|]. split; [apply Zmod_divide; [discriminate|vm_compute; reflexivity]|]. split; [apply Zmod_divide; [discriminate|vm_compute; reflexivity]|].
  apply mults_ok; [discriminate|vm_compute; reflexivity]. Qed.
Definition na256k1 : num := NE.
(** The multiples of the generator on the way to n - 1. *)
Definition chain256k1 : list step :=
  [((91914383230618135761690975197207778399550061809281766160147273830617914855857, 89565891926547004231252920425935692360644145829622209833684329913297188986597, 12158399299693830322967808612713398636155367887041628176798871954788371653930), None);
   ((48317604920791681227269902149572831041666497563152549156566744096979700087652, 103388573995635080359749164254216598308788835304023601477803095234286494993683, 37057141145242123013015316630864329550140216928701153669873286428255828810018), None);
   ((68106669326848163986215483068199883287802374334073516115086955097631971335277, 21262057306151627953595685090280431278183829487175876377991189246716355947009, 41749993296225487051377864631615517161996906063147759678534462689479575333124), None);
   ((85133781845643327656982715620325597370400605720630428769419861955027426167303, 104059883622109321374094289636044428849728529177856482232626205340719788190730, 112122903140080327253741791678230372394936108416576609264408917599318947489825), None);
   ((82569378594810154217025225069474391492135485767273845887727222209646907018229, 95440839670107969455973995843666399663662641812074432045896568980475242364517, 67400892360194400039319989411395972789004161889863182881857158544061243615929), None);
   ((39652784492614148245445807815675849953445574802016701539438166329387790442180, 86454928033100054822938644242727206101601557724291916072342392316125160730507, 41929975541376036990359335647717381527212342035893043668288666074313354583455), None);
   ((61220314857801869579268608616601817644882554966512523803381782535747617375238, 23971227478092690611538379282579297124953800109492367109857348294863777014350, 42342609885299334444880650568116455571250837701978463648617679521175848103706), None);
   ((108928781821380198430407140056434028761844131133074767379283294215857709074832, 59030624050581421406270513075794029219285200067000787157698366092408912155912, 8128656248049033031875480515138402531865803579197128279783442554673902546095), None);
   ((107410325459694771408524752147101816535969584232060448477618009148269124154556, 31809325515952716603993860438135646801954922215901515683284707473623428145741, 24377531977987817432088011602449325046972761657480460991275213238540072159220), None);
   ((44754414336792999199446601134110616704793476196700928937392248573690748541513, 16339661702852967382840638396154683021742565846854739320600712521008743256863, 36728284022334234592863792440353097018527397507662959793213172092233334129261), None);
   ((98856278838371374844268626728528094178903210161041361192514408500190731901187, 42114313391321156005599920754056349597018482182309287550535575450912996590705, 18211792713336063942313736004207749605328499756363387606667481967702897602819), None);
   ((48978776411861785873361483009247102882705448448054533538359248834946429607901, 10569428376872096169397247199835207726595431926877749141789405073030710146873, 95580118375493152898771330185112988759633284070886792649665201458589961475733), None);
   ((91486814191729514014954200420253291920311311676860777346508408511600615200379, 29955133736896634235893587837609964910900820068836768599575322235881802975190, 83725361430957575604497772232028370201521594201253320640285202099397696195124), None);
   ((12377846393236864844025531765714404553885523904609533023369117992911278516668, 7741290454269945723504810030002187313337519274815056282137434463684850516554, 2979905666851018206144735065445742806952013006906430309532921989383330523600), None);
   ((3164197147782078312847850654792817808685387175134852278514282125034953859390, 33602655200186679430886431101373729519010186911116350037909320311808627496821, 37360103261735091089003680850413001554296156453961728314327616229790563817069), None);
   ((73939015941066865043242457747525936000198000990912239747920666650062410465338, 24533671068980092868630552346995129420983823672304585196401986911541584152128, 2209357222459695347071765155987393997305194371900031813817445740077485301225), None);
   ((5381930073291264631522279806210223788674275009368156021179807193642282869705, 34424533203459102608471296411716955901929203809676354171491737723302766101825, 87733804348534428731161926933835660863551297059124747814746905172819546464288), None);
   ((66454134667443660750649533358810611539282931627684183989730310634244445796987, 74193831669845249654938577341216601539929459848933807922451592200153851425745, 29361396017150706741613988342393505196301946421006103373231627829781191611577), None);
   ((70135914722438173449087309128031904912816369280149780455501651306783399371384, 75996994270594548260051104099040009002173474732108538694613575188101535421242, 67731220512052072417843278921450425890601471538300788051881284779249943090810), None);
   ((91078211961057148209470410355693943091519935139889907355231292074658678158592, 63004655751848499058589887215149057167805706207141784701705408548476267919372, 33776887358425213876727286236887696644549240079971817446727643228044518554934), None);
   ((106969149730546052974587590016372645810539701729745400459054814143812624967300, 107219988410259287649822325760828753777881271537028923079899200557009639695550, 15425677638027042728233515882140468124385010133809940201784713737762399581231), None);
   ((33739667353762947183769655216109060444506856540393724379335654693999236277940, 113496403293373161892995045761087341014991661230000874253822611507549586770091, 92288978233865387499357228995099386605786555025834285738713074898639193985136), None);
   ((87168095265319071420436514955703183410120784711312827459601158712119851108457, 4402168996420289224849535114023409990325018394340995944430318114273800335863, 67104318001466418430256649108646734852945972191921730406768272163045294283904), None);
   ((84116571768693350239259387616313139131139433474611004982228490252426025112949, 51670963786757573841189746283202124387362261809800652891978209018731111316698, 68257551575553566084241009552849606333781498777275567535225153774080710909791), None);
   ((91151098117450264544098268442969298955681037934283898495446418666292696218835, 39774650486605686761949696375291962760476627649023643684500799050103063064789, 97280577493662175430906331419179376788053309764979933526226118285088405860254), None);
   ((75451977846535106163417330022814014018009731788237110873376298876100431868974, 17321708023578332183628700857357458473789564616208564602894355867116410260949, 97919434988400284406895062116320315016365801759636091852848099981382771845905), None);
   ((30972561931425742076809678458949342090182427941776201436575575108458439418251, 76575849854364972542951978758356689466650880857178783481542510110017069529320, 81925384519567487405199682290695043524776979911807891169446287270330277192180), None);
   ((86099671276214120017689501890627295302932920740099760864461736823539346528621, 107989063369659015153804811955459434214410196483964476598208978660096898619386, 42338160021087805224648939485129818613830046750563614152037885753448952924569), None);
   ((75378935341499056276876303685987642591771770232299503207839120709718961567285, 25379507781751782970997391382797328968603613636745039424586338729874508912637, 66678967052843214385960608145916057604491714224625771583834324020892145369029), None);
   ((64197055975615300735194405360929000206032590563426258031366600816494679590266, 102193949730178242338502490474683128513913323030888946433219655522103301391692, 6691527371710806382780054211605006078697403702312160758173793149761505802135), None);
   ((99167043739754721824728209977095675501782603311963005335592139540170528871759, 37586094085820668222219663528035831988292035114036566702275484810122124564900, 110500050436317590116317882856153568952218728972968181243435825114259637008685), None);
   ((6828828356235034177755096779567809585922363632294488457925470635156043028645, 7263983490427117408129518121638485560698559702481803384958991237905117384112, 93109094002033366773627505914545361927166820241279828474630961892312310241801), None);
   ((59163772085326842407343125828235374157236350352420030293055353995619949575274, 63340652510566015247975818591385417300086272434074184937732392505693958960902, 113667876764634414158091221422353531108236715357465572941896170017035409095320), None);
   ((89408782477363458141508933543250290384511326216672505622116645189037024976697, 113783330688848408326400254714688308943084902760190583586245237148771972268029, 49136863138091630742201940998618633678196612987804544425991276550671171170453), None);
   ((100445279342650627735153883749840525970618083648508424830827738559089257656842, 104610067874554658939189781067288826551534040873032177114963645859116975547034, 109770660671288161864329498510482442986586271328087679077837897757717839673046), None);
   ((106151261722819299084914819603367917313491327771008337274150484831078748976333, 101775883922931432108027453607406809406988783938200607927691949357708936019245, 71211677518830069576439009135279320536125727843027256193157225588947573710861), None);
   ((17898587470596434144828533400110305159547776222552007480798372287453328636089, 110691637496015646289262932234825854023102359733628734435283445248364686115670, 75300502224888127283828373326871043861231715295745491495384349459792808386515), None);
   ((97939938825604610569644888684228615649257286083964802459921580754979783687629, 4441278141344175957087852960979663063777598386288590018731867755649013517962, 7836136238007924788592053766414363238944904687598451784829364216715569810500), None);
   ((60819651409156981648487538606901603098387526447873901796516170786671116802807, 89749383265034677666862365486905244671167444330802547291623325584186528137154, 98309468026548637860626714749357698670012533693024507288465476348752328350038), None);
   ((110920658985596613163735171846770308266658337990253254866242372551913981161688, 115301655840403608332148854465368444683257224081574702572138639602380667382125, 103799472776126890762485670055583971987299536955028941653349419016168013365384), None);
   ((23053010647416858154505348969298564575133866763988071752414600221742658157452, 34828167905024529293425261847016829712897759939934247610415071312015953046280, 47968762878478268758489427369126262603811724231741657789486393243885145959658), None);
   ((20069363705561817377190029422544547640879751731316920506351593223555305740247, 51545007865675218331521052163329117547916750428334376359731030798802230204655, 106410582405992915570439467813541861485454771813746638713688333696184247730702), None);
   ((100747100239129529302471020065821051590720258949167133294572741672181402489895, 73599252554810039763407176139974374780648488828183406696254895715553023853401, 47578048250598054907858110438316220654276129654309504967125355240893257809602), None);
   ((58555267561751838418282732531574186227985695656758961197418658542946330242592, 98787353431067487068174780415369765662128367506208336868623541747762523303089, 70413563958895942572205979769129125709431089683617469237670049369710274330141), None);
   ((106036887369702160966951144305897600363453902684059545994706564135441003749457, 35158139218869787362323693979796990367921058080517113277431623829383205568969, 10295997985162667395889563220444841839650277790026794883844526680522437342755), None);
   ((104042927789582597965820538741634283199198944373281534398399433916919984790053, 8964980402707168350657927400892132353366269496956872817449479166659938883802, 43436562493669582162283754540252355903120339577829436566794554777028968127513), None);
   ((52669244075871766760289402009559798681671776232081313243626820128301120466862, 15200734767215737518231163530398231089737396965964050975192487891396519882168, 16668035065520662549877161813594040899471944430197287458384095143621564263367), None);
   ((90596047335685125853044970906225896494444123025644095129831209336696989410884, 37796942232071066358676457518924870482193007026528914004372298991835746383808, 41500641220791808004786750540350768710904110215016898096683828744807363604936), None);
   ((101172566463276147644869597514112964771530969995729332965378724361544785352249, 744654853145823512678710729425372655622767097643314990136170544084291976361, 21811628975969469444130274876674950438343669908561616590110157209566897229239), None);
   ((37058914632651976285559164555141586524330956343313512712745692641463084734251, 111242239008385952039057432864293978327910479690302189733526349492851051943515, 48678944480045457289293852267343808286651244662567230126433152661761421134978), None);
   ((43500834660097305928123035569620321227222687354915511264679388999044297248193, 64822851514371701744734127217317271752112350344524279674961846392399328587059, 31943858956135239004423171297694200648464614566963609709790210548050786133055), None);
   ((20210674680614773339994517544171232717946176741958774863410310548590048903247, 64447161864609791404195758691963071452721019060247337925015807247342017994823, 7561160199009862821682934691566626840504770282093073394715850644522417534762), None);
   ((115467724647237522381928273385631541122959086870131430129825317486035612686188, 23384853547122068788990499588260565640987768803883409730753963558864234152785, 74875455409133275347616261968367570739354909860053424157743477951969742386200), None);
   ((59270167150984927621273434084917459206546438911072792756680241794197325876737, 25014901206392249887698237444530503896296748023707107244397125743674754644790, 10433933909011809793968879060653803690577200525567091682194830769813011264330), None);
   ((88484645535138862033007336145487321150580695749024052023218376903575198904048, 16058435479155118972993837131799089058715967396125428615558605751627320645142, 50458543989467853184310582844531917678045791765530172581605874408799080266778), None);
   ((69705126651491372411420734111824713177136567996212028558705903413400349529634, 25497240280963516313937320941859063956353887664759333529694971679324342859874, 18198385112262447554198951719878713582193194360950043848907411919888800699475), None);
   ((52270125654386624337125474888224829469646028017380703301716789392499393940918, 111703840010970554703825044762397257236786082270905035457492386104226958443132, 12575192387335088647665557233642046097109374697403005848728748607053249552642), None);
   ((16449296287778545631031969082872098572483232158303992587705294836370540295200, 113599246344934629336805861786255890702306480065011524716308738005517377133750, 110309842344688524387480953361916993633315112298643725699639662741987291457779), None);
   ((81917161406346799372976715817602479772355581367092592105690672827195358343759, 62223290140977849549949037397413163042719030609658769845468333603013413866526, 98850328278678552505680434968308156848819817765906617232115049710824480247537), None);
   ((21070957485196013370228508739362092999304079980133334996993851566166723944660, 3155324650630266164941215407725229976924800176927891490779584824139541300135, 56314320032835626861988128097937936814282839310958875562434488369232472187232), None);
   ((44324968500286522124650182592515942811229781202537432319383767760784934255018, 78940842088341059937720881764219942614374815880107123037550313585999765034797, 11720516568179571270476509769942606239875063370184749544905787775519145474236), None);
   ((22366098986799206641381351786872854337428441366764884297715560689091532246497, 15507243805774944259617131345561156696188939847401319273193860618228585632400, 113088070675147226411797488422007342957654795984396137910695709288095002042967), None);
   ((88555638729008545933499006633578755653892511899050723267515824866590931383469, 101817088763764058272032685058193941686495949380163784665542336507398664578275, 61440383708720907418547117747158586276459762378915736297042955400063318409160), None);
   ((90239308462958633440933099558675730984523101574577902061793707634320728691169, 23129491278950567785970148376500648032717531886785241126168611397589814798013, 39307099057880941662675806615359097347682728603444928455093651353540932186784), None);
   ((42567666157971865917387699729666590874687867077379884470567978571379523597860, 63843472757015161619640823952764524318291830965488059905636263767209969312866, 106712674239183055714747170770237410600716249238757184591428740534726428083980), None);
   ((41101682381519147259939891618967667488744547380596937692942793493329656837692, 8241903038354912941099822707985246210294044712473769251710198461880050574899, 62697784033925076403474224442689974679135179320309080987220280194454804723717), None);
   ((4649553590253542680231773217390391562732593140151532990112979557899341425841, 17692067919141883746474430216313318912323253047795385992074267436472656099942, 42168706312448760835164198288963124085049274787903511949048046806853155067687), None);
   ((7376880776539338145207087764466518401331852385219747935427977687192231343524, 60339901160910692237675572757878163770580581369373573584664013679285413129091, 56214196748543440839296827556230703893730514912272645534922309181995758064550), None);
   ((78519886447493925455464412946363852511185639429843214940756733307282125385665, 37677678367764998054256419260552297374816808777506812193658101085944629689381, 96542930188656188775421614396743163957109245800132742492178822512944546868854), None);
   ((6437594034031790917098755303863564885358362810612037292072831489695881156336, 76492326435022593457109032906840314586595419299705002191405820035073916725430, 52712462544684042050659798408142998446211290189326915216568750458192003482817), None);
   ((49444249301283100941237112625957847485520610299853545129739033247843015773035, 87459896917474640671961280404348939194085731117863029170554666522628858367860, 19748635217315891647321224482939896170227416763285583086520508401939213234176), None);
   ((4983438185956002518083369988568251911484326831267708224428143207168456753741, 4199350326672760747807816527418159685216655440503240677878553304602602121738, 37834176166477149356292507688627259926034564110824553771704962901036071708041), None);
   ((104417088105958326351770150856075338284455688975818428656651895823028427055381, 17451455565379830237189058882419931909327937825123020642064169531348745912330, 110851835063999899423756612638945142128964968911486626329802042725525613408346), None);
   ((97934057700234120175369957224126468918837872198046730101000968639885476056396, 89639832565486215014541417774517172777425402823469120565037348938869913112470, 30572655366218421290699322537451162244586583424941183840353131006508265175422), None);
   ((71050668154072022549348522323324372091852683529310321885789946595801809900878, 7442624616783078815918535545170738536276686106683368472213004009997925387451, 77751573448339894342899057498199969560748665539929390648020324044053699567908), None);
   ((347213208866432350664100463218873894639191018881217345814835927834672475659, 44497701670421232817550738477766131574027528256828192704387553796074849163496, 85115484315990908818625714664072075837750502822084508644932753849460649668119), None);
   ((112960352047459620327746883866322506906591278012778879839584447969563141707470, 60540754330080069959401906198898450479294126639715413570889179042286485863469, 40065985632112285488262829097473122728635230343056068824717075042107181358448), None);
   ((67707820783977568557590319739062694960642116721033768394146020642907526401242, 64303414747220612283598620667555879428236715359485947560901082787102828757209, 106228226569454347670647985876151839080805653229947291906912035484638171537232), None);
   ((92992081493555882531337864844290570862398619903319191722901659924080202210287, 53648153254893980119900785370237364158138815147385101116545069153555170288062, 34361801916858031928794980991103430340262038618413794433537084872221158631519), None);
   ((103687218325252986705048279720259641959576099677390017144774315225875516900869, 103585811642593135420456399622448891166663363501464111582343873522977792850477, 31409815155472435338582344935230131320197144774427706287861757740924066421722), None);
   ((11183790594795429710546500915665302773964808707612385541372617123300346879902, 75027487913834453984361996105244344495268805009066851630705393620238615786735, 4325061896769276104913772732319997098916385262805927028161444887858874342220), None);
   ((85363691186614604410019696225060096616665294817022243226496125834925630275249, 76702516343213003595855178542925743016592575440900459987979293581918663676498, 59169763974292048230483290348723286025776147993831754859145423822145515799140), None);
   ((92584130893276361188072922143799621845836625768631807192944097036510859253781, 82065288257280364930681258037857029580600229348145328350024440340670179446551, 23027132854424541515521319202161519225460618376982276335759008484746030223405), None);
   ((101286139800165043269035864288202323519608450765084814127864996327863426342848, 101493787511861733029271951475039268072513144731938223971108244357658061891365, 55437542190981407452923664626193149136100172061209688271244666364673120940509), None);
   ((16296402479854815673734520635818003257267968571392240786476747240212141972644, 6636410774506556864774005162061951749450537962799954397758090215581031792446, 33193850663848721154507883351096416412681014543344176760472364118972599175560), None);
   ((25572112609171072984383640004450035382730120921195394468729369549195878838650, 97007893071212898831976542306925407114333944783774668033349973529691460445404, 18507121058431491916818312533740360825972223949528183085794866203720624591878), None);
   ((30706203434680587106942470418158514944989411823883316724883273578145958064757, 47579402496219589148753080604487008179301822313334601064657607711684826233267, 57448470377652821134170456021628327741101079070106580787911301709526093883982), None);
   ((81946400085699663238875019786486729858356300026344742914109607533855198300161, 15033179896439470858126247808641765484544705738074160218957951164394937620308, 34117244282055289120898203738790815580918088000686828227920818069382230202610), None);
   ((73417088688628223610686518831003064427500982616183562466440539753181191177700, 12831426614286788027900392815123462940913304574075286993885122038414101217196, 36179658746250976381135601610242632021826214896264269021914509495791394149615), None);
   ((51626318904183985636471327089952438009976052405547371972831394064877603898726, 31731558888758314830347225402035966953019197198882726537928061332981883805116, 6359760100839187210073863293870527713027761135409961108195017073136576674018), None);
   ((72837939688827215205468114901081670282918772802655835049817424218937785717281, 108516937186382041812103670511048142301189499913949040064226297021918453104669, 77218777772268311707719666397699916259759523817816920080352731398095643624469), None);
   ((77154115932210250925037158101849427203860937948457963558465685165618865128629, 35499761538901346298861898883401367492089066355756477731651612619020269507900, 10609229642071556953120109475763397943884016840919846757331088165175050414822), None);
   ((10047900596446414247522525713535834565616594863935626363528898198579943835983, 62221449722415965098534394864216300756619410467360193813993841802984909839181, 30612701817593165310829908596077980446317954217062442246601062375597549071147), None);
   ((44256827641910968071669404821995291303468124630503881993859331666711255779075, 47023343771514073333682842422673144869316327792644186859934319437403081634095, 83317154179385276448599698389111199063686628672572418790396772309007183470821), None);
   ((16405706356882989845708916488309988491394962953239924632524897763023835047701, 22840966669343746868657542410372307235035375411707745900291535045354561578850, 80886292560052078022819942209443457651640717456431378184925170018374473757441), None);
   ((51318435772661653919079206476752948381819607359528588981968016402794865369193, 115183067000797961901920784023024616254245272923307973061240480176353201301430, 49763971281659542105744668679966078286699279184665337082856648066049033156975), None);
   ((29749740582023707613911064758687148366686450195333307517598422889452636984715, 107460092490405557856637269383143137018363307684850226624646466770567328913124, 27927879468288414295198600435976090224174968562527111521940172877594627850158), None);
   ((92272789713229394244375141268233146408391176836851826762869537145330150552951, 18928961140921885700908658116849834750075223885003133432284077605308119970073, 57811541833390055306833565592598106401230808311112346834369084436570498753337), None);
   ((66300452820967161934288442070127603929350533464819023512575695453426568524600, 8331289978464196047324092750470018314791143098216854808915615772554507199633, 87592962133464766467334907348498449098375430086853996682723463167279731306372), None);
   ((17957287246948141119436350228002905171707371823148196714460592011692421980815, 53779740109432100521872576345148245383728952983207835874526110853417815367225, 90939394492963130914544575569526310734855569061258844327812366475243930364929), None);
   ((109345517757555365290893221028760603693068626510648812027523089948405143376314, 50903437175324684576123794325687091093316794895342376267022156508043454547877, 70349280139070181932538936546431771279420426752065163651109781251026950404544), None);
   ((38182977552867277256940882700349548675584812500700278163785070687664740298590, 11673581412764099021153615077620366366802304893369795243117390666352665359806, 18493885180880533479983549127533520654731835271435443031664047750964210440946), None);
   ((44808293420248850093840764990712157154768009415723339063102262571802233506788, 79346041630131869075645430486783108716991485536433518103538843150249487037416, 3399478885375643092936720555036030158803236931787480448997057703838011734762), None);
   ((54807629837202959726730427814087496258987821882324045004964312286617443643052, 90110562832831649967185144230038867070402237425213645393423897349775852026001, 62079424087973467789382713581435573708404480254567931314506333392316481045699), None);
   ((4556407853897540635493988414548293874044031321828405938552538863563940353202, 38659527363743848181468463025813757193528718820669569569114028561419930348315, 104083246136889829683331969264423162114671872108616362771383171554424986219793), None);
   ((19080555115189438164833348440142002845741004121621237808725058775246506526964, 32543944108095182552403308115282823595699487874750970784134326899018753076265, 32924494876951284146279766638563025708747643322813908934636585593423158017785), None);
   ((18613007565623327513031335382346769459475134010427157688677997423541513525956, 87183516938829948739214915672694597601526144237528747913079459935123543116507, 5210361221244717547856165246556020619071402127820810229408988718584663707749), None);
   ((77051668121992685773912572284751425129919926810402994481043232953618036573484, 97963514608391620515365258119340011983767027607182736209046173629563994030411, 115226106161721418677257600232626422670483402750299325766423254986581008554271), None);
   ((68816758066034674146029144768976097261987361494960744256712600662446801165753, 114469486435796862354824725635274301733105436679732187907727741160909533840420, 15176610360357502916376731715182826626094867832295623397483794147117662068209), None);
   ((9074783056684161746901634586916315899809926225499433320299672664562437356988, 98432034282390382237828948384540370085442598032656811937139102930236777548604, 24813777388505064074621970457041023547619648696034102349374362496379715467175), None);
   ((97794763103561139718897079165052038315662410776710533758312912709519520519325, 1805616805351721617653443610838676066411318390548678811172302707980664066418, 29197166736887483563928586983131420527850770453920557715930559189098823391124), None);
   ((1404279729673623950669810727084933667478292107740281870556971178188205946902, 83611758343266467712438158213251624839283837284463888705796077990149381123587, 18101124850041158815009009485735144088925930424123803647507665853537289369319), None);
   ((71499451209715074942306074631130059831265535232684719230676775737286963327639, 49398952861877205296964985511595482837454065472867773380651392793273881817706, 103456599417569656329743525842643406894367321159609200220648758243892831845501), None);
   ((112161851083736433013876870985933164377011640109687400066914420252954144378588, 26557021881017484338287109395067993477080269267457693436680348679906749635481, 84487769519853421430030359463214449378435630494204186353059369760950916380835), None);
   ((53972935614007033946788808820891449808712378940234107349262663600031920793805, 54910438115352124820925906331600651980234249876402837107104827961903280048346, 35080546347367598434982768185387546912732524650521251475529423425038042189569), None);
   ((36202752639066116840756088785904289260044310946323391871040361876485616846299, 104964699132307836705335251996858916554346905150414321329455806487577227222877, 108021264621442630025722058757308611603027665565497116827018930375054827580536), None);
   ((53201988091824387304797023874332497206164346142151041855932591889883145542584, 30779593535010329084651325212930254896397289835007988481712809855381584203096, 75438522668351783504686245637900335802808862903871170538716693983846568968011), None);
   ((70192474170986981470991128253306901621707390581618949336420363020842899727422, 111531859894160106348996194269099060679947894846103401064923066647433585462032, 29241751855199681568367284518448893439960716762286924487213503019678103002705), None);
   ((114621218397826565615096768069463036229698855116881010563598716986242160426525, 63066765102144977597923579437181551876011710207298597143023780209765509321725, 106007349317296939888635500379499007381281650903559653902304432927687101375981), None);
   ((49483984892412489841565366822638415338717225896370709245036195943794013168714, 73729489189146206306669255701359614973467519172738994441001234600131693731952, 52215583774525796109567946288556659634043653399932078971590626905269875474081), None);
   ((43865607645176538148983342399402776561350578815209420543014955446705316307229, 18039326416892417753003755158326429558922487640705110383763721719977461130670, 22183031661069407114947469617732171225545226302519288081136966780058091537843), None);
   ((36187719780450133766296232373528204721275445589953115508156316653700741705213, 90043658892995399465363207869075768002289250211409595011736991935239142954926, 33195971463859634916825320647431346032578912048614106257629795755556424999572), None);
   ((91773650532247574131528436313877209748720685059160715301006782640941974067421, 5420721428656512733924502511426114039091019723753927823327107920655123143427, 11458489637841101089267453881300170307046154505862838558859267626137645974850), None);
   ((18090343146320569124206264345544080651700914153169975726033026193154740155766, 65439637510807713056358030282940995565074807966223863057633547322884310978260, 6474571117676685817754405485757825849845707811112126411536249919905291235664), None);
   ((96315879351526400466528349740135290116708872015025565184046496820820207152491, 57070623766206825319979971604352341937693971268571462200885005684041460744529, 65294641003401362594966851216569681914884202591426370350835007421691752226503), None);
   ((40255010015665744944126439063238962619045993313228963472967664064844356669235, 72947739749743623666767893079604022957810777496958067665094811548956867552663, 74931287229039237066253562221237323976647082407514979153759017931296701314826), None);
   ((33592237668889643310595709442671517242371126048006173513092989149933280443224, 95120790446093252839327344452467895851663435942220974758177611352160193500228, 40252511218087247830580930812776238463499994792031801540758272438053921180247), None);
   ((60374619108284621171895181172720824922976066024565892971030808977812495378803, 64865771952738249789114440545196421582918768733599534045195125031385885360346, 46211216742671250426576585530459394900178019437443360579906162037052661563266), Some (false, (108947339523678292247046616167503701430330991687415436045249153574101537485665, 114229150601249099498495428575327053155638123111605469503072631766185401900990, 48855639271038213175413059690430000419994498271391273103383037610183921724840, 32531562350509420032897840568897966994666772691963992668316727298261372788501)));
   ((69965134169704497074743639836054521320304024742016545693693813249123163785622, 68701007985358075078170623043845708280274285887794191698367894955551117925583, 44235273620481418907901807009588855444371852908620789333996178127267615509240), None);
   ((76477198441180435582324069726677312125267369491331609085513251239817278269141, 85766270098641121296698411989697377172370221756557119105058541262597729236879, 74371274472735141516933248178112280036276738051002277274539433406760768418920), Some (false, (107813200875698472408719007263014916269467876199217638086038979594280497302019, 87702310692320613072806681605670783473808076066471054843124092904011731168586, 47335998235904491759529687576350056292709191810580647177626272075803750738888, 47893837412078293905390996907542496194193595559804511001021968082412597890882)));
   ((60247669185824953594940746023333443384566253296531249717626377521249357417525, 102841290203471492971938414986935115136430242792156365386793698815362931029120, 97593871781751350029313369155521357523538065580052909021534941505594576356678), None);
   ((56846073310741035621614197961992622425854659001749077073837897871290547211142, 85355970601451503921869942455114786909850250039676789682070318290598076566105, 45374720704231217277502541740594706116439104816607704717770798397693396814679), None);
   ((31794797242398299539642836779202081203446220766981388825468727986566098489602, 65196055357644571358702540767860562836033995076612838245390383364576936504013, 33112670587807837847439702488338294788086918294523015300483822594048600729393), None);
   ((65510359302458191533304849288942969500231875347139258288723651133104705386207, 36041168967336018302528970511828789026716771165722137261646577006636465577151, 42575615003920895862935800421687230328304737837591912023249694558323286615744), Some (false, (16630637642396888916081442648749598006597577677919202273675012350360563816552, 7042101000714436500638312922022361318540688861334576198559584847671514397161, 10180015129999992809999971880658541083646189944791309885092160242369392993055, 24150780406537124124374891787974980029093258673880999985246061592056001011981)));
   ((25200161565149083318459496874733730937880080683042373830827031660137989642289, 91431301316605134713437033637457694603351958235619666113716005264580024050547, 55700781443844286424676009624323324868218917736357795291400152096083018415293), None);
   ((14436852853269864053505711413708460879608361418836723066584969626432239946945, 54607917160739737588388342123665681358365882867540224245317149594528911043602, 16562900371854968196361435018363246128848632927789880637614041153192286449877), Some (false, (72080624195736688207071489845806864571680983826044164240826365999958371370518, 102063581265331565654900921283216294528679428854597962772309081199198705628811, 111374815517277000334955735778247969581155566534070671984901986270580217083203, 71427140891440234129617180988071897228209529835456295021533063142825033226757)));
   ((94873016224577908439925917729833947013451312116789341527056827710872663453228, 58213917896536500833300663229282785961546749690106027774333820876353553450103, 56567743259999698827530662670307378330754407028016793692479403565970394923360), None);
   ((109861795637147840030779695793838398304701351806460203599491084881878052943299, 43696297480731406291933367036315096812777312930008082815521521212245725323913, 112574332988991009867910342430805827769297565984404077215897541371511169244181), Some (false, (44291142793859915254381073361971997244573480509766203088359690298457558532768, 5227838913614224837866803410274466817909633930348703689772926547095766666552, 57955121692748177938357746353308677097233677183790175302424224314725928464154, 78685547990692241963955833277141927708681317832843286025197765370812206090932)));
   ((51243439699107111398945833227586524769395161725413065119952203311739657412388, 113623224873752514214022647624938951300852255615494099572406250846117533183813, 84855444252037876179535290189369537822115806871095538411777256681724306706068), None);
   ((108539266827167491735723087575221654312873665074688848554043180882077903220013, 9483380262048492479054595817430334492840545026099953582946470133704612096759, 36932685022783281291961239335120501595778804136944761238567359284656762832805), Some (false, (21297444335691652258869151364134071921435362661215479214662943946944029266659, 111464936995516522164700144166717002547862590442260014760223614794592458393142, 61545803780069906952580738894996789362052249981306704033261917317679335635066, 31666476505093899139655502122167895106386898519558865225976789470951216000079)));
   ((113607511288626367550362714623679011653469035374128092782481823114091938205785, 67664006107629731181782373873302357548480636897653262775434026413582652220060, 74615232084658484857966853507134202466619597021014366628240154541238362475930), None);
   ((74730842515886198974455312749416712004415256015431720183932592772342886069184, 10013957917585824968735990130598572131213213790956878434689144704093133182260, 27897325064862181712689564106829447040671236713674596968765559100261616107142), None);
   ((68852199595092401441703890162256206980977968536101052513001549201058901056394, 85717344347833439718080414399401433810022686704776700236601261130979187217361, 26744937055267732497076147357725194408591769487028954832503697580007075709854), None);
   ((17039999602768816496309471200054473828263568665600742884343159004309484313526, 86754581712505366512101420059072359084860249366103811303048542389736171338845, 13904811321750461659273934504441006684598530163523672405716663105467004102740), Some (false, (781761832029991478982873884068176075003120903840684087468860227752830863842, 110052712110649324718419266839398952602108508202184630857130203584860957937492, 90950456066948655616406534541155017122514075037888830175231256314356540520282, 29967765680816686291576513240220269046607310991069799889230755616872714221533)));
   ((95148117840585579846391078170146688297993287147283788959953856626108285803082, 34731736408760027010468625297082466008814659944690717360726903002408398674544, 29148107665734365379921038742880799016078271865248955062494531049951469087344), None);
   ((108164095784084492583907559104279089066423741070406360232805332679626780149630, 77494670257537694567391465951417927992420806484071134805625663631598596684747, 14443255170120110966830949494961987815411962240003209557862560196487206982288), None);
   ((108125417567326921853983178447398778343087662941822485501498044834828335662652, 20964161675287415349514736560317898867012717734606170999718430162785084900071, 26550905090085689654975807719859336513459904105549646512552870776747504174371), Some (false, (97148937987259199346750113333487130478423299988469419612755481335394274767785, 75675287401595183104416505711854922831279304452644929140221352657051215481109, 19975035366054798570786558765995472522747732834681067176672344736891964922202, 19332852066187318712050104784490500100800412753424748277040914638579980348864)));
   ((84348278196429389118648628226827538015461899889977249308888358333595183690489, 50837490294475409485620980381078839758632550681320145434218900312624912626340, 19085894344216758584379225792365982069111594329176796081506493010762617250278), None);
   ((82478997308498830295480409561824843739994280792313532700854889848278907912855, 34785007767557013726950185777565638945707702653766847283079794929233463300584, 10343696508051935412883421437788983913356734623325032568110638737854861039353), None);
   ((2921228532988166215988845736917848511117819782294044161387630690881056324442, 31016372324708126885319038175921273294745724919568528326088418410436790956233, 85073091813133372696051240486289816591952682779053259686238339313215015948384), Some (false, (54242710026835048215428545801795722645539460187186361610606258014986815130023, 43285238672796637739655123363918775392069900008234782239703241939077518228446, 57543592279914439410854809093403886827866102128490075116360555041913827667562, 3813421376355717067146105257010739085195607479338301799311897389674258069347)));
   ((61578912555628069854729977349749938300475327707525752910089087530621943964204, 91006848860769241074387648015256629948898895425121881919115010949924219317644, 54820068126741455169946104349653414029574722585827576833304601598797184823006), None);
   ((65356422651886831998359129899583509616993069735777048787381858305092694472436, 81165311114185953440354900777128142251839145553228093947741701454096896522712, 79024001629993924486880222546222881057872171693910219242620912792028550696045), Some (true, (14782161423572279849405422765662171145425535228992376019102749071958937363924, 45984882473816906209430762764049106839972979410481840884792425699209107842171, 94529898403174671738781659794834973031971730894483901363978418649700970842733, 65642614616438009029608256392608680491645761254511840078033317726794133314287)));
   ((115445103494186813860705747231799089945444028312358898351611862409008067857078, 108945587870955522912359971268706952531866795857786160798274850812158934596822, 89798004697036203544649071917823706892686002950302483833034612136274149500137), None);
   ((1153931529731054559393010627465118952596455331478818850894203353888486152177, 61968464670171955949225971794341133314583066153980087361738209796708688976935, 63797682587364159481282859321512133265371057201473883987462091688799450954029), None);
   ((80599627465665376769671404438220312041230004369758521992094764985284084860925, 81087750933529542395238598032732116309411793863745126874551505916060745787305, 104428594299026049485203921059696244506965040414665721763341690143966233670608), Some (false, (29137416904417497108465390723262988852073130830505109236383481027466625504215, 25647716186479025053093964770354147268672953559260297833242758903410527211135, 100365524660424891617138844200976846206053956468951519136167999766685689015002, 111970872780292016169329146673756902449054737731992115684524748262867500513847)));
   ((83154668184003123543242979687566769257817982455016455369323775846019267657106, 49346091203545902773870754353230222194100688883749893633792865966299681536412, 17610696721086505917135990394206740397614969371607606516395522279301418411581), None);
   ((53216178729565942571131366360291178924148638259267331416449670899335960075321, 73687138071649545060267559015830595040135377465786510066162569010447960674403, 91318617292738439851851212191531086231665707629539542426922331790867954590619), Some (true, (31888101345411582514219137610868393361012576572663322396894332696051346569386, 54680507957370586109097855187802876408277865758709339203615812614653312991378, 88311412070513548160215830619570682467932994998123700898579683456289490112074, 87693743247292261632912438871476621226162960023209262285555570174664115526345)));
   ((18187172292968635287523776403024636435029921436225520293608770161521074803020, 82890711914105445415157147416705978098414840737209690809411470485937132015236, 112711101027086476183369547702855019751233985774032266441939912140740898472191), None);
   ((82116444642364952719775626381855741416346901274173792773187993840093836076793, 69558896762600710680767548040795132420371298230471001718352547494783623705389, 67220099943967031597537386442358545655193985248399084015821762941220120545544), None);
   ((14105256354330590164740578435972797566464116414672488768739599832694226580688, 97522848758539863341594467238651155626740395435285874103439314987499072361377, 9890554355239003136584264139871191928292565589733928695878774322131468808748), Some (false, (32562583024495420324380400885985522881065792751052151117947775197505395282823, 69704402615210071208130315561662971577463113045484590014728574069891761782893, 98521782390741229596610413493985940277292284198102579970944111709369180439243, 61404722416745288940188892655527395573109112054579552058672358811189105569947)));
   ((13387994592691222601121801352301304262799113849418447104430697469462694973932, 61374863580479114928486664306930025560056637663471962270710155128099905535999, 37649169971338524161537941248562835945338458512220087546185465688387866408521), None);
   ((71181017338615379610165602366708511120390803794183969854023222874387287643126, 96622267365409114739445894177038851154438109385060555686011900403942816554455, 40364051192735182613781310265801400212148028148069539711691870131834281103821), Some (false, (93223381184579828845307424834395204543602025330438433531737247406210753584124, 60938669952994889915899872844222822079776530180983828160203822534034915708413, 82744982597572042326368053951687394874468885292867409250717944038157883726455, 51608264158709084924062141500567391966532773706419963910907664280661600945201)));
   ((103506243763008494671476577674320832688447416935377777741055453293584890053050, 44472628650129140659912550374155081353498196227066007330535058500751165569550, 91892922327941960983695248977574738050413401319733009263628424815320362026084), None);
   ((80672951792229906039884353367276685416413692669457503922764689262796744644847, 21931957465234391922902244599733146531625817226756716342083579507436198609444, 112479307051657668847292550902097069085631832800927221306475802095908501716661), Some (false, (100836967676057243537868741716406622264205433148958327599496464821060268304805, 93924363685947323908136279424374733537623097452322683458285251092719465450818, 114766391761365763344152039738855553509971674682377781927477783437410699983804, 20857815666046805025900754989449711757621381858790797480002436403459459078)));
   ((68320920732294999899236701701500128033021464829454696681870294933088464084835, 8503816377338540179307343790842282774369780212404584524674324831929489092852, 12331103926617957137299312892677967246923515410002734974632021692612089131180), None);
   ((85090493939979124709106303161782438928543672117558624085394251359403831101628, 79887741372456666368983955576564942291855558344162374471303220269869429492096, 71451534846996259124036379556246161092356960986389246607313445610270332785843), None);
   ((47844717657635328640672863906908341494737520581683399936412323664541357526166, 5088463358897768154095273481190659586979633266078313171025872206710519611955, 100990233681342391615866099288464417928160474646213569614633065230193969576035), None);
   ((108443061245421208038726316457415383354671662705279827431842892843991885928607, 65884183241093528632351553782460525125929967177899095041245661785933744374186, 63263246257411795726770041777989630647711167297420862553084398472225705528403), Some (false, (103920472811484959139394161897502784952049392553592601496988209360540882885849, 91879945296760020954611110926580850142230975889200135453158895640631325824453, 26350209081013120674735201011644298446887875744908933420591969660546902140305, 46381886268604108628367729865296031646043786933678222182103524894861734393770)));
   ((114409215533222412594657962652575739494831837612159615786419958511243079022511, 47721978471073143681953578819189449816024001304507224832740449051510024669933, 11855246856968832001557576032501682595427806261137124743805533114617894725864), None);
   ((2065014969746591122933871157148694298817977051599977757252045453614872400474, 55856695897385448471385476317708458439160183629977427975893448487449611857820, 35084601169300234258563029913130514890336555915691537970989627847198572209645), Some (true, (74934300558748354982673626770855575195785690151953834344947760552853126940811, 25480199620249503725454222760420962760694956382209979543662620075357443940037, 8987324714132523804087980146166464156407203622844188004759577386524574560467, 11950839827955234829797841266311476923762994869507843999177514713795760499819)));
   ((20879258758743964859259838804306357609881343887775258923331860098209940992123, 12776305850848005564120246511544681594314120218510250881938978868599232035207, 30132845386831822997034466806678865862615823581313844885292110360888122666901), None);
   ((79801616227592445364603517853818882998485076100004582159426566424130993413209, 99276184862122315782542448352313058172571946013300255149457003019376023980295, 7358945138953114126032197443945913533226401674174364323860575520257378824555), None);
   ((81699477807659593625882125996931269078383498397189205426391618079262682200006, 67745071531366672692244141804290556464149299040642350687417362803816188451139, 36710753343377764676870041519781131688447274755921508553761308138700792165936), Some (true, (102651693853168671940285529035042346221722530019341066257020665004233188789250, 24998597131413599812939745713577763300989073018445941664946140143232153091027, 41805804271238716779229028691625693291124292427366192819259136494851320775272, 46205659183718572145214302263404173383851270543502606719471524252497867543119)));
   ((30092363347566606943312526292771457306661537123465248576955400100855600258465, 9713368187436642374758337500973048106191937181079055351769755996992498695118, 45559799353234107208316005495715779693493886452791645884533798639644989043963), None);
   ((84232827077255871460690373795452879233363085382188298816730797173797391353242, 28240790072560910748947058854496288946519517253127724481835212126708740491002, 53046595962848932691772705361533280174446686215924655834904030465120173634648), None);
   ((25088107310009533157202557302346993429841590601720535638721241684456273258312, 86936594602655074841329372854774354479873320102130302695213907660541031074033, 59620323792767926642593146223605433394866633981945797121167552459715955977527), None);
   ((74471775620589417338879590557107514041202553903098608117391426461353113853867, 22617513307981604256842668102310079098567873877649163108668983470257023118093, 38872641124038556290982988713332022934050718848713570535864724769822410798963), Some (true, (41242010654305633318961246661222647648004845200626566393813217183990478670353, 38745353049548031630641092748589367110927142852122174854880183436232612173061, 9555631037796752948619911310690041252618114371601632405261562717039402532181, 111731404017390054124573961319150218018551983042068247095225634108416661151502)));
   ((24902929536749969017227251666163854456870170084622153122786762001631362987567, 26935069207768718074243096468379876206004730861820601046487803174810360880840, 26416151232334830440868287266055317560280991374724608993930066193185467797784), None);
   ((36551831583676070168529965571944234437367561780709291605118453083788297058198, 22585717180975925519421687714487768321912913710981238312022863296910878407854, 46690210878494551239422856248409009667980076107771269512615221186518554695134), Some (true, (21065078982792757988227711484278669832325721613131611530047334920035537153205, 85715357831411397801976009889087089300176605795647709767223312325419685121358, 87248511113222782567163017085184656275147054997925710478347300302857929931753, 32750705414315067218441893546407895990168130898097307485169128879123592685043)));
   ((9917874802603623402955865081437891561615480833518666378524000788974436939786, 2181526885622524587607421832319596288653661726926818014068563520140080277543, 79586434303681275154680658846383325375743625652952699926614126153142126658584), None);
   ((71934006109638353106369423043599163775879997448664093504113889910851736937333, 23047267946837533943873425721920741742192060438234922918894715050654043236700, 9103380261508142356407488701613153219364057330129542101439959812047759102917), None);
   ((57192136672621081017975109897143534161636022994711792088074256112543770480999, 61659539600609886994692031159258582156878124799823893244098656297792544030101, 95431206001713788537941384760036624395902756376074948821594242988137616949222), None);
   ((43538165419054148799236349939062795928142363530190641348376412970511861246782, 23772605910555906233251471314501450963164081331960587008332927042183705181137, 84604353966677789868017788688812965787900956254587618459545468360280337979906), None);
   ((75368610709009738863190490125753945904741517724866348521815522562814719716842, 105553970460735689568918064092046062983297476868818920363407496462928146850704, 42491866855427155221082474702970931090686764446547928296575064701965298828657), None);
   ((110555480318333986221803768773580886862650464152651801356495587450869158616981, 18469978593443323894953329412483067449992633217274959418681759308357873314781, 18091334015027295159097490989340622298943990339379231811828084626664138477768), None);
   ((100269491318921112485411662991197584106278555722444579744903163152089720180627, 76167045409508766334804414875125950609225852968754405758214305249138863778328, 15587435848107885058470852297137705819739303658784058191357849945742065556177), Some (true, (70480607979499939071653548162793561698171179337188089293752660635599170543826, 5754266272123164252528048910068534733205983973386502882099633330583280350275, 78705864639291984041623212399179106299803590889848462887164834758035742968173, 53345271240213420282692792477581746439138922599507184297281466845304031507964)));
   ((50066515662693896208337322010936950684945986338317469748417109976961891103500, 11344450538472903514166950462779750381479354173853896096919261405049634863110, 81257144159279774606401707875440967452079928122126872917112576797652591385440), None);
   ((77850833674462866975292412353837412480940108326560079961479847271044982050826, 31062949562013729398821468862971875937917683162133437688938529260634839398420, 4505962694949853365770535201609762041694052385541916626775202455131732882050), None);
   ((88883839565961842022960008177933493405878869363817973152001469604134647321907, 114733177791618161784913812002494555378219717192671072846791613203732038913749, 39345260638628524863642729663361881905405325491805381711105437481581898988061), None);
   ((100571487920705909304386054753998207865190842758644276345709676961026897189779, 77217296893531160933693203331098335032585569816995700830422504718412607481572, 42510336054281702583044785192748162682901096189349825356727101145625527728229), Some (false, (103277962394833810536716471549939211009775263715010048763648279793727033019141, 67334730644911856937360940977753813606873412510124287158733957709534236726497, 39170278254623013353655048518322236821152802295627197704077229700545854049707, 48828835059885215302105658609007120392015369899855933039035901766676623187457)));
   ((29091884182781136070480997569840717035568822329113513693675899720351391692074, 65384499107734052825028817100922167219510553377628921814750820990629496830493, 46021618211185957225102577064613358112656011421616745964815444248172524259652), None);
   ((58439345160277835531152876874750418867144736172650251041389952123848896696900, 82838358327608195493097452201955099055567103896013261072736737159275078988753, 50192689680740335989183727182194403286358228424919610509119542086285099714630), None);
   ((35138380952800356570099803065499495114708903038547293911524959535157258104775, 24083426601436417088359768391686623115256161423820670202907087408616369978571, 7706012333701571945629756485172680169003300162429958827991957547277255465894), None);
   ((50155783529691350451093039812952368613067561870261842178434390474523996095841, 17671291838893434530098069136452001672728922475988638017111361978176643823186, 106410439291880385573771105812021527711338396102179767924805254925087932332713), Some (false, (40430192366517132081733951837327993860424076690503986071917175851820108991386, 13438863265352396972871909268976465724426550787934552169612230885181353289423, 34404239832318520271411776840669154149326846343558390358310600187127295274198, 43718021175518012407407736447671284887533617156288604095284804908401031337479)));
   ((11308852882622621020421702924308552293050049353849169938034647171310014616736, 53248057477506735050935765458009749075042309245362643238370692176350316446758, 47584829094605466788574341984429459472207014304041079849168897674953696551096), None);
   ((34196707215329164220439031358886146768675941939165105680470063824311060419292, 85477232505703394472609113655203943723061738893880892967182926689159051076443, 26556238508814272999934318333361558715726030538746481019789638633330667005117), None);
   ((99787432177958748267052159130821739227459767498000056897441563365964501215534, 51206580012533746389520349852860753948577041068440981415341039091930426950198, 98019834067362752986983561559069857479609338515588629252711369024772722986280), None);
   ((93921610822162949235965108378366690687669986536349251203433747305010178037211, 4663493245896088916847884585340453862821144585232617543151249693778009025716, 111428158880331024609683628670824428692536375008604911138567971710588633118008), None);
   ((2889252375792158835746331133457015924451069326568460023379413900422281999449, 100633182610037517712955883190416242027075854339847565881699493107966234701019, 35690622861356096580207155801126424734084997873219372046504096122244071550107), None);
   ((29624812407652482562390209293491792209457809266192023472067687340603828615911, 77730994696262853024226519497148445270702849633637811374232674526313462361677, 91047044325809238922566789650870036772844778386199312654145850816841513515382), None);
   ((56799833833132742611840084500976576855222706636444066031003723431656547726857, 58660279682559689099875541697337376153654626534764724959262735503362593564946, 61723430873708902569769695519983936455159203571753173467644842133397295348117), None);
   ((31439526503156986972103478438333998734320273613733338907128783850765844298107, 45446762409301280363740115217635373106069662764728281017999239412723357330926, 107172480735493064252457873277317589171766724530688052762157704451614495143553), Some (false, (59363607347509081042901480507538076536766996525495550881101770148697312605153, 64430622841283659997896867702317283891907772585880249365630247134674273021653, 7042012342838583515955569256001482674140346155509141536548489933421224629475, 27978912988365484329595083520645195351464525803298954114692658714726713448710)));
   ((59911796929963597512708888980820062965011495747671428159620908265915026329240, 61350106459820334249128035863203353620771771910961221397000753458276143855561, 23260414069034622390608894072987180352710991105671726198973059598646706058497), None);
   ((64211969126718993820704383673723894701870615898246583401989809998504345902018, 91021079756275407076946601402439231461798271930740372332360630175471524275215, 97503309841535284288343733143915458795232499323674201151600123062024571976272), Some (true, (55380162002937689703921634656391204737300353274134173195874284818373392496380, 115503537943439787842815266767443427561843704488688848396577816590005278841758, 18860495990359543692907689158486692952236762718165193526063836559206205443456, 25089369089195310657095262413024159032168171027747290781991201012458246248019)));
   ((98075499485973437165102238458432519569499716611092469822472000877844910676905, 55079000257970023648141998397000214138352401798748047647211843574111210698155, 82144301141788368339010628709103181845466816323322162376763957719737063827106), None);
   ((29016179592866849324037841313042854321209086988336678971008518294316044608928, 19562880357564461668405094125210845355800877659897165177572733643520825271078, 2853748921548736925074530904844485949071609712486050366012353153813093746711), None);
   ((105419086072886021218675470509592712187947775139899679581963570363113204557698, 90587778346877475876596485103373974222331451487516273186228156162264478271757, 2495834548301063506554910358097795454267043265022169137983172416559605338755), Some (true, (57341802267002278054278386552802068400700013338165221035112792936905590208042, 83796447784844066223576259340044425136653799934492461404751979000544886379387, 107463535590878737793600273898323789798334971102462364870926133379251324229771, 67696904489445619952072054599992706950951052990040675248735894307746726267178)));
   ((4392040150480087589695285249129649127925492448899155015511460152767958546251, 111981189532162353124821108747812109249789867368555539885752276725523994523838, 104942328410533545697194267087618539634370377516224339825365724418906779069353), None);
   ((26011926274529941144142876324161127759003724526089309788232192134876815842835, 40941405005245717745305955533898556349110572679964314296027121860715015422341, 82020298814356923679204358664799961885665454454718511644290787124837473116866), Some (true, (28249030966907758110386938928433608667383282486364584675212299168050837914847, 7530748858448432915474339642072789088086352002228642791316687362967080515870, 5326749308827993239830245689306179268956805635871184299307670907259309195543, 28034544080283921036241768570543247919238252045319474869996990619540104019612)));
   ((107389062508382735780577444771951309427413385552808071174915016270860196389372, 85251505695002284240178060321359813029607454189328078948719741035214424734075, 101097442743383942404131976158758231602955503139101400627544228546642614864932), None);
   ((95703661711061833709230030938213667655349842700143223757298737198634531696170, 98461543716653539845017834913164189339671152301460223393803817501543376376449, 2403696608852447944047510488566207269266554272078611757103355367487601823878), Some (false, (16052153573839110837023674984432797196953857251369041385972772971831341367141, 69029537288697356261711028449078029716263427431420622021895193046772192408851, 20003316662895190499834948407939440867571830583724621857484789847828593663647, 37692181788553789640430638104428149818020019345357058069310374497623125753487)));
   ((88483176315562313714616978840742327615207142742889842777946556309959079130259, 55767346908738235219290532849423924746098664773871834844057724757932044141667, 99615406618336234445737342160245768627163408447408233383274573732240054188287), None);
   ((80116654867278391760977846487552811685657482361175390728086259652324088307109, 75634999511192387542273375505866858701945985142327277886551885631371404168745, 62795141171996778693579463966878621206907511216035250835215173349399208323095), None);
   ((96330207804945622739127136431442062619949644392581393295275757560648791863757, 100345832683107935666895204352314790513810797796605316171348298159773171846500, 63760616054383493419806900000416725531075026611854449710919328928461756058227), None);
   ((108114234298141283392354199882316638057317739674500973498103890162101995597011, 13453043137579126718028777530084282493947446203976647453830037580768437738621, 79682722898225424922390436938520411684414194840233320960999714465928357677587), Some (false, (26039334824404740373229318336100574988701112754031343674240121752071040237382, 17585702953840400122365094714157958914936588792565361161794832745684031297794, 1432435922191628441439927208936477771747173540968091458490657880413232265674, 44376203370175184098602367608700318623658109082461882108155552192521662218317)));
   ((64340870960459426754967630105120689505960653023590671268237277934435503755026, 68767323252525989285442623759883128600043375380431368050047815095147376753424, 13618304609848439202123143871544034744741388227688727342095650882191752745504), None);
   ((26816785396021199493334952473969348621779908074983815004838129984881163893417, 114619889838596224402058945888185293441062453821974630133280807718796756352585, 63054872010475237423886871625795652775001066084186545469012981572617188008833), Some (true, (69520823820001514252015887932337734753073697152328012713347676989523295218172, 14104299657090677552439964516945094855191326990664524335220133239109090030563, 21031055935967706759870504672876090487050540149921556642412179495682493380375, 108161964508628899777651840451257950284487095836317515373670292743416562412436)));
   ((44671622558928358301689488965028298086637593474810525607774261515816999740066, 63123243396192826919155756638861043148832194893176354376125433130862500595098, 99373573484077936781211886624441647580332534876535725820186905059265501147958), None);
   ((68950172848667915002128334619292203655723219371349770355325517763969536850391, 13161423481157291169910211699767678875920418015682487910374987771823395127906, 26761102001975719697423562341127293073306894072739185700706862527338258423991), None);
   ((53058853770613632768839090192316439991330938869111149969043094415496483379689, 83159464364241793626490677492345151534297885586080204975256714687403632211045, 18397296792668741617687407593400629615388153093027969905492099881466410701521), Some (true, (6364347223299360982989182276061224887840778492196667919864679800934637782789, 102260844039321474736028895342011545214272770993943393886946523520527568377107, 41552615564277783711341299926213954663353101904737252124329888059794794937799, 79059596314921194439354799703712536638263798040808201855088838906795420910796)));
   ((7635538779776280177136648710571815533494309124620754229470379557732920975499, 111357974248107781655983636458120986687111778342501149328419747416051382832186, 10356285687497255481149168994511126682144428859866657091883448754161567877332), None);
   ((93872676400563522732479685645798951279889305132859505254580299067453134323336, 97476777118297527498395687976780760642175080598067396043130716379592035431822, 28055847001353996548008517663874622974540205192686760399697784514679997995890), Some (false, (69912069516167543684905027244361484764337470508679119128979147937699171474573, 83796300045006771500222366710971678170651511550537122800218928418263855895187, 53941131544381399538593460932962560097756644837955424994546500058598606494474, 63394061225666798359149887109446608681433089858195532635264203341963375877759)));
   ((46460046702029378697988854569817795393618067467419017017789960434916132073818, 84079735884178049247985623522779886027050672082517017912498225762088634399237, 20664942847917396229158067902884869489453089176487814335876771752356378318902), None);
   ((47242304218372099177113838068651061281998642554510014847487981901564783307460, 52950113734379978834285708195116877708433501691498224564508740991752088246881, 107755904324268202193378651250843500936777087902814227553908609307377266828915), Some (true, (39535725149362708868431520880172945093501075987680329388098951312501793686517, 31858302542427658981957271099751837319053819020986764478560670606998084729069, 108654787474930515784217636429700151548671565129613567589488603435941610468810, 69040844090020816433630825085822293093348814741559824983846943402882663986903)));
   ((58063861562167610123485278406792620698543763545070894199132226581705993602494, 51308642100250019364557447473264949896720984898978680775760304706345973071340, 11337168759200400175954533943236997112733731830466976969661204593290322905542), None);
   ((45385243472501240443604858589686063585049145093319967108181151017786504786869, 36991976696149271546598557939091507374507899743256634048348047436469560238114, 107568581618905566523854792845600906479712165955181446472078830967308634414868), Some (false, (89300742922953202452914675610700190289089907346583379655237902049346541591037, 99853105975961613727025251345201426863539224025264690127308239869362926785815, 112059775288665436729153200160042885990251140582387076060024400994722750403557, 93705592453836940053918968854659444613728660538750876148427673706435244964500)));
   ((47814775797811008035381717633875950014750486558256779639057599158276250064557, 17396091751216814903872725253762263328577448003805540757621856656117857773055, 83039044243844949675986547076434369029063926137452826070513965167429789001208), None);
   ((13229968096782949393440140623909413195844092914333192180299959091556808344934, 34746933840354883238115121087799493158865325352569234360694046922716440970437, 78031891100743157511699313770163929973855181706609429202996479810131933970574), Some (true, (3387060903098466958616684529045171273490954807977711147082482890763616529542, 105423769882431166234572860515307501371839288075235312507555350105383543567687, 5804709883914192370778410396889141702011119010407804009627019914154075469504, 5409403574623460125388445051564230661713621798149808610078116338120665713777)));
   ((112275204698392100546090017049416844950092096037250600967357177131976952269540, 51336160558839349837474591732330749102866037350371194898205755851778803002782, 76342430522743943193407615919970424164765339537756667050307509898681857771746), None);
   ((20517562239303789033074579058035324693538695793598253665614466237865108872872, 54175458185633904999638639945804265990409207070103192887854426491777346816427, 62410503854165716423110605270756927205721079515593939261908493722995697816209), None);
   ((91090224081983655451850474732644234505902065648938057880459545720816899623694, 39877150169646613301122484586511764534950211157666558605306807245277997682101, 36712547501092396196800138788043006279947354785246403736577098656409710870527), None);
   ((102423539819550730227000081371892681137800682288540175568582820714354925453411, 7893201664640008920806582252367587035964015976935389231079284945791945067475, 4095719920293782198332212114043502749486248048593439897750911835779110736224), None);
   ((95624569959859286871816726777271430547442799075233957424096731985652624918766, 27295057852023188178352509698839114322816164634544383227010367796461654093338, 108811885871862978406669613319217401722595954727904476679075581034284041707329), None);
   ((59231804136275453926295038460296337947408738363802238539868386690706341430338, 64295065559459868511055323816026745869108175724754320247996764619262287771215, 53113262924638100309927716640535683417350527070043493541428128824336825906626), Some (true, (109337822582664463526538205818131775292929276591628976179619037093987425753091, 15989965170638958154915614561882376492283583778718217119493174039403145948960, 48867633987392242088168720015272465315260405902919264151576417423377720116882, 91882613051969208662943288581676706902210317668275200036706300248188567700797)));
   ((75423377388482511416700215580047502205300208532413468020172732481062746625748, 55842453579680429588911000250278585086076151728687663590091529866402739692673, 3577992453567260124625036843310702893020758737212890646737814486525329215974), None);
   ((96506394168600737922375450629511761190092953228817166273509527168011128820083, 61676003159955304732931770217558964649202927027337649798607524631979864790024, 57117987022184031166265794060849606546926526401521793960067027870971786863697), None);
   ((81102381090802220510287427041183590107175957064106491505337941560313660413931, 17491097545144367159855344727815178318073834039160249745855758004656359221734, 4546169054689585628695887266592871727555103724718901716094208508907259584635), Some (false, (64131084524545695127605084931222043616150499095292447859114857279586676855316, 68082118150802736904041598944173563566976871750002670453338333318429001923114, 38655586455183803946825936461682275898030876536344500084031555310570032459197, 41341552685664229683022794897301713214591266833417643183542576568447770814466)));
   ((36358135347916357040221908799615177738614949082015476671200828609941412767575, 105832021232252387052731015005704433275049260860284372379165144833380065558115, 21304429812489736432630545166211150028004227088660080468460517775067962745342), None);
   ((32757448734239530918727522341357587333461236875521177128179030189711332735859, 50134128657322676692533745902385408268123068676285678422046013627116111972622, 15721342826176411213323243902109600274207028599366962709832970166577010572549), Some (false, (36753610296113895991279621188376286616206544716508660736582527190723378249957, 46142255588071835665744265737581417469654478316428538171997556250871661668310, 97861445442402600255152598988235049945166663649835115007956029179272160852555, 99738524973994974040884625665421839024079072915878351179940356792358859281648)));
   ((35278516043341409362232276512027994374973967185295879198871993300256187059355, 59391522668249385334376009645687768472252124611035097846394708269882073284523, 106808109526191560568067197676741812315022724890485712949545067320012236917940), None);
   ((65281689579098518387649255742457836607118248683630970557760332106814984842062, 69592302969180992467309301503499417124941891865979129402920579834307866878829, 7346024151117804201244492339787858520112294056942496904431909633408897913873), None);
   ((71007290510795814282765092236587719657630188071412031238789336941961334914875, 72434307680486767767792012734640794099651267777436528504332807300936581975574, 97017882324638877020480578225007737531487609484691293967258626016947303529563), Some (true, (71230311042352823952667147627415957393588556799875927892016710501384978288153, 113400370937518160776592728961171348385366849938839131742590488370298774388011, 110437429609366795961518081129801158273039555977823262926416896374637742837561, 21680155284479200798883642127554003723069012559830693846805355283483765703013)));
   ((79523183148463261420068884681035561781091183481322429062265499754768524958832, 78164015944777638834319480217803113921930706290681283395949422776130412801409, 100646258335384375599961401048218805335508087685224651768479683869008353231906), None);
   ((74779360851922729060595490219140400307539671470914716919206193130373557598355, 62929253125932293305085909287512759984784465343241193424108029486358722109703, 113138709165993985620879376686854616346655120401997980567310892873133012587886), None);
   ((10946584181021060276480125635006028432236839602023153355479743136032907923969, 106050432517862033003794768725841664363695084372341318911307834580777045500123, 66258697076292479776060001748874600124648630795185355893209870676642176466885), None);
   ((113901437917859635711340203501456399846013208809046923232980466637044715746565, 7931288658701477188283378979983525071752828752346416149058424678847513344700, 79766372818313010591503121991231911001120448853481094787913620798194151397431), None);
   ((105157902081124904963621958590440678708988896903574701298149660183899847269106, 41976352824336635170107746163247862151514970729533299982255786806596259049947, 70175066530458261036795851946447968061844485680990427881219454413308894032432), None);
   ((50186322624666192221804266628562865707616639791524999099991432476610883260478, 83499942608586934155156092862186738963163073904586076596382520955370118547031, 57955880679448588302626290836743106365690454253496451864107256830844327622381), Some (true, (111640572948997205946901770058917814612504502490538748762685658933609696620526, 91308489138856948454741763757226086121977416420905885361179686733650767838222, 52942308695625731948425767743651775434415211775777857896939345663136915289715, 11303820511970585737970021402097521800506845197213002405890782779840324778246)));
   ((68990978147819585816346844496221983036120734083696140657111133045711225963878, 80930162898664460249121342976928052968631685754930205986049359771563933952200, 34978851231021614280594004669584477897419854475056008251063172587519422285112), None);
   ((2389570710643802754873584424574204143612124328305539259271012241884272892096, 51803211423479368560521169388533234909293634243098000720575250092487057112204, 31802339389234022653284756754865684598953551373449810462371665858880939389416), Some (true, (49969692228279855438808098029078355154548372451528806545241935485841283510049, 82467441763150666393101100944583923191392472975037324487640182199532843316433, 110797270718717713930106986467755591525380337883468629733153285312838244170195, 56216216227778204017389609900189580717931561557241616302043254022237862807340)));
   ((79012837169972970237668561568565754559297944966293546224024891017816740131160, 84642857268339869727564516904922319555850247518954080446874590480634344123463, 64241166637791051017643778517059322507131070991449172667120525485497263996380), None);
   ((70220479870539443005644996838493025456729253460428610923870836584772623489441, 112839188495024393875613997466401352049882793377525588507800512281722343576419, 30630822197029742857447680855476168249489005013897222626921407650960832718276), None);
   ((111618936691348985583574296138361052868412172634243856723226619760846881451200, 10391991325606944208174258751455365170433116985737046503271282614823041311303, 26029484258878886523952200863127179315177598431280982924446788149129935759875), None);
   ((21550480456693215703323281409812001762131297502973689598570636886626034031712, 75404758482970552478342687949548602789701733940509850780379145804275702033212, 51231939447366605701190019263228486011330128519473004560491454193878655241557), None);
   ((43593449136217447544352503463618595374195372678159862701229152631761017742473, 86918276961810349294276103416548851884759982251107, 28597260016173315074988046521176122746119865902901063272803125467328307387891), None);
   ((26965839571063133429837562686253150625459476579747687149534297236751445546434, 55066263022277343669578718895168534326250603453777594175500187360389116729240, 83121579216557378445487899878180864668798711284981320763518679672151497189239), None)].
Lemma generator_secp256k1_ok : generator_ok generator_secp256k1.
Proof.
  pose proof (mean_lift _ _ prime_p256k1 _ arith_p256k1_ok) as L.
  assert (mean (c_p (g_curve generator_secp256k1)) 1 na256k1 = fp (c_p (g_curve generator_secp256k1)) (- c_a (g_curve generator_secp256k1))) as Ea by (rewrite <- L; unfold mean; f_equal; apply fp_eq; vm_compute; reflexivity).
  assert (curve_ok (g_curve generator_secp256k1)) as C.
  { split; [exact prime_p256k1|]. split; [reflexivity|].
    apply (cardano_ok _ 1 prime_p256k1 arith_p256k1 arith_p256k1_ok _ _ (0) 115792089237316195423570985008687907853269984665640564039457584007908834671656 0); [reflexivity|vm_compute; reflexivity]. }
  assert (good (g_curve generator_secp256k1) (gen_point generator_secp256k1)) as Gd by (split; [split; [discriminate|reflexivity]|vm_compute; reflexivity]).
  split; [exact C|]. split; [exact prime_n256k1|]. split; [reflexivity|]. split; [exact Gd|]. split; [reflexivity|].
  pose proof (good_on _ C _ Gd) as On. cbn [gen_point eabs] in *. revert On. rewrite <- !L. intro On.
  apply (order_check_ok _ C 1 arith_p256k1 arith_p256k1_ok na256k1) with (l := chain256k1);
    [exact Ea|exact On|vm_compute; reflexivity].
Qed.
