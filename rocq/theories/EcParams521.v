(** The parameters of generator_521 (ecdsa.py) are what they should be.  Generated
    from certificates; nothing here models /repo. *)
From Coq Require Import ZArith Znumtheory List Lia.
From Verif Require Import PyBase ZpTheory DigArith EcGroup GrpMul EcModel EcProofs EcCheck EcOrder LucasLehmer.
Import ListNotations.
Open Scope Z_scope.

Lemma prime_p521 : prime 6864797660130609714981900799081393217269435300143305409394463459185543183397656052122559640661454554977296311391480858037121987999716643812574028291115057151.
Proof.
  change 6864797660130609714981900799081393217269435300143305409394463459185543183397656052122559640661454554977296311391480858037121987999716643812574028291115057151 with (2 ^ Z.of_nat (S (S 519)) - 1). apply (ll_prime (pm_mul [44%nat; 22%nat] 87 (NC x2 NE)) (NC x61 (NC x63 (NC x63 (NC x63 (NC x63 (NC x63 (NC x63 (NC x63 (NC x63 (NC x63 (NC x63 (NC x63 (NC x63 (NC x63 (NC x63 (NC x63 (NC x63 (NC x63 (NC x63 (NC x63 (NC x63 (NC x63 (NC x63 (NC x63 (NC x63 (NC x63 (NC x63 (NC x63 (NC x63 (NC x63 (NC x63 (NC x63 (NC x63 (NC x63 (NC x63 (NC x63 (NC x63 (NC x63 (NC x63 (NC x63 (NC x63 (NC x63 (NC x63 (NC x63 (NC x63 (NC x63 (NC x63 (NC x63 (NC x63 (NC x63 (NC x63 (NC x63 (NC x63 (NC x63 (NC x63 (NC x63 (NC x63 (NC x63 (NC x63 (NC x63 (NC x63 (NC x63 (NC x63 (NC x63 (NC x63 (NC x63 (NC x63 (NC x63 (NC x63 (NC x63 (NC x63 (NC x63 (NC x63 (NC x63 (NC x63 (NC x63 (NC x63 (NC x63 (NC x63 (NC x63 (NC x63 (NC x63 (NC x63 (NC x63 (NC x63 (NC x63 (NC x31 NE))))))))))))))))))))))))))))))))))))))))))))))))))))))))))))))))))))))))))))))))))))))) 519).
  - apply pm_ok; [vm_compute; reflexivity|discriminate].
  - vm_compute. reflexivity.
  - vm_compute. reflexivity.
Qed.

Lemma n521_0 : prime 71.
Proof. apply trial_prime. vm_compute. reflexivity. Qed.

Lemma n521_1 : prime 41.
Proof. apply trial_prime. vm_compute. reflexivity. Qed.

Lemma n521_2 : prime 17467.
Proof.
  apply (pocklington 17467 [(71, 2); (41, 3)]).
  - cbn. repeat (apply NoDup_cons; [cbn; lia|]). apply NoDup_nil.
  - cbn [map fst]. apply Forall_cons; [exact n521_0|]. apply Forall_cons; [exact n521_1|]. apply Forall_nil.
  - vm_compute. reflexivity.
Qed.

Lemma n521_3 : prime 19353437.
Proof.
  apply (pocklington 19353437 [(17467, 2)]).
  - cbn. repeat (apply NoDup_cons; [cbn; lia|]). apply NoDup_nil.
  - cbn [map fst]. apply Forall_cons; [exact n521_2|]. apply Forall_nil.
  - vm_compute. reflexivity.
Qed.

Lemma n521_4 : prime 127.
Proof. apply trial_prime. vm_compute. reflexivity. Qed.

Lemma n521_5 : prime 17.
Proof. apply trial_prime. vm_compute. reflexivity. Qed.

Lemma n521_6 : prime 777241.
Proof.
  apply (pocklington 777241 [(127, 2); (17, 2)]).
  - cbn. repeat (apply NoDup_cons; [cbn; lia|]). apply NoDup_nil.
  - cbn [map fst]. apply Forall_cons; [exact n521_4|]. apply Forall_cons; [exact n521_5|]. apply Forall_nil.
  - vm_compute. reflexivity.
Qed.

Lemma n521_7 : prime 60018716061994831.
Proof.
  apply (hpocklington (mont_mul [] mf_15 60018716061994831 11) (64 ^ Z.of_nat 11) 60018716061994831 2 [19353437; 777241]).
  - apply mont_ok; [reflexivity|vm_compute; reflexivity|vm_compute; reflexivity].
  - repeat (apply NoDup_cons; [cbn; lia|]). apply NoDup_nil.
  - apply Forall_cons; [exact n521_3|]. apply Forall_cons; [exact n521_6|]. apply Forall_nil.
  - vm_compute. reflexivity.
Qed.

Lemma n521_8 : prime 4239602065187190872179.
Proof.
  apply (hpocklington (mont_mul [] mf_51 4239602065187190872179 14) (64 ^ Z.of_nat 14) 4239602065187190872179 2 [60018716061994831]).
  - apply mont_ok; [reflexivity|vm_compute; reflexivity|vm_compute; reflexivity].
  - repeat (apply NoDup_cons; [cbn; lia|]). apply NoDup_nil.
  - apply Forall_cons; [exact n521_7|]. apply Forall_nil.
  - vm_compute. reflexivity.
Qed.

Lemma n521_9 : prime 7427946019382605513260578233234962521.
Proof.
  apply (hpocklington (mont_mul [] mf_25 7427946019382605513260578233234962521 22) (64 ^ Z.of_nat 22) 7427946019382605513260578233234962521 2 [4239602065187190872179]).
  - apply mont_ok; [reflexivity|vm_compute; reflexivity|vm_compute; reflexivity].
  - repeat (apply NoDup_cons; [cbn; lia|]). apply NoDup_nil.
  - apply Forall_cons; [exact n521_8|]. apply Forall_nil.
  - vm_compute. reflexivity.
Qed.

Lemma n521_10 : prime 15994076126984618329123851002118749004583184815459808099.
Proof.
  apply (hpocklington (mont_mul [] mf_35 15994076126984618329123851002118749004583184815459808099 32) (64 ^ Z.of_nat 32) 15994076126984618329123851002118749004583184815459808099 2 [7427946019382605513260578233234962521]).
  - apply mont_ok; [reflexivity|vm_compute; reflexivity|vm_compute; reflexivity].
  - repeat (apply NoDup_cons; [cbn; lia|]). apply NoDup_nil.
  - apply Forall_cons; [exact n521_9|]. apply Forall_nil.
  - vm_compute. reflexivity.
Qed.

Lemma n521_11 : prime 3636410625392624440351547907325502812950802686368714273274221490761556277859337865760708490235892541081304511.
Proof.
  apply (hpocklington (mont_mul [] mf_63 3636410625392624440351547907325502812950802686368714273274221490761556277859337865760708490235892541081304511 62) (64 ^ Z.of_nat 62) 3636410625392624440351547907325502812950802686368714273274221490761556277859337865760708490235892541081304511 2 [15994076126984618329123851002118749004583184815459808099]).
  - apply mont_ok; [reflexivity|vm_compute; reflexivity|vm_compute; reflexivity].
  - repeat (apply NoDup_cons; [cbn; lia|]). apply NoDup_nil.
  - apply Forall_cons; [exact n521_10|]. apply Forall_nil.
  - vm_compute. reflexivity.
Qed.

Lemma n521_12 : prime 3615194794881930010216942559103847593050265703173292383701371712350878926821661243755933835426896058418509759880171943.
Proof.
  apply (hpocklington (mont_mul [] mf_39 3615194794881930010216942559103847593050265703173292383701371712350878926821661243755933835426896058418509759880171943 67) (64 ^ Z.of_nat 67) 3615194794881930010216942559103847593050265703173292383701371712350878926821661243755933835426896058418509759880171943 2 [3636410625392624440351547907325502812950802686368714273274221490761556277859337865760708490235892541081304511]).
  - apply mont_ok; [reflexivity|vm_compute; reflexivity|vm_compute; reflexivity].
  - repeat (apply NoDup_cons; [cbn; lia|]). apply NoDup_nil.
  - apply Forall_cons; [exact n521_11|]. apply Forall_nil.
  - vm_compute. reflexivity.
Qed.

Lemma prime_n521 : prime 6864797660130609714981900799081393217269435300143305409394463459185543183397655394245057746333217197532963996371363321113864768612440380340372808892707005449.
Proof.
  apply (hpocklington (pm_mul [44%nat; 22%nat] 87 (NC x46 (NC x31 (NC x51 (NC x35 (NC x29 (NC x11 (NC x28 (NC x36 (NC x32 (NC x36 (NC x40 (NC x40 (NC x48 (NC x29 (NC x12 (NC x59 (NC x14 (NC x50 (NC x6 (NC x37 (NC x8 (NC x62 (NC x5 (NC x45 (NC x44 (NC x7 (NC x33 (NC x27 (NC x61 (NC x31 (NC x6 (NC x0 (NC x41 (NC x12 (NC x13 (NC x40 (NC x1 (NC x34 (NC x15 (NC x60 (NC x50 (NC x51 (NC x53 (NC x2 NE))))))))))))))))))))))))))))))))))))))))))))) 1 6864797660130609714981900799081393217269435300143305409394463459185543183397655394245057746333217197532963996371363321113864768612440380340372808892707005449 2 [3615194794881930010216942559103847593050265703173292383701371712350878926821661243755933835426896058418509759880171943]).
  - apply pm_ok; [vm_compute; reflexivity|discriminate].
  - repeat (apply NoDup_cons; [cbn; lia|]). apply NoDup_nil.
  - apply Forall_cons; [exact n521_12|]. apply Forall_nil.
  - vm_compute. reflexivity.
Qed.

Definition arith_p521 : arith :=
  mk_arith (pm_mul [44%nat; 22%nat] 87 (NC x2 NE)) (NC x0 (NC x63 (NC x63 (NC x63 (NC x63 (NC x63 (NC x63 (NC x63 (NC x63 (NC x63 (NC x63 (NC x63 (NC x63 (NC x63 (NC x63 (NC x63 (NC x63 (NC x63 (NC x63 (NC x63 (NC x63 (NC x63 (NC x63 (NC x63 (NC x63 (NC x63 (NC x63 (NC x63 (NC x63 (NC x63 (NC x63 (NC x63 (NC x63 (NC x63 (NC x63 (NC x63 (NC x63 (NC x63 (NC x63 (NC x63 (NC x63 (NC x63 (NC x63 (NC x63 (NC x63 (NC x63 (NC x63 (NC x63 (NC x63 (NC x63 (NC x63 (NC x63 (NC x63 (NC x63 (NC x63 (NC x63 (NC x63 (NC x63 (NC x63 (NC x63 (NC x63 (NC x63 (NC x63 (NC x63 (NC x63 (NC x63 (NC x63 (NC x63 (NC x63 (NC x63 (NC x63 (NC x63 (NC x63 (NC x63 (NC x63 (NC x63 (NC x63 (NC x63 (NC x63 (NC x63 (NC x63 (NC x63 (NC x63 (NC x63 (NC x63 (NC x63 (NC x63 (NC x31 NE)))))))))))))))))))))))))))))))))))))))))))))))))))))))))))))))))))))))))))))))))))))))) (NC x62 (NC x63 (NC x63 (NC x63 (NC x63 (NC x63 (NC x63 (NC x63 (NC x63 (NC x63 (NC x63 (NC x63 (NC x63 (NC x63 (NC x63 (NC x63 (NC x63 (NC x63 (NC x63 (NC x63 (NC x63 (NC x63 (NC x63 (NC x63 (NC x63 (NC x63 (NC x63 (NC x63 (NC x63 (NC x63 (NC x63 (NC x63 (NC x63 (NC x63 (NC x63 (NC x63 (NC x63 (NC x63 (NC x63 (NC x63 (NC x63 (NC x63 (NC x63 (NC x63 (NC x63 (NC x63 (NC x63 (NC x63 (NC x63 (NC x63 (NC x63 (NC x63 (NC x63 (NC x63 (NC x63 (NC x63 (NC x63 (NC x63 (NC x63 (NC x63 (NC x63 (NC x63 (NC x63 (NC x63 (NC x63 (NC x63 (NC x63 (NC x63 (NC x63 (NC x63 (NC x63 (NC x63 (NC x63 (NC x63 (NC x63 (NC x63 (NC x63 (NC x63 (NC x63 (NC x63 (NC x63 (NC x63 (NC x63 (NC x63 (NC x63 (NC x63 (NC x31 NE))))))))))))))))))))))))))))))))))))))))))))))))))))))))))))))))))))))))))))))))))))))) (map zdigs [0; 6864797660130609714981900799081393217269435300143305409394463459185543183397656052122559640661454554977296311391480858037121987999716643812574028291115057151; 13729595320261219429963801598162786434538870600286610818788926918371086366795312104245119281322909109954592622782961716074243975999433287625148056582230114302; 20594392980391829144945702397244179651808305900429916228183390377556629550192968156367678921984363664931888934174442574111365963999149931437722084873345171453; 27459190640522438859927603196325572869077741200573221637577853836742172733590624208490238562645818219909185245565923432148487951998866575250296113164460228604; 34323988300653048574909503995406966086347176500716527046972317295927715916988280260612798203307272774886481556957404290185609939998583219062870141455575285755; 41188785960783658289891404794488359303616611800859832456366780755113259100385936312735357843968727329863777868348885148222731927998299862875444169746690342906; 48053583620914268004873305593569752520886047101003137865761244214298802283783592364857917484630181884841074179740366006259853915998016506688018198037805400057; 54918381281044877719855206392651145738155482401146443275155707673484345467181248416980477125291636439818370491131846864296975903997733150500592226328920457208; 61783178941175487434837107191732538955424917701289748684550171132669888650578904469103036765953090994795666802523327722334097891997449794313166254620035514359; 68647976601306097149819007990813932172694353001433054093944634591855431833976560521225596406614545549772963113914808580371219879997166438125740282911150571510; 75512774261436706864800908789895325389963788301576359503339098051040975017374216573348156047276000104750259425306289438408341867996883081938314311202265628661; 82377571921567316579782809588976718607233223601719664912733561510226518200771872625470715687937454659727555736697770296445463855996599725750888339493380685812; 89242369581697926294764710388058111824502658901862970322128024969412061384169528677593275328598909214704852048089251154482585843996316369563462367784495742963; 96107167241828536009746611187139505041772094202006275731522488428597604567567184729715834969260363769682148359480732012519707831996033013376036396075610800114; 102971964901959145724728511986220898259041529502149581140916951887783147750964840781838394609921818324659444670872212870556829819995749657188610424366725857265; 109836762562089755439710412785302291476310964802292886550311415346968690934362496833960954250583272879636740982263693728593951807995466301001184452657840914416; 116701560222220365154692313584383684693580400102436191959705878806154234117760152886083513891244727434614037293655174586631073795995182944813758480948955971567; 123566357882350974869674214383465077910849835402579497369100342265339777301157808938206073531906181989591333605046655444668195783994899588626332509240071028718; 130431155542481584584656115182546471128119270702722802778494805724525320484555464990328633172567636544568629916438136302705317771994616232438906537531186085869]).
Lemma arith_p521_ok : arith_ok (c_p (g_curve generator_521)) 1 arith_p521.
Proof. split; [apply pm_ok; [vm_compute; reflexivity|discriminate]|]. split; [apply Zmod_divide; [discriminate|vm_compute; reflexivity]|]. split; [apply Zmod_divide; [discriminate|vm_compute; reflexivity]|].
  apply mults_ok; [discriminate|vm_compute; reflexivity]. Qed.
Definition na521 : num := (NC x3 NE).
(** The multiples of the generator on the way to n - 1. *)
Definition chain521 : list step :=
  [((43980096838414897942695451360776801546493518135190906703469466857073629259876160326404758499302989820167505490490644476100271227537415237744846889189003976, 901472452850866198617673658578940391618730359691416279093035377195377079020397774511960179466499271590922803070095487687963115616363390991670183687363590205, 3281327921582527507824747162491172657218985358085640380741461489720525905953211486053138004786012424348623853685340634287932228687534583594738661002099038978), None);
   ((5361236877483468210697643427147566160623778717967805316516371191543479397029882524028813289629007144238742022452788647183112960652923770822197558721586711640, 720139262829490965228382995842856154672620969623624721491545193380081085740139236944514523432374714314516720643288782059935114497438659217305669829660312307, 1743509213896395704926971995163331058385350704471974861189555515264763786920497129482978082020953735069538018776269773826418065263344470573872048814915734797), None);
   ((1108744718101917754651602579238708256135189621442948863688299024434238721867823776202576059018060958662878384037869308745301179734361009425330819092462770139, 109083299521442500876842833611249336033561763077283587821638741694330082273903024416664243036493783947792437906787000707140664721345204901269860104151813736, 4762367841910623311695901789059609560484960426869206316472308403586084267202597852325933276209196012548531291691842818402620813054843744959471171805306650652), None);
   ((4888998951077140318695508380090089776125724854426399350826327886634608580596008164676221988739783200551808872576792052647789328449093703647739924029110432321, 6241180915176278353709948661551807372161504612243778404142611194879651440425883933539101827196733192198888981107988870341513729391907326473214469963797512239, 1638643837932747132079839273461856153624868449746068909160880355535832027215173614112201953104806372652385539173150938250784356804102162204304511534448982718), None);
   ((2972723797957832807817509977151425751841348911165832156690479950715354327020465597577666561079489993333013799392684527387378922336736327100821981712862290033, 4809747813005773582736477793395146817829227348005423115568815413840090266756427126641778079468360411654273029458379842438408013337216510083388037879227050654, 958399660197111069328234362383834396809952883481765234834877898776339156519226847894785767835267109541968413086447663526933025112714647926998717821284865706), None);
   ((1198039277638079326036006114200826414430407983499737174173942960307808192469111787206890408613672182322632426164048550417038708975534775331827144494791764286, 5733232659575579026583573484679917715939612147691549383596401696862100465589363894471594012013311140483824001349914424291418109782644039873855632987410986818, 1562713591037212378746641403896592755663892590928985282861964622998328343197101455676567228093823811402563261156503494377404744618451207072786774262109757275), None);
   ((5569440622426001558021651393267589691878766188123487862850137907826947898364180833677367088639605406537093491451143882628415207195590460710941230181301001379, 5106074108767525772784900742191391216081026661889656684721970692360490820560895290550387640936517512628010066040407312567372946849620131357727663410671233504, 1494047070093284015540016927337425071576572299237212823286938327102435527361194456275741118234869446841865217907281688794576229540614759007047499372145127729), None);
   ((5735355492772904803923311870738296158317233865585569363265377088238931656642152915260636279226952536640245180637764413871415012153909833337797881508743303633, 6301043293941407815909383887188896860039444826103935612807500868232667915611061078193831732150955112582095571535216236139770630104636122915446790730209427628, 1906685311266377191988478486778196535333881587013667075709952996135452530442737594959493153598623456146744259076080895179751733855324236162964313763604061823), None);
   ((3521149985232616742437105939422248116757797296378426722194561127293867126396182934170313602162735999308156922008570858258449151442199028411928140837020725083, 192449417505287452588773722588251938965927419700569648375564890856730666085826671456524602331688722830338929700898961108574411984317529264886048008340537235, 4181402247818256172179013588599761058233768595878656522331617370223185314107251508023912650123767659754821533581432972865277969539211920284006603060216807566), None);
   ((1801077889184513011140793879788876681501011754184601980992300697789146679424918969761596280820554442436920584253522500275149386369994025943175611434829185657, 5313472381434213674473711481585102628500952354284326361558131134247084771800823129507980666853217808875386397654137914991622072451000460054543319870271314680, 2695804896690171404661260071545246641990239006571595753630552772187220114165837413156932318210716914821139024995752472217357365764990587033183103761374223111), None);
   ((1716962079835373585138796623131665396743181787267459472333417103163011851142685852283370643069477228649765067175696380198591697859436460768984177457217776293, 3806996365773169721542239341799079863069700626321458627564795690822586705735736561965107253781471262997027470419982570739757490693707292930436895025741941021, 6223023016097608332404443497845209951831817411207667733969356246907025726618469045152940254201608684748733137001635051088847707669079280702585095668949295016), None);
   ((2756498488580692656075345183940149978104853334359161439850380242968576863699022304569432606251700419202335847488342811548321364390199078721761144624348870995, 3219798561629192308006577606208506837371328058482075239483308681467321651511312144365151673446642517103343188404900886025079499466150559698645623344992332955, 1107313925259630105982202239856791683994869793539951928849937809182711197885155086434548171488351322970769511926042129696540194079116837250200334477771417498), None);
   ((4853876764739980003810656591007601926582776351181601884840352235773671767332870064701155407415451069972728547322597570848704932437851301442211950691759368407, 1802556799930985177584619384586050177938720633151566898496175875072913037498241388337100823537839770865623410826756050781794538704125736942672438309425755331, 2672663717892285874593340658712821462325037887008515523436954698823048953659301518141699151743520099433173731209794254234587643670010212158082956384629415133), None);
   ((6055791895976177494872617150509040909334146040800326149784305428941707076104876828806051114977194439164004153163364110054728406068797866890238540154494966935, 5034204552844794704669415407441972720669315907636858521430712247030002677236441135542729135491635700597353346677767147953847922264814160971489453620500810479, 1891653843738889675592848920429417637940974807725774922476912399127015390775412531725769808289971887826894695135093118437552865601106640021204057759524298988), None);
   ((1784538941559132404284432661680959267608677628299811925281643375388039125321299094428456222573576237491915467741047033986236072387840043709706315614533238830, 3789321449792130852099848065855845068413041831466690760487735772421916670153382945954153965633957250016149414660575844727671998364876887472709712610818844513, 386183630706752910075640114418683356130083027612043193357148408909559259465199508908155135385186850895995898099959813264658148080629677092283699544826763180), None);
   ((1364735615507084027831431839258654274461018960971742664356594095007211381855205850445605209054929458604710113643848139987721644889563287529835629697152062670, 257453741564923059416478424181659128041465328722375144440135042562033540538985521702911450449936090784821167963292544134067361745585526530554205823058624195, 1176905899860388978227953799416821469811089096342650222048592501217659545267324132121866281477246084803357698227306443995690375735769686571831018481277573641), None);
   ((2913435905173433268674038132296196886770222177994044838227024850195959475519982830160748002577008016377196949156225159118590140203685984484133759354328558280, 2618543075839675179959896375478525571456661172887106847182872679181266462074845900217566628487659145665154340662478807507248132336781630621862704008353357622, 4777017922584858059865657787858207559549743689363621704271848862304080480765791301949950810882876499342494966080849289894711977621735628517092887297028703487), None);
   ((5083366627055308359665700985991724283335239151738400830031018133773371163225650721081535487581758943985439889411551878642298858699652256152039429276885720121, 1455200792735879063779417796928189080058442408488181644784242631956491233437320637096625607841308505071655326037026063461598979383751222634195822087602607173, 4247628805492615955835216911405763425323811216878519338629766583670714164722224191539489663009811910521087803355855519470016908184320317801917770752841358134), None);
   ((3962451405991419022453832968688425704545602391037948056121450782589969287630013871532685033759204360069143448777747763126827116291791537645313098272782647220, 2341491401070800096378395583119270892725923981256817510124961469296396613582592847530718942716412843328780588015793929089782054672565387724454453645258619711, 3407252096605785593017167533423870009694780858298332600304732778836506233646247672546273045810732368589776615292841136453559127518010517757654429956939699194), None);
   ((5356100156025936363799383949193008937103252926519757299876741566278845624211814658712597165144181144330131240891924467341351910958192806929629812674685538042, 3493873017736658853470599154874914478835614005494563670880784274217550089323724917581047039927929612994106840237415271013318465503871721253639570685344882753, 6217985290917016131294974018870847605205070569135353165271931382658743232456484123781080680093429238506349362131372930453181348044624250436905904001459776178), None);
   ((3018009689896342437520826706757487877606380849835191223965790549224574305303663493413189739621477163289874118478560829476757109497590278327819470787599836730, 6100332273427199134809587927641256022824328634520064471212580251414756029874209689190174080894267038165685369318422358385586770539220996438403540681543621387, 5817743260278098431725850913463848361193653180026960406184901591110792359417704756162491393595458259287194126498977061233384352223444148397095309990695777558), None);
   ((1199808370434233583672036470327722180529027094479867225358351972689887022624105943063632060827550060395942216330260750029523504745349708722294970463289746, 5571549633000999070321006795485485517207043109504675010324240909979817687977581183282396598789219604106040612953492171800219859036178230438549194318535618220, 2964110218623731252696161868313736416849823822874482525019204903121061560262771935629224174590389236267515963655432472039891703960902961705490859352737922009), None);
   ((6255758201501805260424702648092654247201380561407485782480504741468799963797777042047695753032920121868331468143669709834071891582712082481443030809241159368, 4189186863499645634519117057271445005287895265660363580145888844288947564841556318077845884128765152245401569200768995714752619169817258560788401254603987253, 4778941877781660645561017922325985772860902936994080301706431205525929013737294784466013062691629413266721746300863863802213718950113437128759739451866623967), None);
   ((5222921551731401128734664324892268075162044601901504265618833690199693388473931669337129507617961322215450508183036047930182087281494823761239999794296076141, 453130384434367738654449761099744344486787608641456995153368035138310528730170951572192404016694056418735853620846743832990555132154161428381468022378044040, 5119591680783052499950316601049046376591546254788702419973513600660164440448705085786718340194075661254321811470849361049643379691836943461694020795916033688), None);
   ((5189938034343729918471059661838481337851659216612602768696312341774755249820334718680501042653975581309987523213064331924374005683869989486975144927638241403, 2022193334408574054869408623912458828583105690072787462124173402048092993463710320984160278800872320278900976461468373412632502792538973837195694102269792160, 6365987224409168150401577428133017909095948320431964281410961371842985103944564749728367857927571649913723368249077647139771326052634339815346772427376228621), None);
   ((5776547930780196458373057660990945048132416837603958958659745604233901574211001290868290000580695220055730603590005984471666416258166222242349513634184935573, 3146140795675089380078681945153831162743600764063537610227772392832916581286766601657108317322522269150348885876368951873257361221855938782011196331038032358, 5691509801222795368288152151821795101070692174057117003985937908996994524510532354009749376703333541832432180309627827207608400066892333551735721021606215971), None);
   ((1957330048079131945407895551551661750695851233095428587595791343834523341750000830642007185430943775530291826637686438291499049794126463615436032446516644590, 3007760568350275586010361750362521211299914365881663583652005176643941745391670766122964485990935170689564467339409331134755990354580318637386963791833220022, 536995443723011650549110709325498693109753092430681421932018584604323824275118352602054976166760199837747590900227445827517910549346515374062577578515419823), None);
   ((6787512327615161573972836098438396003586750268087158104696035698160372717018228142898458285143131790329930869837863823879883837117924656112904891548755674368, 6452817146528544741287524022401895675808307025791266091336223555543135483555367861357248674916542411609138131916207408765250810665855687483029778572111348297, 2070600080438397281742260162790157939403629171550276264525156573585896257148776361120261491645392473403036718552569531055309738313914095573033455961100083286), None);
   ((197713670835912244841982973586698414769360168144024095009918859689538933448977977677550166788364002825561880804987345778428171438940696930603530907944559250, 913821776842547189775026762106389854959869524909153436012738421278792535947046760113918019528168300987611908278072293788817701818891381387764915205628431974, 2486865139991206890851241417129238596644879517269767373189754222890020794874842602188985577933149512662800263349103838643809621195062519692278715303553875399), None);
   ((1871523389330939623464182247650192166106429051358141931037365503642277697177138862653972784743650858702319032814616191926148365428169349605218707360311994950, 5049886259233689746150966049649830864475204775706363474136510877714539941253455184862086447188977146076257198788373233733117365404245862880040745649418888256, 1175813117355878402889738090386686292657076140089038807993101533411008603552862822383139171336296303747188730316036821288356644340488546401838980123410379340), None);
   ((1214574440876813121973814022286649633035373152396733634543105525162709861837695563050562489479635121594711366069221827574769606132527645097455084702608895022, 900284087422172968249477222418770635882946622776652770800253266193312435091507554262973808504203528009650744848861209870088329759453056475274052601706801439, 4305140719072853807936867921597852533094057978389226356961397156058038047118572544210951459247603760540142426128123303325303195288971924310525710027848879529), None);
   ((949479398894022173961574890215595479329496498757013448033046959112511470313663982839371034955401326258197586461128658143398016916734838827324366100910552080, 1915292436718669738540982795992188943448451650898383420556051426953139580958517925923964874483066278982997224724305961284164351500594136924269073800289352260, 2212992697732717207698293478840180449251664766879755441886153157935561535820111088850552403754694730495533591823233775518584695435580024972143172314375898130), None);
   ((4001711487040086295097359263015444827423615415879660516917869986518814428138951239000082857993373723389082703079783745603165636162919376110915329384304252571, 987114046748822477372669304765313309646555062035631366278800435179699766129947246808468934648407734219000613910255926765120504055821396437351034948007080591, 6834829293207349909902546773026394869801149100525440066750884608346505329905679289077747943289802903962991442311147726954224671709013290239817030435746654104), None);
   ((4354218498544417921861341495645112241321731050310682041180407505789298053254526779323911723374777048940854671722714749846996859476898375574090709376034426058, 6410328473934760626820707322928490331511906856196642354783902685105778100710090424807948014968416976393449189438920182531631529364732574631318251917383539160, 1790352151709388243839590879010997481203977579625679697226274800442518717074723446287939166083640746396629076406540888603883543834030807812182607648387809075), None);
   ((5233990067569919343637280470588212750548739562535441679090266305207095148199137432438387602442401174055136221087302273828162092809119605824047908270559168650, 1016374849346705328290747470190959173670764787963514960366561680350609439448805791701980452603193480702627198647907051257863739672828410188474613349740054699, 2447845308177125779966390230031720578933065488249576546232773275528586087377985793861855366416377391662519855835007287795953765399183539438443691859530959633), None);
   ((4253171067603186893821469900607537748000226271019445740666611037303543408639961083190088091481916611065040365100562966394037879195923552029212005494120999498, 2103912377551159125043851994898251384893382473635972786427184842796458173822290396663999786542504184021951726743742524889739914030997808674508863776776464907, 778361079255348054680071117322696158373129639206901373334094486411666876978898360537344151471837019261947091321883940784540144815199520259413897887263018993), None);
   ((4606873027760535405058192982749026403411940423280102959186225185191648815692438572893073378473553667481411535279760576350356398317328899627195405336471120278, 4910120539196853165904671088253998909192683825152965986589375682540055631820413375722911380036597736536984446012634160063046195614512067046335182916840860692, 6305910554047569299189687571427419187775620690735864321654906277433588413806812792437832784831465906053669495408513069476000974399877430375180384803193057426), None);
   ((2816304979238695464862760662855474340105381695550654258948993852123431561255518471929320781677481099631753672008194000760815302620890243679407250012608690618, 2502791823380791161177107905316282354153093306443882808910669309967546096403711155509215933418577206984929173117211634231417762134282583222136173221990772475, 5681251336460455004917830920935310134780931521083896673749082659751241119592006442557447561016612453581784036641997336417305472448733893446000039626774976206), None);
   ((636748353904916904934661878225765294912619556486565443332677615378766487858773778910331315508645853133298569423604446273924583741707584567514662104747875593, 4313118122463486438534161977395269677509075707553127919813208740447284758680179101502453124454231027809607752899503292246426232057620910333909838040135719321, 5356161388728928353636765771424036958704770722279817314212224984812048001189212230330754601556770139639474132462398680229049963970590490969043743060821711934), None);
   ((4724456829651857576397443547317215880110877548524215917922369946879325720243808168881216797519390381356086715833515247364061138445483889043980063385386380228, 3226777424479051062948704765469124354111116160258773677281506495971223774159431494038884706197329327681879535041589925914715713718934261505859569218454746407, 5885265238446620631886127674495096055562821266252658166415218504045434233801443524145485814736794297841927538236883256616745903556926827397785991118962903245), None);
   ((6591700193736226864409485335792718807957149064242002915261704624348569713005015044001302100879367191209242522881063192969942536604396583073216149644075928655, 607279193018570627044470292893554825399155742949147702259039114397223635917700360632089298836643633206315839241408230068464695834729340173743974807545385859, 5224309850880721767070364686113970298015657199871798926569413741637578161465497079115621266489647656082149491533642411212119677867918405589127773167733884409), None);
   ((5926140945503372425686842926751248243405846090266595267562776522073609142537629303501762750383135713054759821668472832941334657809196642089789331428396547523, 724481392895065152629157117028104236903218615077918700711536764333780264073176031032394186656707949015315311269303436532876845543689186617052838886208700133, 6025057372849816621011804054274747703913396533198188770076580706760804334860443890533644683159056856097923139209574354022483973322702583495536047659058764706), None);
   ((4058933676614096110389730824341433288120359344140431145907703070738768163268608151590553968878708401365806898724538861758532957953438955646603035060669548351, 713772335999051375932902369143999833610349282736229351310059388183391018780795806399831671711084328682066611751663285208130845002267580825009679403157696673, 1410267920845440993784006313139522035055591323388699969469304298474820970611585710521601325188088483449456685601300721273631044119161312621702641531234413922), None);
   ((1348021518550411073854172286538889439879861517754380368021551383581222830937330813251900777738235820072580097791406384667233328923919304140180911205577636188, 47055060164135796126197893403226252151003379792319434666720248821281855421634783135119523362415056031093075356465452603843353296539101256340386612198326130, 6791152785274577589047055397643472197036303407348588006189039882065044685656104458836160502782088894511951795339074287367414021877829515730588323732361572086), None);
   ((5264617384371868374840561436108720662007590732601357212155409259089388393303958886429729884704494338444019662006556185142295352218907768712562579513620282998, 6607269215435727150513849530053747937293270358511190355418171685386765416270043788518893191829308157424615035246855830873153995295167187150436906420362046091, 621727999462052533531933190909626727168689345249293522888215448361737692810993425963971590714496931365226537361214514779611994281878187500557338442325836856), None);
   ((4342416320329438726105440879375787038061317576452623214738672667624247311999367145090798196344765105027951277706509153097508605766731965442583880018267404972, 3900543451285343232527882609904277948700143338001153407164630143101176258789653870463700121172007605865323721386331044646967998464588930171412581132246676325, 5748545569682449658020985078207271879577491518272844182968152612918000210212648056998535631208728156428935366458881504413236217875698613739819517842921571309), None);
   ((4422565210931329611358068230331139003772135196747914511236516745365176428734740977487718161100235889266807508371443990132489426346679981332175899698676999765, 4789994915970950128974355189229510337107098390286962501760829699393597569691895926757586224979229558860160804991446731061294264396877266802278369622076286954, 471857659065851240166078102331813419007974869438097706765250839631876994597648052953843745617423867401842390532641914279664367216552804193485141946976346198), None);
   ((2308925737242949227801052621335799013528820040700185439296060319040190894769479388657186970483392193331221918202580808299771906626866812485508450267734372660, 1482892392915551099493493087139207499226719998919869079219139310879091946071046554746937754942947485478981105231352513079092538580087132428338598954957268975, 6656547792468234202513357217207102882095205879414549386829480366120098188870968504469283733708573799315653388984083800195686957245676850271967903272102199789), None);
   ((811641159592572447891840628340373913622057564662122190605440021381024466864415934105583090033138032406604581030427682719920358799327345153267905869801258420, 1699497681017213067800751770628032570610870901808510209697165761127728128199887812064037478670383206704763341955274944685666185454279988211049396985580283820, 5073709655230351419359749052150710958157532849885190480779501261681503847849719746390808720431663112947455886229020453211820456487727924327596013647633884173), None);
   ((6313235049588998191249536563620701823834950705517613933600169820834383229234172557148829554629874276403919806065021179457872828989476925743362729323147354567, 1023046867563304853338072088419307125135375743160530976943556307058657537054764097562781877209043714041285781580654576012081793167553635441329175009722504355, 5626715764371847718607059376838821377327157032648583068846710882511301173864873860737631133136343293612605036405392614169989530041824723209317250628707340692), None);
   ((2121046783649729586423166449819000047549256686446726399268323827554283702012225302191417472649483104778250820699701654853039501320415183998330562683001377037, 5605939610696623928092433601858882632091714566507496848083370490157967298684480501311761751642103512669921727897035754786438445392405975786493852563641289955, 2868333751316623751776079253628652768503646156334517744543296672059921985893619555310625526412722707737895941404945311230178403864253026272845272110187337564), None);
   ((1782264498074776723341277883757618497731209901079844144346625884405594291379946944786790851137876681947962929002913559195730367368723547362429514631717637858, 2501100737278574552869492675812642179957642473496935595612631353142878279878124576026915392356926693310465579466861710118986792928529907098466971559799317896, 894934225414265369591439924658325741700146839753770721179077843867941567997360224535560688990092746048222234629301196532079913869878587273357943542525237429), None);
   ((3564316543543590531671066155089532317798692022654491334836704132243405662128845581264995874325319667065160540164898993104198665402272410222417785535569653571, 435070770459973084519366555237779982989548658244504203918428405292638141308481095235679746727122441502482181967594275167361417515716467464908615323593901914, 6800869261444986490980099879852735974472163248301181634468492056186501942925028459571927513476671605662630105883243750112189315453150987003738431870505378413), None);
   ((1170919472711513365235082468692840287919057028139901046888817683741634373511193357296413814475839766502984092900556252218627465501523967970054287796657417363, 954060431207457240860957323944807034075930843919706231509316266270207812192216356951601940626082501215806641231966853873688299949560596751532190363916445992, 3829098355307872756595236237745421121823333733809461264632130485046280438582077295939720625959240994806455552262282879060312609655084594841919289607263432232), None);
   ((4825252954840186270915380798385859527543167463120238888047296788432889739877608711555018143504228199703664509008404508141735949034950622941710159396893559464, 3623829124947011867647181884871242161516385897845158836145556881291923871558768497817170876340953935155822583513890822769383648603679934568251686954052872257, 1476703293170767875717242398101884636490522870378530301792256599293181060928201776222520714683378037988423381611463714270701960865690601594386104561705177950), None);
   ((1711145840909503510394239280857028189030296233908373998401501831537908382868801248877392922112729392520654945830932555152693790074367543798216879870992664764, 2088240944272381874651196247287462823734395823174645518152753087068002874258102345252721973689786700416201019515496316898178796984728579207080323910976225684, 988430169475222655181581895368059137547346187041729718043900954558284949997813785951146954655363883273166797405396115819789265821439535031798996724876883327), None);
   ((3779982154128448208153108385260699815474481784489276950176576677657805135628571417556643978837160709801343407828383572053588280812763335215033024994502323089, 6107613305859940780887000127055569435006395425847526131754912373560894057035857874159179778213374247385806118819433518477060142321398636712466749184990868319, 6624535566061418955478854190766772409336698786934344681604666157749989900142897315075376404225423337210377995076497000241092183882381455966082623591102809577), None);
   ((677367444260119834523203612669166761739646750935239419762465467092461079495290055717600787458269231743503144258273432270389904674281848555384939838796921063, 1929138689501552852708558721462973899261162574531992200868953193466075482416265230342076956689302795905048735323478275251007734874495109169184966437821291843, 2634703703199556521580021561233575476358908703740962002844607411512965075137849962754415746596550717171525790126178111061144043138875236036974829941594973456), None);
   ((2594515812743977760958679137872940200698461915563098797689985044696651933628356679396629615343950722352124478032689556744792031840525871445382406328046218511, 285245216440571051153722876405194869844608855243416005924245710069499858135368052695818211561698517823229615463694422129554352578309244390279690987107326010, 5729895737964281915188444262278332777910286519188673807471633549437631237190195919575442620134527344343186305618938765563065354137244544624061132904217715648), None);
   ((260868083639648835015989012488028403483846076618321227200508835480428588282207927323101244805510380157871530689989270011757133045628825659425078377495643273, 6364045034932555673118170273331705146910577277746950900258641332744497600564867818149513334638681180971100309238988328580225856545874675676146050705077934101, 1399370167532106445943757857621042987223364255159337385228794005068562382746033768931055014354969795941854847007058148036297951342876499366554445855276433995), None);
   ((4404674607109879746230345689148422941790205095796211626988463512966787349200590259320599127836158518064331697576225740424207649262317554806468314073024985055, 2079728473879308976512334227323968451952663376553699684333831451662738043792094700182926288298732919035539198602600567771587114956959425025561557092257903141, 5856532171717119362999604018184846512408818093337345089700212312735471052560192134451693904613359117359245270389143974276379447325222286694286398074688782145), None);
   ((3475944232384988550799881179155675559218591990316828420754333058904401415512251398638167827653036468820869466967999533608482848298084711894615140969320449494, 1117820587741480299166615522434358457769073662957151611128861521686609915360285566990147279573670602696885443931434465030781159576089721429655698657223387710, 2234907366025067731752995852487977004023351629987424416662554029067452284056800689336078363258540829652815690569628270746734982988769288645518858958979473273), None);
   ((5501920821405138432745554291649863145676403485549061947578721287875157177213256268757546737594667859613659503032777145921197058658962569765771036924722410392, 6095579477900564053158790622830894613142037106984227633281701137836266645836161347980008063667984115274208058946033813779030904057480443602257095559660977108, 2874100653548207776844023263234638941101768939140279595737915347179279132606588344098634974030725760025609614988130892452834899228506526184401197827659942972), None);
   ((905810682680379592414551516523344374443060830387503768258494532758938452765088254527156640221455931300824781656238616230342788134414342740080761039870236503, 5217016413002855104298842605674658273839993316002713769560163178085234771925054055533171121142808738899286283882536481296649608547380028704295538422055812668, 4923116767436326279836282329161901034705069483586568838267273721588286587157924777069951064168301978381412623476829509865475456331210372822880236209960928230), None);
   ((1381250130599605204196452792330716712855855300142296663382598829535619991001744994177186203408673601894210479503204665690879056302056317978858463966820382287, 2216310039464595301974151369269513116974748481490574807500315705702956697969456790710035790086450384526415090474832039210022238852037502397887003695125057524, 1930985480211561743502960536819402789751507145953519896032890231857558962142698438233837449897474583475726482731100645129753578257993935191074471199634387999), None);
   ((1839876807043738202594090225714769937182134440393110587734438712642505947474326841685896286258515189430067628925339365528829782358262445326656975927360990248, 4271572911014978479013038243011023330785880634302376849538444504580798441669354168005059513783014716022596093808732930790400342902496865282758883993063312209, 5217885002698500340945783823652101940135639989900517238035799662836017444813783496522337597412208439898976346318473844982196044770795154441456501857517933987), None);
   ((2658619796845446619115925036275303425345532252771372183813575021124996819623151872519325480216056316782996889250395142843617345884712286645780940027705375165, 4465207740671362430646995054492128533635507311582036264141455260534641015685402935625407172785463270668159275148816256671112387391517894687318567306521089690, 4240046498966383154474963161410402411825314785492704680428403449101687779139659437007333101418055421325734081741168082791117567803536856857656184839415804438), None);
   ((6170510534096360915171399728119576506662466497434234469895906322039661811042561283632828502359143693098278609070146862279165210822251870254220390327057542178, 4316328242402188698791739558010760900857260582863838038073171387982015864873048616624057884581359917840181483693642278730769777892777037167742511898524542946, 2254810005018338738064151459255332545289207996676368003270647351908972349677722715202700102412229728476778544381984332424156707888933901668138697296877894890), None);
   ((532752402689316424399211055913652510463687482452793974450907615374169048290553863497377666200635717733498098179637852236789719481118341670392010201253516207, 6137107617843420340778135678283660656456840480142110790487343871887469398874127680349107144873498015333348919560639501289723197034617238353209098981084141176, 2801089615614782275296771278851143790828324733266917535688774855618164081178949829843351936313086606416700000875395972616453545894301124609481920006121893787), None);
   ((173978570853791242533166248491688663267692396491881206538628743882171451006880312586986463706296612985286254643438609285516265823081161242331914593203776243, 743716754534412993272824216672747107246644131226895572784443729402651465257293929634073146212284668217362283980969315475834297021662627692294131164073506480, 3818797567067036316696910146082274829892829780280399109245753426092671295079355756289024025127438158079741524255560285897235664033070136936617243142109434966), None);
   ((162306695505496116694061956078749975423279236996796154531667812847243896427298655671856745742996515705748252880805307814292372176437851079406995419064293901, 670348407135539326070486283313365598778233382685907852149447551575399621418486427789859625327880208912841588189553777659928405555238947661442291379428251815, 1183572820758098219832209215961692639807510797025974310342139592922915850235247598640132136827168558655592301623412712131406860048471923671248904810772199031), None);
   ((4721088145654436443050555872004416915701310613711442231982667506187388032692067939008097336950686633218064240154041881239220077060332700383147932662854006286, 3042535127321235089743736710473807759598896368882351848480004973227084424260983657656751479733996511700374426767581650812712679119460872532195540271593636528, 3601219424900983447641450911424197109142124379604934553604287600958816400840123246212847482305573875422172798358624353679842634110521539863859918349710673387), None);
   ((6418781206739762603011632013306442150774953956407337587135380444827322315772231775823249050993043313260387776904348775029119034921988734560821082727138480058, 3909001774266134016706544500800478207390972677949532079070650938772895668613450975861697342431581486358525295763393186192620740958561892393110054187408564414, 6296389496919710505741027999458929265428455397466991075482055356780355715345175526229097797093410959282877716699776292536696995032084550920204062934975941617), None);
   ((4799282768881123118494318873872912055847393657010954762471457775772845464727746469956430014448113814505938304830508339730232273910597362549926595694535337936, 5850880708039908232095289134155410230215337431821923710695066390710599238833912738640042757654660618598931503882568572824733408882639021596019239986704030230, 6368934012581412937169458627661827207276088008536412529720366016959429186124434227763770816830475480568154556719886835825335342904083338790383182695936917317), None);
   ((2375266958913160184650873507424801357848840132995053000624617760581379488107443371358216438782028973040639637738141096254036354386925296298497885626015731696, 25471551802005691196266296499962835292337014773788459761370237958584517825254576468949969556302864315950956962679560641242857342439552273670061511265384052, 3114234434990023236044191019503007560374912115095141206500647344077943312332825212612481834090593142528343873095184191672394080282653010167630675098956610220), None);
   ((6287717298000105266675870503738791041922226736750576923890660650252150859866193919955183064412681326676508426345387110243643689322581474553132659315937243436, 3034921805141678934893935561291174838379562760454636564333586919372307347972196068922306619837835159874026191113801198173698341485367391825063363406351332947, 637517038449832656841014515539945445667993007638414444826440746233639677280954530975629062343194075187343027413604319743567160414818449626506303623238859688), None);
   ((4380436718418135502925444821227104314267977096375909892257536502415814806480794196721097151471618682515629876285190942040046181540495080481138095908785674391, 6054192323127303151879449774056221578283035180562290502856480080711341010909912289632784612789752541961538948303363101622081871498309051544336437637888956582, 4042939592008622401244019702383576453784645811122888203067353907763959299834326555745251711507671347295729655370522379463131881957200416271417954515476222784), None);
   ((3878641534312888416762773467808095463084759564393149070885640681827512791091597382722311629890668609652172725589186909136797727124759685787229706187149522271, 4831430036614777181339458949555384173179804512592782376333418620749250479084361756123881022363011264031595342501368064382115917955290121792295336264972818380, 4305462395173349106572789590206332735013098741851766023733926145271435639431974498782743702408881785981351786348572235232632044303623191176640354622997759507), None);
   ((1255833856132068069263957413503431673267494401512371170104161919148044532873357036685838634260400502678833772537570286451007995362316959351476211135008567442, 14370986666482626840082468203155726683431330354336416555985464329554581771261360896500188585393778457345969581247440503185634341561297053267398002341253788, 6512217357114276062838981013582975716679779350962213824586322447193758893626754001124379170465181774338505449218701368485348635103227246685502219756417188003), None);
   ((1663849468883885534658670530462809389059415441056351127636118729469405951217509572129416141526903112583065514873126662067162334906326228437138504031228492303, 4092849026084044433464009582837638541783577804802768860869133638023826003926024872506375232096280569924632410218919221244580212889186871712041688167489899109, 1827939946463725548069342295854945412430700230867724082182121290044907149757711582983275843287502465202852540404036759306839096785332945083936699274141403166), None);
   ((1155021794247555093716530191920199764637673923794095256545472658419189374270477839060638979868731154625288408947023328937122826885735748169777646015329477936, 6621823949457097513236309364278563824009549745118613841743602541914703516945148666944209219531667964117501326038854049565854120422094205170758653095354765023, 370625689024549460512715263043121143404163445856431502315289205975391959482417255873725504780448027356012408191167082346168272832606314222269228734791537870), None);
   ((1362679422599742265618221060969122157057088418708650333712788899974303423385553461386689581132177956032459629707784208152489244715743681665718382168403023204, 3690267684118783921541164979140603135790121105031145057357102502656477910127745965926521218592982694805015513752166125795322645196022244099148369458579483449, 4866501717703252799317103355149520663445325502464098744296345604925137150144192088997189005179146753649333042586824246929304293689141419103769970950118299783), None);
   ((344948026620197772118419268907620761603808567938397607951847241544135862133125347330784988927611922898828228709331522550316238983311157073872366455893754176, 5883551867335064255842409057874246452013354283866105482942535348422120673059888373507960406250640301861354851996483070962015266763010745242470354575522584166, 5098254136391307558713462805162209458573574474298303987675916828986846449853229078090906735121420964034019615981477245579980561863609435732665490849417991488), None);
   ((2765176034151324969214730249764151863792938416564338032354751430816697012214177794524775296168634265233819682226692097200942001221253521844659772075831146182, 3739987346956429446967685854544952527235769569769001443815171450160001542821950472274889298558427432392300305192987874932732563341957441263890003626475186590, 5448708180169239409297782866409745055803681578018522090298090091501628765849745076828678095796859434620322672059426504534574373717159403001136372745643503425), None);
   ((1807539205559225529057583600539020321886898526751093629908498805460168417758211765921478923912594377601744092970938328688422110509000534148642167718539198543, 6426794014882192274761662480823824785177208788378198680811803634406160700246789912046478188474992563836677574585223771148659547336256236521597334129193063674, 4961039478645738075000102352675180688830075785998340894772630182481530613016638007994619382197620012089374959851124257005906045800398018103954029387321632781), None);
   ((6722079249037064345038403286865138126473743287742372226173672505191570638597161703387152978310919241290654795975685735276170867893107352164290580309687697464, 2137471202269493616420799634924882907867030173911729583610955774269235919528695707677616998989156556634067955852093670058653946246275895734316327283483283706, 3392010608204428246034080636415284560436126758755475182168297004921388672427400331005089000351937517872380047435966591515615348158906115869142237960690856510), None);
   ((6227085164161328688269079695847541399438765160661327918904330127887889776919553596603781168202980947057199134857978880090499249583380852819165077337957000668, 3488000013335841454471603811921678204572768606700870335084071796436183882297444355418014506613862338611863659319739743473924543497820366472134766612719282282, 6304168866373858671657073379475692835577951399294054604873331764282214009872034425724519191220239684828007761359590739265643554724818949669519157473013096743), None);
   ((1012231511436519826013799399380896495312980287754585895617103279351363252322733649688797825253407088431170758961788249605442842994700482450740459498183592924, 4132877388034519898344533786796293903441826121021451804427596195409208120538686402545882161190190508303315035607137955701675105198110739765566558489374892165, 6656874278809828982123091519240568226009079567392306622838908467057088898372090479010556270089767781290795731368414024256394459633079328769125044792229156104), None);
   ((258811134596771623546609701757867069910660600725571788264389138003915185249573856531431319987702306458143456967512234089840135691774426889562627771630502327, 1992486165388229649123514579817152823516169912465061668951086122670602482556501548491066322043718320306310173594405393390257248284596432070453138051515216921, 3448376267416258556601731362246746487699651722412643597707804719588483867271965508473287010596988558545228881609545522127322179172515896861006801526743222288), None);
   ((4263625322113591754429045598337933650021427756787262534227053041468458605506964365215632110103284288281544507859222924838809891676618096661822763491472221905, 6513963422257039202722633848917992650836416607790863401224857500830281465623951948248583852604008828350296695850320055091848595534195606322900167004291001222, 5032597476094657822775510868986176680332295885542678618814042532323920019064757609201369049383185004024168093450548794834035663260247487945488401689111551518), None);
   ((465891256726081086852170100498580550439040674813723370161280566306872711584158451300205691446652827796660279201738032206855195662222150288691446978104694817, 3821500051800733478613945804854661325627058106237464665866651899968725723069294028842999069635306193796926312286186924031568621899102491458670438777604192962, 2683354120477557688544458470956429710434396531008982489870678944717657961769893545681477919691908886067336395682397452687272081769371156168513419217281716388), None);
   ((5251403009692245430127671804820665399090144762803645832972468365952567669922998026752991455542404339938122638371075374272943630219824759897493883180311450017, 4637944422132408092830483408697091750008037850526408326273188155535230036881818503100540218706410943606909235337747203511947843669571766152880941145701199886, 1115354306358192457477421274678020324570918423994543533618925772629675876765952655911661390663518555936497457976826315721664347619913225056753156903694186393), None);
   ((3263483574818204307506525277636255553037099543112054754711007099281233136231135438494913165673324649506133795469354761207052416694627779063072127210904598371, 557430143913116011094836634670532211772248337063253990520614236125008203643493030145401041513741027213861734139937191038037951103320191555465234737835304723, 3663976011958031016566381082718971690661783975574023652006612729003230095254045309648829216639063678132924091036411376387595515266308677877699572715092752276), None);
   ((6094546841477802442964745883007400317591309454123125165699737200410441681997744916002265961922833875998059036338936133015901802205559087625348315837162340993, 5468731554108929231411941628653665287380300336300541444517052770616731230433379543296861091342053005537819253046791388996206420282914870025899746873610291067, 1311283214446518647015808102306973472775346226243840171105426826478787723369677729299782147830619139352158826031722364156061495045038230554187775010148430801), None);
   ((269719124025890475894007676609528680424502636152696600408512324268117959083060631533288939939106776132029152750811340336944112178996249912299411824464885099, 6233154954070902444363208848831492533250010370399788433857061035359750177990285016178742215291602402284013199588102479147461352044059433404564962518430221865, 3621107978781531975261880660568089590416957153103068652901034113286842350452821374421225311070369145430542003231316411763099102047859571446920379017840605470), None);
   ((2867288532837878639422439092445972229106911787864729631621057951426210465055343970882644795041446839154781072722446216968662952929160389760382263764945860863, 735314888707134378250176542524946125515582770515314485353313178753675445946746265028174233952887321623868655425308886800744859460648700334360869250626594988, 312792786879566333485685222369489052383817848184694363112655856021724531585592188710305953578934261342253740586081921967662450116554425736906957518214007091), None);
   ((3850386813011915734033763310820891914164001091056544598694474604718146887535355206733831569759953978213668262170980579652202949346515743198380650936846969509, 1277844343198222675144136989093928749180183157812613802554491240288398472528775122312237653733841414900762703467726578075265473448800903391392321448330093194, 1157763955482371413239723611404306640086311137094047160193719825888800468901540299113288983088234128970908506915100551466452609492364621568724406730019115196), None);
   ((5465978926710525186195751559358278242581418814107610536087028122596612657853531885628296008767598391152153792423455173667693671763446748977793151240266060230, 6667035365571461608058675286565583318927794077989228320115609826020849135319887365106956980481709905993176317401164082167057663318914611091259855062372877895, 6312278743221056990834012046493697017993229899731415601555503201531189589351719132214019827346529366860318222874805892201666220500863113064099099536834072882), None);
   ((1098809706491195806385400118782923979613406791661492568517854852998125494551004855356496476212047885706659918237992549546147555084042021898249897168568881111, 42213063871273322693960070241132061741640158501050478859612237268463569552679459074989198087557726476457245722714637444113354558223843679562105884092622784, 3447527952398039735079379336068147645996137353170105389858172912819024916342221067993040334707796404899484434585711635827826975246004637219433926456902829979), None);
   ((6191038851011173078557592026809233316628432817272823880227501740322745824946113390795216353468845878420265354155713746228045282572080911808795979481773595102, 1407759425210071925885533787579070575416203192072092049792220379118542299269580935699842180401927081469931505605020868113338985350210683719315615208673854341, 6261119422545797802305795197193214205816146092032632591632453481802089359973677222141693001061754696396882446175109696653032471181063869886885452356763915264), None);
   ((2712477273903326692697658628467459136255477707297477303641952872037349208953919074434502901097619202553890370923080447266139257924304768315610006751812351840, 5275357906887002645418473260635162383554929455522933486019476220126051492012724951337523376110618642838289928162050702591612253942739756511796949506829893476, 2322489855838053738298619032050927945709488580366706376697880192729257002473234458218684042594606389856214399355561692461902799796943635599539247485305773564), None);
   ((675666445706018493867067313502733557968934591646676738153712841701342823018322275161078820388121901445726757847014759904403769783657695151171638504929635660, 4740076092804384076118932105346903465733029103378487682141156672326466851750286136464347304377739215285035589831466022992774227580974889331578873630608628143, 1486308593111519951160002362522068386382957830085277294801556233483612483976084625152823249283752291306765403927915921801370476464347870726042887339306957754), None);
   ((1562439875758560242415054341611317757435996135747031708128374129889929571759077812049927158670995906201274923486582064977879823027221886840319265969709339098, 477043955547756856314045757367552753063316783825430911442598440851757634279172556590672803458840201496801205118810911799135669681438188117462576722264695424, 4751502290907791180894438463366733584025640207960046884862643424622432394665687510507802702336618671687982700836673557913422186650065718565479899317958834878), None);
   ((2109438795081434321359216001682758180724580672816422372079490993633866573030942939122112900034535292215984726882740226714954075100836461774924129062355849138, 2913062908139161304245706436734521904473202867761848427702819678816196722679562368096180546087755462570854924236831875664634102097411923831967349951410730556, 843359411976097717283846222017331520312944974284053577071411915359775751353804520855712465731238021280608262686516178822086650828689704985540552843076361334), None);
   ((4595688925809022199490660454737742638114542981655245093358067111166286791756097664412838784420183673486762884272487716454158064158067233276323273382943126876, 4077984051595840861356443254230120347752555996293863902689252300848265909350584839896744998709125209142580824403045895516599017632996485845696114567674540972, 6638006450163743515995054555484608565984724514313211676569537673642339082294080400419713719237203417930894425508710180888106499468314518756477587694349066382), None);
   ((1868945267364369361311825085728169487408198996669622864438349040086357226735211827523518716070486979604559168546988592525427199857301269048898505994556316970, 1415526106117845348866523312828500340647265485735238241330969179849534599480048601031300566938413126636940440646423080343220864269907449494179979663597621897, 4416402254360167577191745794760096611159437553668881620586348168518381999794062771460954499292248820915065103084776962503148319046302924906224392696895969076), None);
   ((1571242483578334008072053876929171265256843574414292156063460975576901131321529173271873382379184055370214304841767889971215492130849556277816525042448299424, 5063065229937889299979374060256541881617605206175235654915981584754771225540225522882361026795840164502524489347891773376546076031983442633887250330751316186, 1766820337716353479378697746955871434799707490551797642713230755844190438679692115318785448065803376861856375934426497870483285354942490324963350888064405851), None);
   ((5672436225822321460521026912427560572053811909853168219148186302446344471796866886715330949478162386482910583154158357479239503846059405741672527015771401470, 2937074822480144517121667186552929504389415870975769435956635169570094298596252928067161009115005784982495366647451404371107471363278762176360147111896875516, 4172656588135613732761081978506168892626147481216058027038168041942471015856033009393418625992937598044528905453045071431247416933109417972123934992820518061), None);
   ((3588691979061216602408693150372961377748775010563048710143150423797017744606449947836309967783190606990631611289005689026942184470874317644719942709369525404, 2563785397846394134431873996317955882782196474479644108680270936107786935184505433544154350101695245410816759898024447236349993247438002410646445294515364556, 2506645638822603256768313854471020680249794484658900049270864182060940908334296762396208424863228904222470517801851002189600233661745269473601309666938591307), None);
   ((3828431331789808988394769524279811718641802061494342645249960736566805861121635135757930381022888022442698809577111363306806944671842804821543486129410736780, 5087248313753041656953394838025819316781215595492349380839410590543909459996440896864552187013855646924224249570518104398448559383056053461298400019198931115, 2642770928434307987484882349107505799168728526934479116454776345847845771772777988186400503738854286307294262357092052193655054629070083622723605431870139047), None);
   ((4575779721953820417889419488847721904567535569989212202746111278958182833340442352902468024362926505423985536064952618546012373391389229928166411694473315829, 1480583834069399313218985846259006055452249328396501153125332106289712592733266594899868631644382124998739218281174148796771289505869446126656150499866050251, 4040137313594902334781588786747208535406218053564508800284095765032925066544827539514181267548926259391238235457740759502017195271199079274936555189866784899), None);
   ((4117687133375742462301725215227222092681971507889396232014808132021656030389551204741463306873260269787034644829545273675085357073105445431761738372763205645, 140805610084333151206493092942787169868953001609184468084579296339202539349839649311916890448256138565115203480276823461247274161627246530984966222514769121, 1318810220398179045458076405928721257329507018999234054932686088172130870082026274265161893236184759956916649713542762145977783670016595267794850503069142562), None);
   ((3275543645175626675828300684817625185339322585121507222089615194965343028923231417784991495865833886143689783610370160721539597339747283238060848777131968656, 2918975291579489997196101549320737769818623461143093720808129849338890886270399165135218062668961509359721016344658109027545602156349286610498534323256852479, 4200143366711468544686622522813652883254144772608848842368827335203475054215779459771609590460636628231075925610030605357712402684591193861451672189246753053), None);
   ((3551469033017294734492039229967408589831098802851342449426996774967866953833710270574176663310472081784238204161538131055932277743559727109388113815158375949, 138885912061881913403612425208204048048855457684525161347852501650589606816854315266458138942009422133889954908706628431584482206834923854210677318270598757, 5516865811069875099482011680749959572545104090972708018995022256873216464489376005405713090833995550613120116065945850056532181062283126725881993342691636823), None);
   ((1247208866128870814134969061779257519732730983703007680732951677845291244694846439929232684205761354534799898831638289013523763936500991251022254258468818124, 4516792126595924324297771929079068089739842682473039196322914499264429480356141584731203035461178758747810836839984640564179903384405731661372885424980504442, 264541644892494004733335720894630155619328875519914137184775527484480926207672697186513958185074384527468362192303764946102088326606388332316517278905363515), None);
   ((6458274099962938721566360999533551814685362895136002513993511158481011761574271230627290764404262691729619789176769349016862651544182717493425992472389676988, 129106927785229008968901569318620263360486970812722244242476595600433107956550687056876593173491930237414586540646819639166337880582967117595676277218120713, 3030881130109859947375358893508507155878883293705689928440816689260417907354383002497577824403070657781586421410125544063147318901984486691307036722410097731), None);
   ((1391547989548449815684346801749600225313002946940166488433470983664908051048428585453636269273863807756069672955878890441808437413008564347794716657490565328, 3581582753600148971944306529494951656856799356303217867479754124570670163425395024574021173992486631970556138751008837865241753665736177451988422252064566490, 6411708648856679329755663567602530860922543564657152820172650285100720341583683714984068817210488009903903068785184306294386217195894018603486272476006060530), None);
   ((1526828283072159393772838271292929770179409971406961824761219354086637684592469615992999494863516771962067653822271816073050486886170702875503331461025180065, 981801416693027828140926422805465033109940745030054426610676578079836132090386031772883705372857051920791120857919413696170094088820023535645968525062609303, 913137195318792916617772921355190869302272901887320264350965403605938276253771830643377498420177779111473531303851378878056696376399620147437667946942911866), None);
   ((5051904754512959218718224958351119546503182975355431721137319221340040266022070822896277711413690145656143662454960142588852553871299794893201168521807698087, 5440708829536582783252639957053926779077638738981026171243884284184978491637747123620183984709731377920952982816766811485089880829741373632192080120750757340, 2595128979153361491585866228646535547632959281863692663438011580118251130719726661670631859852414089029788289786769638423220293081822194722447152416202514750), None);
   ((3833078866827809510603766218107264290096327345642174612434820006741039829696445652852981071417153642075832159223499541116406150761843303012561080672298354280, 3533211404335818136534629821072113974237200922020773367376844263911429898678049857481368802745861502613318015070689902168427750069376038950508703928729557051, 6784619941378005692121476703559683043546131423792499375247524581357950224385059399785917696158050230686550485319868438445017680703270783779435892128304965539), None);
   ((5350306436673483371404798419042973177632126689731356478833715381106007387585286260709568539365991504279905325430030059348632455688737914278866863905867262117, 6292190722577480885541848090106747150401251334663976787443380807781922623552708229276304405735473529657931804634191543585872326362703089488395765882629635637, 5193264084442212729789457358810495358720917530136427951057266543015834449523404719013106783822848708399638923987943256643733554599710229642597391760872203676), None);
   ((5146462128314464545724028691325000602451459516925331988555778489313261178379044245988133308443511097741318628847653160686712730237220333565984485179385266320, 5677596415161842525034482737707344924237738201333739191266240731479685818841561116756570330212013472606733905673779903451695251391755949672587398280897578029, 6399330045352867320447413970048876610811907994871357487078902948567991812937338204313858088844823810703805873932925842864115134029724288686108682642986665174), None);
   ((928575396430353959915705410830679735460974245191044034099004225896228070875422175093827152618370023465648960717706963930403456580936624472890581659040013250, 374690980802512972109158939566912360420351209230485001238331384171926468936947057939034657837001656546117482447637943292700311743105843474452795855754804904, 4939180179781906457431117404480150145532782414379367231069445554666861994842522617813189471281449224018380279642908549054398448008359477748319007382717035843), None);
   ((4076283112869695786495806303238646915751163102822519178376323258488836332135714967652458543128764666747946158391137337688850834930206846074449852780518667699, 3943623960583618860523145867071109585868104446920181712489340813983051801179648485551888000925667426316339800270057592837233790165908496139095682900666912475, 4681972990933696190210494321859391444624423413422954246585836424358280947835341124513105710814144363454646136963092624831077073906367421901149310888232671684), None);
   ((2303933671442454072338882220662439627487628795580113445059677920775983991743766078575613912963834433404819879084116819638962578245952023359081278015480425851, 2131685167201084363068940050229019781431181680587028624095899110029559125184584058587358033979558246751127275508300595065543415223604255590957789317486980400, 1496418424480804295714369108349582893745548406424990376896536229865259883994437293311908687839945867786557397687098876873969575735942470385316372884888072053), None);
   ((4117780731067715127860290518390832400711148297533339456258955871970608060529741321879729415154711016982246740575665560060555035537658310669060140439135907518, 3554508025679849642520542489112699504845362390820374067721267231725499444739235103975631104703426008919726843166724890049290795119680977012735334199301928815, 3480300252387618139146310539758073945249135851419901940939348867151390656843876399995971978072820654225189303502557822978925733416985861451376710803625536559), None);
   ((111073029334561005062226681424326098748531131837125081016386969736464415190280799423063471472106323839711503928611603908460879807380411565349809475104015793, 900765081428704561839572376662592509473724534479407851237569221454757021384453855739995646082865591301989243028217899211090293525278555201042931736727972546, 3201284154171558081760131794781733071102335462249190512681046791666432489676314980940252301530458214563292911246537307151985036649421850156015876855787707938), None);
   ((191557340251051894750779189189147416693412887823789571242035225029910949386275818975160661609123914340972576871735031905385487468589886793375852609456640645, 1285633043068157630952512207403181130706978890881859378611704905015439968362319232970308607443734671591896400721685742490839064296317128146181789017802862943, 3444434551821369983854346046117066697205560665303231022900773581587855329314663848243869028385773941543783810768644282247009348220870763652672550644019655600), None);
   ((2126845576252526193879728750017644537259854154324171769864582894124469774274571610375709736676476300347365651937909281133307520613750929847324268209239298901, 3229451600310518484099022376311087733136055630749522125207324109349150513463733012199803377335833560984829512976702638306860562038056584935078203655480843036, 1992549755399254905613742598742612317468230815852038906051806800697655856724179950480666112873177740991236312594467640630591204959330130018124061099993000166), None);
   ((606231577739506817438583963879171668673562150824918304695581799287539169732266186814608974978114006371744326223433098993825828391173352223221471144369147641, 3212091783331491541336150754333832567721543193554650207779765911770046798708364390285657837420611356208417727846403354997862229772185939376519970160187497390, 4719930812401514886560171761442484308511780444368612194464869632687168934360811078637323336056361302940573717136228930192270690090241911726387888777191600504), None);
   ((3971610757351273458471544877058105977227576429364088118010142748514482244140176480219014584606949723101895879887615932406184183970381453860525249915537582641, 2602623719607778439223790818164744155604901627717744222780016455586081344466333232282472442723751591984364321312746414534325831722577368020822562568889239498, 279652558162150548405719245265251568550727610789286158903774322209870765675195049968262470706539651182524947412804182946632327888906536326018230553962122442), None);
   ((5383882624711470351173127330455987863809999593080360204114308202876929662344822103918825413747713828670556552966427319634042083930275004190248498249322121789, 3887675410999044962286523234289989711413186203936558219913352728972471826055760274367999021871987219544673247330812304224005927764418175743883599880268223712, 6376048828120027739390840938800428433075077080501459792356459368237649425227848865989685511093430782907276288243817857527581984284581516538661124950234714608), None);
   ((6483674370833590328355941095765337069357153149056542417546674049118090233349737765710295719521626322790299921060512233101585208158942997420206276280718936145, 2473437392355875462769621874938240537484564355136157939342126545792078691876509831723909722920728229098064557526682840432538898879259471435796647717298668790, 775776352478321627292348063363832847729929604123651736245239445510484985082569036947695624366145101704574580374790345884643279780517168809151057642080236576), None);
   ((5608546212244574828964394872839779123706464725452098548688940740009861353435717521780361546917258373945126954069144882340313229652393341245375845151524496421, 1904849458040255383516238536602433369021711371932369490008801086716296228418662962786548204872254301798038785979917958977291607523275603841989849380519164446, 2673346972941625890786327768944179223208163645564526550501521604363307483768035354389918909136048532205414788488517242677706228492690310096288929205359442547), None);
   ((1494969964649928428281479751129965879278686694770363867405558997031080673121490355787805119284240941569556726058661579264293801848972900965660757264549813512, 3621095122616088837234202638641730292941401824083422374416717582675599265054847738589749244789681959669144401567907521654641777306754036666249539721466332299, 5293902102267624418405720267238683650650053397113670710468168217937649483396341882669076149935431810109686649635156888433793782174865786512101592930478581368), None);
   ((2190978552870786550448363695615056692775648827784728270680960455096887756982196864463780840264413534270608278957668056749802779057491620779530747749008457058, 3996303381580552149795655883244922564091998059147236502214895147821558518420741028459432424715642930226089055283860197090178462016911719204824365602536292618, 6844126021598520594365079842661917958369130241808901939553389262259079703881170117102798692683250425903716130460172384777300606942029685077396169460645814251), None);
   ((4957567153189011524134964245959038579142832131345789903237265691779870328863418301795372122527587443686613351385807586670528135786046801127172940932991816733, 2133181498901449372435397935093262503428790813749338135355755849010858011591634457817857340820451987898467457718736552081522718183998351207366633972086606099, 6316067908042802791688911813911542717602161283519033965291878287873513611634729485579628563564993999489472101379434488440887796560725183754673265915755563079), None);
   ((1852070365681016767821564585869682172216731933813340612888616103403731113543412259596692117887949953423155429640653444882778978181079209464548510014755066627, 4448883343495482644532120485848367518999023690963742007001390168494451416815332662795390443849857164098163236020261434780132645518853869700980552704464566214, 5272806480524934618305876400243028913766655310478131327425277281435827952748184624338367186144249200249806506221377641578868755032092844536679496212124150793), None);
   ((3840703506186227940086926597249931916550040861444516480311291316817654229386318615193813426351464752886758915629263026940953271022915786943751884436079675063, 6331237536273907997346249664804345754238579126284780868885837900955473324930569424843392073935245142802590686309725237695683562888319447545877635810587891994, 900261149272109413732674734507344303266166476990006095965614662846105477519318398002084282522202209337721642217083565153138387111664217940602662371684742865), None);
   ((4241458175073955468243703067716442598729331389921506292441121582266281226328610657130920729400265833967591662774699649062277854843781712820953319123380183278, 5566416167384658806932069016809089953970134533449692478039368274014972401779401123216671095020834255263498476557477692275283571752594713193884416194211546832, 5300989441245321427219890105272590101929575759030950792577064794518516408294729766752614000422866565503195571064009030279621130543899458047889691729377035256), None);
   ((3752170998827723354701302492239826141442897602156731486772808311168378552862076073421502440450785068762195232545532693751650235851585987492179856489957616191, 4635147721566228273816590072283861010611861270396047282036448135881323009244728005468561604822295754842868724888885447874008566740308496408538700236985890952, 6300238628594299024977844725561374710061197820111132774584445511454743302836906260972221952885692643540148208595708448388409413804181587656373733603741829049), None);
   ((6219251023420672513976095057896569425950369896770001506247276257086790418932002799814348033764307107539066294323171170775233566685293023449738265142834598020, 1748265076579632260597472090179839671355594842537340820395036013379957251422323719476560899192598856058019737909475539759143505061775937265606912220064217641, 4738720667176771700217397559779789066123368821943315207636172935776356866822761305205725301366932933134880453831866826786408712342269555395790552468255239386), None);
   ((2126061683171481091312494476081781238526240643084308630314282737086936559653616467554683564349558552601207681651750229925223958158489173927960960829585264458, 3973390347278319455089189517012775629562926566007003805169353691288951698814364808875943830698686771357467481449525128309022525513327316778397952399861907385, 5591905042909262189167343586006450693271610225188717932552654641211238051947288041619528189467924808092018511637340008146719911412752734256985479998713290731), None);
   ((2332267781203027005332769621769447176468072922326668892967757811603743639493252612462614889923427935432087678146909718535354822226788307497467799637042008336, 157402945804107597327197528195178127599149639613471592715939408908030374850866705063280849829367515499503764021340011089237536957267802004725102408610786056, 5292201887171612302923869353371834650403385412177983104109866512798071018790255057972291855036486582563766238019058982288688909689317762598917912199699274993), None);
   ((198574432977803449312617191831996002671855088402548532824268625839371331783251134598904460669388561000006091005590711171545618430004217521118236620163025687, 4694672118295221169699368610950329451254871576520587011388463351760014036560591341042139570522284618799564662223953782581710008011684152166573031737094476842, 4477645274178736520798837438374451940572039213812623591525528815586990119476284897443165600316000814916781835991040265421925796115306135249916289542424163933), None);
   ((2634120925920686258224849526664805919852931404972089977452607920832273239913523508491496742190303205005334316999633435938261883191135517275905941224589133388, 2311899091064108441013418141523993093796430126767555470516139995643916931654068289441590816819572006725575588023269988925388848982780428503881900244949105317, 1082813298659553201362222515837222853408293439673285492699830028096399180036971051053975710718722643669744452138456145664570190459349083976538905469443816150), None);
   ((991875969015051668162773656703459232228452025199405284319144696824274132486754053712918767100152815213692788171354281762027805556743416946701905299929404678, 2720369852520239923746889399237481647849846677205577774312958067038613841141909042528837333567409139604166826499299468957367848453716858880231541044803252200, 772051190406336598977614168095442091674503467141579472647563636034023358237007297459531582313398790420960114311118437659864224567801919503666608155117237428), None);
   ((1578648418538039109624945383855529092393390240036228576359069611958280547423242940771163640508595311959204994066721382521338257797603134049889869218421832263, 1041876754126706402734191104453295218539452759127995332976192873733472986162143924702495488290856113986969169633357594752931172432626595894468618175580355652, 2705375119210578625910466255475926007183151043764174739968639348462458359233721148387291592279910946308051138328926162770302401467405394482644385454586664730), None);
   ((6226743132510509403366981470573979239354049859866903249328413041520742113015213891281695909324867723498929425617065664859480888092393571115384940695274805080, 3385812269605122416811612125020328232219934501941976206369096036880740192625041484553491940261488691209203409688690373275741618063220306002508059892462061308, 5745863004554069834358122892638686923814181536288164909632765716658561305087678718033759013142169772366737816284201037665657730809064560233488707795678617108), None);
   ((1490371230876004031869405109195972779319345892829541525725114178910492955893498112612355314433255865257962495489168328153272282465126899345380831454093457571, 5248265666870319532764830260602699420267734480824679381671773923931126147982413528712512660795467803886437638648167786499130311644948760705273542351074577900, 4124455775829036640286574780986713003900812964574391653101364199048408933032960330025141551929364529989355719014710862019074357428897896883338280870318970158), None);
   ((1021311540382176667559744481153050700819636333507757399873161298091872427310011226756442862674282324807336082717919967119204658371221619948696344664783021394, 635680493830247801751250636267110578056138378711589751535614295807410688886953019284663435079322368322195606432013982525977870492090006014372555939518772052, 2565886384699010041409060228403004133906139641313803896145823095831480758967427026715571972325200744670207316055758771927680177555303950713127761322167630413), None);
   ((2443909858136185562535851367612159101257329776014349839110011748870996252224769559275787843606216644254795078807597017382883516662348274458572759599371476902, 1874502054531132862374431357791220868201217992836531689473408792595837489632274442679224659479853361516505326820850997971360722194340115015888429779032826765, 2473564449749778050938475299635671588340760617658697737013260728073035927583206000974867974733788959860785437458122034839785337478417175353861152764660650812), None);
   ((5397166622114453141003575607166244247295468722438956611343327903444219274952564621350762830636532568019377768767845496178878985433179233348893222362042677460, 5894269851614810350660121432279874248535212837325997683591636467338223956455948067751180882294246812783349404676100468933320774808506699143144972500004132630, 5308528690576929732471689189699495329823487827096867960437383012446469843840746619561041277338055367348407665153524490848214644575076297907047688267753345229), None);
   ((3144105844642945684588669466368501081929803655509793861481653002983104277056492799686663518290843650268899948409528506545141232148081696304053695117716506277, 4160444985346955702203258654765308988186868272485618418724140076701297582540703956386471186005109392749145056844227282408035145579504049667705181133733562069, 2241981919547770957617779616645550415499047606142898589704505020320793977966988946986341081735290857924872734951431541267763117249419668195293195962980374158), None);
   ((4584344528010394103944599158257971848135769194290322760280726310616579113764138537553083292631106619040313157937608598731480483150624748845783194774051242551, 1713907873078788114201883224771391725529677082311811087779286791074050816464817420208664067547941546170515771669342082936480842848235061514225646733959409133, 6595637375221978633044237237191481617888742808319190137157492886414979914506564396893566013540927673588150483590439425618624782609929634644176688530930459135), None);
   ((1787651262422906233390691536075003257800639245003825146971508082288199240445317853933190841454861861353913932730363894811803459591879571121158522672025502808, 3497981375144861592498863788011212450533897338734073065856589452547887720134583892461566215569160369164003894647530055172110634070578179253197785958757451048, 2684459572205174871740410406387673499983979772016607475883363451895942510558864912549894139014381289746115290808827925010976801219916016617606120806417789981), None);
   ((814263246629354050028019971685750817128637276956670424546952688789861007882537720719004903792586976202140344912492050138982112762407031354391730655506211954, 6429571487268601770495757584694595268557519514478747729262881844110065355534187663987542180962707111604761618810114776798229205162915475481141479065248107440, 378223224013221795977851289152659164659941061979656453654965606233848400234970055900738822224298089308829509783414356185574909881960170081827172413692879693), None);
   ((371144749607706141830100002741497734692202988687575918394936955082749533546037662865153010207534675053576885170044708864197475601625475582648359729802575803, 578135601121396400836208005930757397884121965688036465301784247972005046474262360212545468305044458516586638456414477568089466141400558491149191983152490878, 1373349713889964289689574367819203667573284905279669534117884144599235906130963171234404279975240827428253239832104854530106538909343088398196763510966400009), None);
   ((5564410489092490487525390843670298626712842992822007058189723304264988798454204065559103359950295902275469563724459605386440817027575118311155189347199331617, 4659573068279077699067802152849950638943233039151584262030716218814273750241153207757963157745008050826908489850146650272562494807600546120728663499260135892, 5352166429643385627881182317733396390413692634577912892950739134657870054694237254296583733623003440913168991323055034597301948524100040849724648482565422504), None);
   ((3893988950451197759903682550551103975426442096329813595024662579837112008426907475679019716859283666991827471503517418742529930890983493815082545302483321522, 4965923508071765059150447552835214959185915783248540992227426643848033151269076629877746655139163293918820520811395301789882221452374114122160867429791345541, 5916754256732264290946439097605342183479118222302876130412459762855282710838397636008451804814435400533456477154781426833999665539008963386209987758282098946), None);
   ((2390831511279492135214896600795657933203035354833886049811279704140416249732099559499495137755334814583994894301049087542582192508198856913325363199220136331, 6137255986916198224804696570040160959736371914670059178948890289346670822675918843105755791848431627990243452368477875905172865748426779164958885798306404042, 2303690182951617492847684536922744863210130120846288328911627399406030770407963473407415837359937980782165835908113158020582983315605048947874247810028369133), None);
   ((6249374863299531990878255315049789324987411754802120605016933672292362125402352472214942643537727039452784482484891122652689065835369600562054300536063222823, 1242813758010470618192205904257672970707936170984065662075756064268642137739968857403321161123326719944328989679076206017756063808697140550405085428308112510, 220475461738273722919164896413408590962067820233705585343324801633528210289450243964165443256781343698437816753945816696184285052667307222393896555497542231), None);
   ((176678358430685296893039507939451193101464521946005800924491361059927040043198469337379398826490550835620408565552952151264074043890999270802407405889203567, 3561419447545349859675467409324524999028476755262173489812959438916244242353483635451004999398756780132987992578202994783770914413810083697686507107431380269, 521827983433144398692321739959284614935899625305807156395499655308447718814295898432870265078905163493346936198497861944799796370850156057738230472641952377), None);
   ((889220329916991689463000087598714227493074647154372660329879597890638721246548749367011196049625995037962659347294592220593007885962405391155873323660556856, 2409896230125721632781304613395669317617457436893986808817275592065393405232812221661381028626661523235572645938316414140062623589390586339377875217847116079, 4030161639921097109258724059400533670387207609872309238781480980243155233514194523940767853807786571310125698829214943835999864863931492245412057772365954169), None);
   ((2847362808765032889979573365105236399695988535236525712189974490862263448655518797172903952076107901813843728341772530708701167180950912559213425542514273389, 553371868174158566522133378636097301669716138593965172948164809764102653430137114702882669594647426296949602918890491713972151258315638598495485297662825787, 4511505976578046982039501986051595418903937924576971166448274134756524419139884645469944736923616052395699118584019000548312828226068534840637154664956674883), None);
   ((1923930171259384565197839609473885236597186523896469821654795618887429080145225900710057599455097896478210024927907620906756808120248188180368411508003427631, 1084376776973630049406303417079382922099761535964186585125228897444818936243645222987936886488468504184860257292887915134821640208839141459503245763975907123, 6710987302271405127233711073965070227223081247797281525454369012502876001109599033969318317609125029907398737471190852711570565415492901749894170178884298834), None);
   ((3363189436534455559364465251781263020861228083415873132571776024863227457121842699584961590563583665497654384721607370813356896285839013635510391256450468525, 4717856328065696299638875641542328630390052626016407504650534788782241208984132174780246522616459732332158303786045746753919938619850723757058644643239342196, 2234153976263224592146006511641199650525929782379680661123698333115208911313229056218395188694168383647215123198797669896984175166943560093195497724836218202), None);
   ((378071558979307838935219480018528796020021995137107123819879087372571050835964751307283631101423140908179369956128380089137544609548215331764445683344135264, 2514399901016899655609281223579444799772936488700110876180628121074974735524124691506032204410643457951023001756470377734367383193039410735921515807105714504, 3979789222637451199726619654644508661347588662097279574462193125667436689187157825143115721124728615927589732853187540145252104586200321651821460436302728681), None);
   ((3897283241645957381604424292969132690401841827485599026256467724092563670669120665368244966397005230534958174523042952998363495052086249266009972772975397135, 1552062615473218246106223017300081995328332146799559562182147112175259472635401173293116478088993569455366789633518862465695798354732926816073443539947197431, 5828280080158182786275715387867319712184318224231244717314368744794737007147165020129525603088484306062054874813359016042894357898012679520353230930075138198), None);
   ((2368757689008492096364008145831160303602933635030209229928019052240886736779560413941033900140271278332437182535123395373110405339500546476030489231325901594, 971240848528358220637064953676518456364633929136525114282883590411860836169587642137745942326196204568519227068838043401407928163395994716047846620472766461, 207467419193572399674901144678717985213944672730407693803478197188244609506297026328474410402366928674770329715028711842465695353320728970348768706954214479), None);
   ((1209490117511676249252518688159824890313717708302919542661510208266763350489002746752105236714138745537047672097005638891226900353049240420543624853577553279, 6599830629689898224178413522618692363368783265318565949718782341299854071382151805640875856486235488383206775667696708221977024655391519531623501384914831266, 6856858879535366685818556060805361842811818941617056593120295148054165555390594199790954694921014026890851515191475935379578767673708285953309426654652520174), None);
   ((4261589365593900657266951433141143587418718761054964573346564886777157687300045134770124869503102731774436724800933416116873394699194504650243054012150192798, 859910987625453058538576103779739133911005864619261798022532483917900215157049133172064544266048288876110861442626929546893004130245455925436976646376681245, 674722936779038719904517152826143816909067158472148705667822419694069416863786423377702007668071219582861999135983402287924004826296872268758190882469311654), None);
   ((601941228261045945348547352481567042697597576602807332453970270595306836529876512717475367573981266922009119934382580664644179986688807539844013804655075509, 1191312496798386380000878795942857124866613941237486106961578689173770323339996744999689189835700009085547246007086366597521101056899299228722357926123536212, 4539108789864761566610256910497465398743734210554671275277399892347494030876068072665826192946217253988547641228605851586478251338467102575465356692369163618), None);
   ((123542567606693920571319580103701334785120710226297942044945465855640931264741120471990721952354696986396437287185431245675982369153235573745932267342431158, 4536602077518522900341335170094037157807841862273011106124087828849926433184365386349980462339602323538525612791091968283479612757923193728182487391774220390, 4802533760898392178108214969030592279960319056453663557351519858509864535082956463072483123185332952732251742317432754173514318184335138663644136735450986554), None);
   ((3628215152134368113660123524041936778801530496781169509174536911306684245735240765017587931964419240914408261692886328164598589345090850234435518371851448510, 5490114155561663574045590528306183520277641836649561033553072384992186369019015975248238227649522055279780968551760929586265458382912293185257976456349980344, 4435821873301835662872107231792074779479373745545235434534109053559531624039616181828427877179445613046332411276567174999369792030029570939113069360425946890), None);
   ((3487513232228147884473975448863712410333708921634668888254432885344021121805516912012661119756349388024775856454743450105480657755556651492807383767796279750, 2634025029930563485973879214323598499283945510628309274209963239739468958632252555429175314489182168774044598521757673659286042196580411717120540802875195217, 1230019812203945662591753600300639738542517698592975549680332843569562739265480174806293146529876267072660679812624495883798199562130904806366771317334991035), None);
   ((2915288595243197694139098349894441874618857740130577115540770376797847785672477771680794481835188013748974323012064950568327792084540319624208287312950473687, 1898168364540969362927545827112189321288178980827506411616122594315387732599848068830843554319551318374367557383959146099533376528465659002364806995392497692, 335423109877419339217630200508222265878100600411578114934956954860295158014314110509034032846683753568971703649521284032730439874508425472884418951852313876), None);
   ((5257003383662109173037698890524546213046693873812205333242383231390189964252007885123460016236182312626694585681957992826213327062119550414538892893710668723, 1061686950639136729008504665077247418770676401841196537764143681273720582242098477420582957791201397131244023885670272752716885309220277025520840865335100477, 608214866326462609914594345814314434079782699260632611816211658569107092142926609695079917299350534056130511386736274558455785506629661937006790811978844661), None);
   ((2610948299650859103562855245546718010192684062146372423738811074032713320859582478552776085015041795557491215927517006532693855417331776043435772548155318451, 1665161998735088618385976355432243569445917602770927513817823783670638812918187200796245043467778511699271080818888848734522959943210020895887232853160546167, 1585678136200018189959635042068380009175067932481851775394373433315295828012906867233993757729624416391955521675598966521895299536150453888013379760295448644), None);
   ((5322550503519253878857040420145020033785612104554929090137011640823289442289757275760716524543238126430074886459255368609951771870051220718045586551139582308, 3019072513091910462304038312137857960629787640954375745516944199856029935277032699680075258810010834251980182790781343169468651172385659909927180309795924206, 6141626667317026727322316891989786885796155756533184111827781505078867367133544670366216026329963987614709168588236034066056688474093676582699255622323664971), None);
   ((4286839776571630626281185570684684047490848421312944700762487233935477675517847407189419032766471704208909668233011682808987053009486273582345061412736290228, 4410855706392131773814956024867261676217865993786682686954243205414226638603213299385373695872987147118144817335403526214787778642624984229653721084345627492, 6679051301683605858513948552845692979939175595756520757742721993475040103118674990400294199009865823799797179540558973651897895046038056236983543030862655180), None);
   ((643178135417745500152197406305762540494152087902369639971375545685523431064664741937057126110642891186433350408337289838619991565315854249087141953234044443, 103507232354328636926949911427205883967235251227419145297646767585766862461426460075087328791847431549202338693042921611073595616575440464117426798506797030, 1603592870866024800388999430002190776100675543644374380722904039346319508825994496521274205777843475676182782427047953120058676663929255090850438672224281067), None);
   ((4562007504097049785260694373700900167261863804099495937259962387300192658914702391256862364611286314680880105011094759513168351274111849311204338411504421964, 5186713132639970992099232279534501048136093753968712829251855366083122282981521874883597945264747839381939285572114659657450633019538951774979972594982017678, 1939356683818759824067156252071483822130470930714718010583837994135816399237021313697031047282916021553177382396948209039124765208864167223440302952897774630), None);
   ((1419888358043543465651959183124300016721767920543080995092870046069992754358810712796461489711252544459830045897160813564425986263343827571270757429750950289, 2774742390729616218929665458963838710929501542109836631290234577712329738832981879023967094596225981192474008876724341253595117059686189414731359538043121280, 3238708088094406420878116414692864390759234972099654518796228974193440355230224465539840126569029972895845443148878255143400614862479690985086007643329158571), None);
   ((1109544852490855516083799035168342664882477188318934730000960230070652881731704375432790845452814205123132583808509984736871367022340369005659147752759062633, 4778102586641797293652052934041929480103561790380278783274791251057070889968182152569162679440807019621461873967400881840206122512609371130661105509651638285, 1724055516146260207798488348141796316025104122755744426158950912267128751112782127893852548496731655182853822295513360838063743729841894677010299550939155629), None);
   ((315698725770169765673309251389617318918883579654102687250180157603690866438333746995707069954232801853363482798818673185928160993858010396935129669262201606, 101948198440231330813909654217396755922049382206187828170434775553633520833255009585525130724862082193602564535295859913097328644766406876052897058526385940, 3934737097131057129986360285287170934826990120749360419648124801035878647133386994485176676342534440333983133353085462930281957568605433919741788407046399274), None);
   ((4211381702434200037473972295953649902727368965586395933461259288502399570163573638453478404883203162457240694309185920665729223047053936718871391844864606379, 2890301502498961119130702865502361626318562312777629973399493356252853862554125211440098924134494051099532642107301287349336074618003877077299823052420832851, 35942279814049983501954908837699882065728078076361847492322398350336107401309375491777958764179690666935946062120505541114065542125249172348826323147499643), None);
   ((1627010130443601281906455868011372514349193212038809099365434735045308192156941976648674462994187415473114630745943845776689992912084737868174393861277492740, 6011029600326952413951168712484425771880004064981911710493622133908377392710455711257431346576380361253515733871369229291497019828848916861396386340578494381, 791871015795634724923420903852735176043549716459963507058516595274122959649425943339832865284889835212890779280930354725333625894395667375698663804296080914), None);
   ((1809457505094973722039667233670728498346807229332726520898267087829926048265512135337231391341389389542175216412155266125821300560775386689655790816234007396, 6483823021302254091140468138199440997959663791575727337673579029168630808669257940414674879071086681091612960921766313618925808408109963317367096689277944638, 584431452262419963014220856592744019616412242565705329786665221313534141278679299708007022582615711360799204885442316922997838562575110932211029185277134002), None);
   ((5682187707597729772475543452329325170461758599196783093030053888647723220079463202389971315405027852975619615846879681463866922447797899925197130122896482339, 1764169847132456140124093859526796030634636367408701321620892665716196199936279870046696010169797955439252670998438414544399415653482911902976160129133955183, 1304916691533559813203375782824163421496257885087153998208136999224900320551111656600552219169332021005939775948578522079967005405042170368746437709180387002), None);
   ((109288924467379027267289903425438583359852797781218222684016452665775502358688476309992570182774770319107059145529428389967654200757101048911457796341180505, 6331529992367666212474531084917566118386102575364373327004614012406146174388826690720762760868651753506722300177975238396606662441187248957143782323465929332, 3448004463216273773567014358629385353727290506056128136921566830779681433552285471351270233272972620370490456944625831177000022610978032855276526044024495721), None);
   ((922857515713266109995209430426702447649367235191082075522799673275256539884503566408791787954259795999269124798778504026941121054374536133297152611574464856, 4581568261170057748853362443790581070222264648183780628897311429573251391199195707065836289320403722307686498733753166055584085852133263973902551516348923126, 2465301766092233307996852826726615350981111206861468593619865283025188260091775952442301033199874364066870141540680107687997782690046093967961489489514818708), None);
   ((3048244042071838178525465581813296718178195669904943648619360239581620408024549100845797720345152547072053386142622043653133478625420484563672817251476062480, 3581802212056680573433781867149091119623660632543829559780488444576097465245091197519169997444727646573270752720537126208605374238611126324509016345052632585, 1878661243177125930003673356109087054461182918169687582307987677943490024869449377971722814747598033728799486348841554815722528516093795748904394259691348742), None);
   ((3404966291094252215815437525795654247786042377587035405692623289150683270747208273060791497843273620483382634263105943608070468045131128922068388265814594008, 3461740647176355904987384179953140685909045879950562955375338641631057320582697697410066457061367708542569590329567977852626620190663343115220163116710738794, 2736950315585816137523406439599358404046971523649247232439240678404268102923955317271247977107295455528160532193597634290386689912141251517369779071156801785), None);
   ((6169328094925443260861555356140721878058524376367618017988234151528619264579726501905426293815395936137922560388219164490596985858762082362143425214656194536, 4496879438472410688557189709438265681297276108235421114321577325295513836342607500815661100157419089552961334232549461863917452316465372221982590112097550017, 2671172361565352441367806332051647885122270317545040149474129192846869566870431193379606860384321906043436646129019574089712710902569626748636448022476575715), None);
   ((6427487677305147497453305025483923784485398353584974859034554555753754072177058672350764835162153998134694952965298700459458765640384634603694450937477655211, 5566837208058667801412911892266254085747391571540226709930919941793793197919257386377614998568499507243400420037673871797111943293677364135566438522100315513, 6640804417255151670071249913300669850103538660426331838300854002787303604995684476050525345963026929489803256425949230226809010030791310923018055766039649469), None);
   ((2929957058567307638696909093262117694821652989505246508642639677250635629773435405575364393798933502977448743054878353075221699582093352051966190011692983439, 2356510967358714907259682465149517941269771592486969124237219388867655778327689037110035252312189139701431479124168654115986525330834968184873952755813011950, 2695259646368078094623572769563103596028584816006790361432456202243330026412951459132881456461817911283478728029972884680680108072676190459121518306500337431), None);
   ((3033395081120446698150000758990480725322258755506527734700060906003718199756973741005320340557640568040684753930878949876593324695525764653966488202756241989, 2369944993802174788986853411143734043900748942101596016955154240438785653041637514149202687357593972916301057697090562490348857582881832019882890934637986007, 4431783892257991390717316230925798131124308450682662684144213939413913588366411646717500411845799729496118014140269803762165771905301076698376745720190118703), None);
   ((1939358811412133226937973907085690240173689766655818198727485323271464665750183019255725731868134711911593412021814408146719888978232232973345748347484162300, 6747844684078289313833535826385124390917997606674760555257808434445929845508486050197246409848109042829505725539214278912043825373195366924770232786958634161, 5098115619021485859380292344981421264986497157214081726167820478035205293700588576223957504998476897856774304098221366828946885231625254076001910052448577485), None);
   ((3883744008633913996086910036560609194307072891667681468698644535149967871501475221386833199075559748235103616935064484604765335700096296339256730098922084972, 650900669572060363824291087003416658923309040001967427184427998185070820056910837626104424588688170841839404499032593574711230364067346063812502932985275175, 2764623798826630563047004382905818576730349450006361236229961419557366198016350520486622141937239425229354085006778521896620106115364274542297511745930890605), None);
   ((5394427142182147759397902840085117718728768897318495772018499316217654289331792096787968259442028561813180087703075440563856418239917804915629291110291949815, 3428764994802624750228553101347700036497968317175279151128381255672593812896282184697063208261589568015018366632762281056735534739972181654309882350775401676, 6021430466109563259186152505761462252033915276576121001870075046829122984192532189361207567751906295563893263059904600674805289649661512916993893871926694239), None);
   ((1567618680410519151923552020612901970172622745822897058566810110128330057252903996332220854335389383663997732560149080004849651139004402646278125860363798498, 5519243155498542637178062697169199185076088122289710814397057106524808530660728273505859015467180534467013823929481301038013328556760768818011617414883724429, 4704972214426206802970543921745862224927993077849680439036422520746182285857185887329236068896179067247164738689981233203236065806654791014607072991420456343), None);
   ((4291279668390674554616748121818499783339796069685676645289382590055526971639445599425276201774737494652057440615646566616651167309749325142014722117452248678, 2889350657537026436946223865962926622996683146160445285337009335206098029171429606736747267260703629123421959837828115706305040973857835865902535375531321205, 3422961726901497517494965467098872094633674121741461082168897621897166286134512366682667698218018436231989088602094494674245046007813789434207860090808632187), None);
   ((6734217809409773602598283326657117391727534486519536079771345002379404792580186373355144519113475895802650731033761397071300587447142192680270151624083850698, 4201437035267344102263031491881495653321239152428188327963162713611827432750162687486943085695615586168754101654828636450727049336608089316224918742547328763, 2838468777168389445962428401578708676435893574465576499286023475838388369740636456563648328637836911661558377968973375173859106266917049126593417897263340712), None);
   ((4596543038526652301951242076716767382045126297605321000866606281436469946009098331486890256612589425582666955744668729945202125333025959988517722440848367967, 2931710790873595050355095089788519775659982865996580128902314777555613165655397339546401783456379106661496211103256113419343524526257590114442947145056442642, 150635306720509491250359994028301964563684201953865910908353624359137164575478654883070851757585585658467858379655352170419352051020233495404736070985626803), None);
   ((1713358686999599414047178290224710936855498703729304393702128247039298250098368258044337942200063723720241609663329100568075011577387583575803166496675598396, 5830313197569884397921580382506333210742335675445546996871081376184011917215198854547717305170402067981977382113687240652953880531447542657499189791317124980, 2509335626630204817655696750116044684054020414659799357891044272592445024643574501558201579765136508000933380528113900160188594588068164355124734255482710159), None);
   ((5957903647823087121576983563563393006943725191158308521188676254017623516381164675276264757527045797938062166428208796277355695510180591618899573126845099220, 3798256391817798065385481726854759455764154941702307902917909753952838127174358076466051539159698956745339608503799568676323941460583858557653990379557929476, 5288964005607932497622586507165119667912771488833138342011458706398426419879918208718505027575405806351937621935142983298356374639521108922407677438920386548), None);
   ((4991588109529967549013981120924461530034155644724573332032330416168815293720111063373561079849834657706019292525993769024897852594832619055038167078940955447, 772113782414886185966253242512417525173324494049540124486850734128565327516963852409933734995194214305568505411246166184303469154734955551004943415278789308, 2300889844817155972152061663996333035746615129545395342695912992421448139838263055332250642259560639002246036923823717590308677631931947148302993525500785304), None);
   ((925031600310487223936560364642794583270483901051894783653706799771935805356983026379789576827546622438535937073708634428367060259025579552510583416747023750, 1348517437647114856379208679396102593285159699287667837837351304217767638872990669268534841448465192415381947103405996600113137081539199070368751736601777185, 6143728772652724605583274423571675451370699648570510055023173822814113602706337852909934917767570408655350138999179966336200549928196568815054271086183465250), None);
   ((6615966414667437286898538349883876926130205779712961784346218392576199185501807920486095111208185759777793473696068230099641374827769796366137734708050865033, 2040163396204554176942070070234868047008039407349145454974847959064407946835442583343540894951049902412619392249423878434067937647682349115097855976011477883, 322515378307544128604463923784432074680583054558616765619955704117632142824753459755285133980784109052763270537019479608563984906874308930665236191026585485), None);
   ((3104655406703145476990900203411448151078591969151436575429582583959324002326674228178054125557839090693014998308575506570364797053153029593933489682075525790, 1735788533374698730655720126964850895569433663296316413431179997359475273533685123021341984930930592904066682454649709571874925653294783742695676292235117742, 2626158328768254160035044337166398698949238886173817355642290687336985488682733689385871127881873332482532656013198725017442917004025840861853121041305872750), None);
   ((3242584210927711895375429076019136592867478852519678516750112010850737216802860307938536176039161078453886121724204987517744614610572856049073939660275561600, 1173911667973887454634653395241010964025868828639215951321406071347972574867250361232633521497068376132475204253553757651388827317071810126684436781500275118, 3966703168020166770647996389743799931311010054056220424527815708443777744414154438885243249633469642725713372445227321701544727046767584825029029962724595625), None);
   ((1565464065553519045583463344003154671462230103727459168571636966447583051552239911116470734864005225105171339928830063370207605616214817315100950705925891186, 4972616366727471182802636392744977043428850164493657850455086445274757833104346393198134217263081756388074834184010545346480858707127259040891032353281168699, 2292861599549045030439977763132692198846867465493451607215068261300436037770411274789676085798659987379110117287357369104633992793913441784136484236000013916), None);
   ((6061314279345184279372130672351853943953574048565237249568865801864896124390527842547360475225447024121041833777325174941619943101353595847806704262810204201, 3984535810296811627494456674898358906595461891185696541655972712463352033968648147392036228991374928612285864106290164900020035784713043504478755677774906531, 6818181352737357854622253533994238394809184936069453544443576896612209693487800901590664316496253578712859884687697716457656878390974172083639192452098425649), None);
   ((6616243266553051080564639658298842950811123595359020989774225832105039397411576612325255788810990523332589386167352279780551886172724074732795782812880650293, 1554351357533989884860922502694600306315752016502641210892749480865260821413708397311540443167758837399864151431945799258102686297769682079620700605657743362, 1212160647675458514683417906429710763849840877521436598692524524464046226816950508461107479204190966304265291167785217093401511233819227235145512486246901167), None);
   ((721643398499782633666274932439243733266075723289001515461358670520607005878826202150171096951402695567466481454831240682473758770941952297037444315049081306, 644331758759960224153891727378953197713543096279433645735274024159058022600741367585196919651547726043272440330333443142187685669302117475662421220626927306, 3582634637577660704005898519023986627662129432513397892266528607486128421766358212745299312230502776708959564196295978157074756650571834929179503149092123252), None);
   ((1726071099572683120666347272577910881663062440322057075717406017540394949239043353160610636746075994151462798963467226144072928742906104556870244141972038314, 964290619891288235261983179833083690938488025824478481484787768491749275457790859065910529407846700557348479801317538851445373722604016165633807695743183594, 2915883654321531631282058337556930159051681571057904634797990079415443442460908097593159182654958502902939174958942519014010171558321506213940217250497671980), None);
   ((985570867600276615167022206526390935377154931775430313897472537648951394965528866564997189082585560842896658123786314922379121322821365037317340386614198079, 4455683018517908140734128520833890687002024961280412021404110617730796209772834423945228274785528897588068256743093633762235647164730869882465361237322295198, 225911731839927873143964461989180923998487325286211331424753674743270492674398072957170882354958623484868617246494890940286360010617534132412363564877553218), None);
   ((3961425417068213464521692674592060799386203403647630027186221259933114439560739908135897664203882443573449384905184637622339720239966098089185442687291604817, 516954156528994916661763185315493364618916544935995312583208441382406578149492667793277860711195853208770667227361797241674805581994885281117532854316221319, 4457893031263870995281620429414434438015894201423090385952850042187859022018436031211154971206659969793471648631348311952033392184852024786862395230631017141), None);
   ((1719276439587774847472637807832870587628738919472192406349761008258149971954103202598230341508429811925353176512404543354793653173084011188135816482587088620, 5213565138768732458130029536417591074076616332508710816807577993518164310721852989739099227831237666056426215747522101045069000307109978093016911021697970682, 6615075323416295826226439832568410053508676465276043583825934428154541956345921473236899528289687517378158657656743191222200423386226272019212905489374741865), None);
   ((654214497318848924027506905648995253992808618620203425862515221938265650275031060044654666400308636910426875788542145565812104262740645512619783190085934766, 2834164679609497042744250087775398923203961430469255151030069267252072017953457135455692819943171661902119153969922471132271902942529697224863712314994765646, 6492439581473127835000779757505725062985205739808858085992893577573754343645856651585201545166891804967347091317834025447412073293983019592076433976648725645), None);
   ((933485986707503344384248187082626376285817768411010589072464056063741840159466669511878893551447261065312997314829223215718546545001364296858606424914457845, 108293683494549860786792888759899247911935214244737776765812804310788972116201264930424775747749572459418492641115205911955114934320697711817686184401432609, 1780407627220173762340625513478448506780926806884900261297493912693535153142419815146197887414596310641717975609147446494187649100690403768037796139153006728), None);
   ((6530829050244047627021291089152214869924515299698641841644365298532369333159402393996471394666962258905413272571869942397152126517298195452682302605032873137, 6847941232775695240596659676334799606016258384630751693522527851429916241641662482567478735164987190750268174842474415082576338394515376545952135830598359192, 5099849078452510053627267292888889984007021492532222477574184569297829585996138104408380508306353817485512738007681185850041893129912813514879006985743289165), None);
   ((2596217527176199215423067620433678393490211770836837585645209068565773314514131239775142668438157059304956641294956966176287965728677875658123501068491303350, 1691250396658344983167658984810015708082390848775893526391280827760818579034951088046824534778445556758667402649378685599999726089609562479390956355946001347, 5024292069226174696329154738328438017147596986692894185230267053147623497384049793065666489235178956264492613891798474736954939318031612336572087467177710451), None);
   ((849468141990935229127085059619285517424580003943847044976084688033811541832359538979616261141692421130141434106093616910823191557161167730349036931653591225, 2953171434401734141281623770413484318880427366891043544229723265980565367565115363563639456893173158277697910404538691497336342760839880892414043555975202183, 372253234414623288608263781091891061208313061463078686236900755802366489242106541598870869724261124528794979818371501521996678973981463886091703108240840893), None);
   ((244197336857007187999077336828268228007062644595155753150938421676012314412407946449184285444325874989335958874841131749266825622984594592790822844357085101, 6082758825100454962386522651051145017185587165559940045910235427517901730918927532048593337226617798233556789135941982514323167661320716654617625191157694381, 6396839318600727380115486401960287954899445645262447939703265291232143519177184562754030253957853133361071563165439876688894291761389921796107992894052362047), None);
   ((3769738756972979139717065202327633949131008288356941310118928454975031068915789093377551352110552635938922369318210596396719545458069143687099471241700365748, 2199999115978073460630556436106300389806161669261878666207000042076839833565042672432263280627481564437236164347423797676585135958011629383271498681914811848, 5531151273607946128295127595149496985320208303539004446269928809811266386812819080039748447498079261587875497770231614909845078974619955606100753363872818790), None);
   ((2651161668823712585111705819714141378239723482739453382833257093382679717812215268583578507349658625645407503074291036204724009944652772932015621137410804938, 5198446344173632917309547443619066536240255215023309602545837137380483752272385300067832072629961727852025208980497200778919866936415531987930630049236379616, 4474282606696887344669418960176878613602777258892344447429847932585729041999176217186624574047989979071124496454487628132291454251519235555827309739685959836), None);
   ((2914454930649367140509686587303458825052400784456853394505445991346625641256362739980068110283769107718561253913101742121232519285965536754897109060659581294, 1621056876357759782646559386061541429604107388731629627722702915128207114148344772560411138264768209210735025534629947168605741558442470394397759111044190570, 6606520426960905256750950511719775092090899929407460769025382328700338970871276549928390041116748826311749309496556604251297244382141947195951963194019148541), None);
   ((822400384843319161450260088745289800344777937002624553861772075921558507375734685793301293126527592661713253761602677139846103883943824102379057881607323778, 4043949618054605772083562979106331569761605734311625513354394076155678495367154352760868733913790053741570707645339111801498602453378428798626454344930731284, 3534645361848930768975904213687279713618990879608962213035950556442799868367904591328436019047132766872195418019190320757474498462783487217481643529842666817), None);
   ((1136621469347038850765226877586847351481738950732677888486341941721221081912509182994560404958105946426993619552385382084772413061705387310155062820493312383, 592184687413424176645273868146661709108699801932190552862585998837031839394333361928122022289007930352397069302436815320772087822638926431668852711090146206, 5518623346008940877689988621879185895356846389092019854264150885992445715596850274719453916815859148664488522716076904905379756993029622102076658261558239078), None);
   ((5032611119609869614677228274164789586016872339441707694607242531459713574868553612828488540664024025437279418729557372419161229582842441440104339823835170386, 3279405405328490661165291132794156389534362853718337257806052413535627483407159345413719940521443614499537363179469117245955401474320208505447188430863432255, 3211722214072061502901716798776950704096910381310962975078484045280291186709106788219364318193888408984922824184339396496708548233528575464596197340352770642), None);
   ((3154727501971007336247075826386770855660706887636286607824410585731879417543303919858595612030452660192810091843070406644787685497748054013888197323337709326, 4746864858479549688944104273525698102942739746059411314063064362039300632111539932965573713882976983475698608666733804564636966804855601075774717644301121323, 1354568959060621708626261768982037475935457635676698010613833502432363279583459180121669711921492450694970878202280353299431359119914997182535925845660015850), None);
   ((639396712364293710673364070912184050231740264141661238648675101454273413225846655369002580889777086670918383442771266635698735902743843338293625722439499070, 791201966509523278907068080461629715974622522015019891305723186380329151200819096907673224269881017447125028164483819628820663465546849492699788317161458400, 19866937614693576886469418634840039869254780868535746184059023071524318463578718905967095000836433886810601552596473862042530874575122277193573058608798571), None);
   ((3535600105542074252376327448780378110540426940784179311815242130802316849945581243889343977279139506670224849957618354428252776909869365067469181121237754171, 4265996298510090781840085982372196671665131952060705897761394206596885222077753194585809988502559242414796258507971562885240944159644907320129961554606589023, 3599501297999483668244665702739639996754777998199111247132478763116894799259860749624908709316059588389052260360594865192725558218248030356430859871223097653), None);
   ((1571436960105242563294401854498754511118701751291813914439367035274632608537213155667711103613620431111863849724649421040461096961115507060887155373841227069, 1691464734419919871759191483606465727204641629350005371895898663646438386029774309751312093239752055995345005237947436701594683595266976204970034992124984754, 558072536742631341153813772704506477346031777645499394924393191625991936544583760675685818382441249900907833796770187692771181098974948433106111182619650582), None);
   ((6273617436632430433344027571252170375317131542108676876604622392748833429801298169726100201164547578202643309216745957262896899432828226211600549240797896463, 4997250758218942933212870004323895145714236956771601459343593445067535800784277774335199728812560293636793048518945845300092181547032444364884020240808850724, 5474273202040513188911719047785902885859958134316859389074551481647717684252154356662937157719842644396673885498326351884747003161111122335798334697784469975), None);
   ((60199177412407001569573090631845055999167472181303200862194098468655941079288395122878312129600567084605298290775258028344654000384161537211577240562153467, 1575694627169102019918400288248251789171008553998159946429553500242936696213679340966712713880693319923147980097865914755038689267216030965265001834827751451, 3446042365622891476831425811099002649267635981566221434376252869511068826999886582757045583539963419632353479848627305929510574481047611809310120852535254005), None);
   ((2013927140604124280213643684246555185429179534499399937825561716923600989013347424205811804409073016624639466834390767245640662035607671643796787118073189979, 6719758300640446499108422053647286994161491516077454774188108441654596438290016096012033143225879366765990002818061633551085883579655433073064979699231714170, 2226859922408002535037117406825885529526179954513737306241904488860044714476536635560080530475200296836229017787646297012031035854337113315536575386372317061), None);
   ((6361647228258891495930348986222701991977519429742370505441685804494102792236195502829384949170685218796535096687982495698602159363182732645832601209088649724, 882585430411835862650485037954652750022661116558397748116882534130639569758390134796042728299298753507764042042630735125936149947983264736542914053901479546, 4454912908060433922285858331730476746571328848592198341758973819092831238176539770893777225398429103700239388071587577300494661305591681482642442663937031855), None);
   ((2104514408575208081251065450171715776563873444889275980933200104510420346504346393615746955587372015115588697558605458753527853705651217590866343691988304248, 1229277203362572314738012454779776406767093012092194337420420938628501187659256788248646763406237294045709317431438790115008697913007278370730053879016794911, 4234565810351469120498662887551217919529292904652352342148002990468689449030697261665470407493879658458668131716823704267417755259345022273812206066824944146), None);
   ((5884419586088531241694981516170195224634299234549502895578526868730043881389724523197796279476126145386661401504511843196437586533247835702395263181793216024, 5599926975707404150123741614036879212183753794537666338518402292696221090032245821569523674253275020191735807447787118780607223565546676044073073271831042045, 4070306313344564525660403715139881229235329559635533955907999067776708888566293812848932688795886417404961925060696786911801234067196963181130959014652296019), None);
   ((6589991015420085952095347434379856820276375506564623647252048952911076594159806577154064907467581691648402226827252657529948559074579474584359316396695345555, 662923631675033935010706230322083666204555124640784143816413516633062237466969768558723626992404300722633295899114440680197372331807503974983617931358765774, 4756004352391325011530707474629133431041933990532145933238272753447735646350375754190152026798091124675553852813252241377935123309437361988496212340128733329), None);
   ((1306034770002735256925628216013337667707489983902238066311373086306095054848128674562481805079902312157681644421385971581877581888451553205416703267802429580, 6233742676978682276720229449236818420000889843778190407584824677755261726861842433482169424307201813198286080508448690474568710564645163825872608512895186497, 1201512381381709528551545443663061153220044992568456696050795714415543291966746450315622428816284430661406209623365442258105104642851072280775807066408107723), None);
   ((1670296754012881960975131265291502187779984851818976345520405724470271920616315698180011391168878605982222476660850196550659141693908082030908054888312957013, 1634189317395233470542845942438749986671412646878390698833180255435709257718035213905105321469571197603153668759977904003392375568010476053386165699189654775, 6480730019772358694021606785490115132989773250155809697253490328117101123875212780095078561233737562120996693832454264155630828628741427496986164271916490810), None);
   ((4231227773520256782936793382109916451377021872806620750990815095231239382956601930411203568139124981627416780516372545409120562840391214471809845077032375183, 1164952512084831230685528678801228440067188273869281423800412597001836570559547390292638852279950703790538640989821395864568890325298702592472161892705850629, 4690515372900326659694328719823194620431443014662725989770730475841670872628447893797958628438039856427725298620853758923809456444443885492616158380311421230), None);
   ((3893187619202500876679149464093878419557113500914039713467668485194449293905859376902151974167097974560060088388055052625294833412845523080722665341254658053, 2306625561549784530015018173718334599579974254644307743291459803906454733536395369957393735711693334676385473069121452318444135040444647983058418444027988274, 3397495224633160451315288543850520595244596169635181973070792098834933421450950174628559892529851335406798048235735729266349087159946994397483462370162810187), None);
   ((24891521545128091116149116835639886142714314262675693754052111493673274983361025425537267867179978640470500962709631579744195244458458617805064281028220434, 1923452921026069469075881088172808749946199212490856318187392817757434487780463159493322185012156598620925408805009822144434812527196244648585752080642170564, 4365358870990073032645838214426616782073002810220139676364514249168969442833154986954932664300454257188996307984343905297006260272313066903758956841850696709), None);
   ((2347126566525411830808569990655358593623908128322160495620743440379844847579664662585245221010305023228115446522244756263367771165565862859827583270098587196, 6482330542952840195124188311514133618520514867096057271629737279566309951815784625341968339406754520967687739108257869567720499281326210989524115255802607524, 121471353148166920305043911002141189979521769581742110331016049106497691917857545432283355178298829687049299049430875449166371551475571074884105535715505702), None);
   ((5082835114443752108525054574601406036240524500402533999900856230594468312738367340575746982985577854221683544819763776110279160443932662194145423882889910894, 3379788488133364380265796733658364704660339282220369323763566960950772717295942011112110655466416049826533586501099003692593257253908077288250153905084299753, 4521559282320263404800785809420745697667577419059412510978411019440518662431973780371931427165299585657827846764919428379847606151846582629270755470389275505), None);
   ((2967156383574297237705898340721496001243361490575461305471755246672574290919335295411382889635733921289123068951262340222636092377445917791180918730261595614, 4792724501319079449837237360421394784962750977667421572995559876456000483896368454934431590473713774147237453066897104846911630193520436928430050889279681479, 4172766421305406789294389248387093674884094709484379657574881461663438765882657638731076380127216481658500159887857527913865810180500384600982524628742010760), None);
   ((2917332031786310286794369850321685782555449719184104031471482411504145856760668079409960052511935055793108425143376668986648811367536678141790046799295270212, 5411259511951036102771352782684787208640871190017023387855787435298033478986892751869940607917904743183821152011787304570631561657666292234219210236300695327, 663133362086301859483813769425967777081723318691132435962843282989623172025186602672805594163453830318937372461118155576412640652554574587641471902156345465), None);
   ((3500040697950915777208799308595926438986479043185492268625428696988618695803499789441753043970965542977467229582720965323360608420331675749036068780777906561, 2547926863016527425555966026612392027996660363645342610933693062418504349998702013159915411366838523763623515977430204732813192703287231519500531112026017846, 6441077023300567958485484843498934591774310712015969525489821949216259913369836876218108254887064821206378455087284822985455954882230549432232021688207719750), None);
   ((1635269178681604296354376240158991827913022984854875891831230133127424329869806110654473536097755319547828923929363083083334429832189471783733697501251800828, 325040128115344380937602974588337712492375784857114159868602637222539774224131710616380165576098701997313583149318769350607480498799282025979632622563945383, 4362567250199906767155854034356642091423917990490642779058703709472212470079533378597819676620116977618306711571264798371010598820056514724960914621045899180), None);
   ((501949862306530991235276767374907074993840497642508004420924271522422147254852133764501242268295085700164413524225119881634617305196747668529154984918173965, 2505640473470098006575999542697329730668214186220377716347976646718547326084494896741397351183307478771377841591765132216108395912639585130064367065787311117, 2868312486592436102348660274856377081103514117028417723172217255685367326733646184955158361335034176953112480124582857902132599737892556644390309872070203668), None);
   ((338469589357807297040590125621921753639050397642875012221327298431268439690413848578195380006127376560858760747003127047345992016763526810809477314606174037, 4090512566212952338139349994885094312026332632722632376660718888704994836528276300950788934906801947539189539976147320520372059162366750436582273710794200851, 4228507274029602541573922699444929112304489495428788484594516916737098532731250706011880255328265422323108108580275091744126345754836575240687691215852636224), None);
   ((1519930194634376627346141476759358760834460735559033945623353338854943138072843442641953532383601139625982780712684442999105592385399221820323183926494959382, 5077818459427036335725925558097342150451239766508739237913696766325796146651366827509124820620081409722231770644909742729841911301706260711811902148130020783, 2823366912981203335336097089159222388299055332011216231727160943324116879176074359518067965511353163591239695675265958185600938227908275830339073118753351179), None);
   ((6633163219303248183912540193926777717951849518357743229718949763199748365988374948009407311907336261205499345865259206623724811585483035412594477850532927102, 674357800213207208093214682075852612047021603530472843724569805369016172058510777890240431914826425540997001883396046298219326841679177518016544613321265379, 4311927662870329963799318284499769159397238947113235481854811762306223550576992890253285276921719730192057293998201283031465004491832762766593058325387665682), None);
   ((2477803055139081736865973678602175456799299026408289101131454175929335710506573449180322889772302565271289892035439375074599024456806712819012691690217696538, 2788195686376520959105991453306971347293083516071980588877974677729579409192281651948915783224784373988686899363065165177247832468140845434236516207980548145, 1959288689439282088268454888486828655306938774657844441131134920262290719741283547057539010963628996121837920982241212763545297092869985546246111492566917967), None);
   ((1185083569690076145965589710037470509245261492854819083111133903007870333221079664457579903084944457950948063903810387965841181462531111268006749014985446450, 3553914217065822694142930618454067111123151060612268606307042444794049881395178749081765904593493567996693672355201742295887464763160523068844328792424272973, 162255656936560356030170907508187423960889669993755727864292726879500393022903028062332016916595355102089049048881576821085610207696560937417305348266280429), None);
   ((647316129336739895055228587786686972689079529852837959864160156666195589822213740476484946707418964576868089349207798875013589275118596316656937339413318799, 1473678843726984408526535965889225280240341962095913278130937421167226885091327752677476580464058337848640188422960019186839289823543419692846488396163626352, 719946544985042014449852295873101900859558163385536052478540201231136094624427371806576746241013319095237768717234263567574289113162832242559446249446488990), None);
   ((131746616943472659733832121784946453404557521369267320763906429154628793054094762932433119638227878643899816013272944583541577087537749376370835632601069877, 772297836761535008611961658794061757313727259637907751581314000254957000683417399885411761420504574870846070985004830691386178294295517356265319067535080055, 4626529523470975568601224513951746147568036177779766859736780565084332458498441943903321893576971793325453400337120950327179012307026542316011836913665289261), Some (false, (4793737319775428962755031883155280179219707267789209661139322605144536473112810234448216968840281056679688517757822767006742819301103976949213937248286317578, 1161080801024508348202153816891945254899494418384305720066051852750903286911408324166509150926500326552585102030419203228349346528799551108202905276117383032, 3075450441140323518800133573559247040460141878533683980427823704127302541097058178096441211681476702610034621310938513769866779260784384541168901604781257228, 3960837255888503714151219067119839833477029923111333330301514991572043290368958512926553611469945305035018900054639211274086927951501284530871419147003753137)));
   ((6566125170055225010292660138336212081617291399822840461056820057042041981648475104279021138967258168302428111272024296307032047731188574005903920579422140689, 1154849796632036352450998337472874898753434654907166791678221543170607180426271346220331397532709437414511304450537430011850484970042626912704459952153013999, 5312750177745278821514365920615335256684027138487702222501706389053962709066314009122960765878485332524436650360475946894318285329733580432894563543595285938), None);
   ((178341391951296957711516801812807004522132040343190971749169973967821337424985451264042352684950789457096392186709881021664658264841226796172868124664967945, 4087913276383663065285250481861930020052833652613995788480524688070651743482632254615801103125759924641658383328351849000943208820692160994574224601884693929, 6014593630311655167487824966425743670907134218239074687276424389937506470985733603741645297699413397682137564496499425359115989451368141592879109481698613767), Some (true, (5818539415229946550542818961381392259542992921809150067037880406601622081439208901635759150308961429802590483898506344028666999617593344890205858185011178420, 3004727147267282185441347142172186993768996576728754662999920502611445229162048171540587063697290664305115723318485408980688779664348466327218545109811221023, 5360408284144782290240443063053083689808299951300990924039386881491329766033983293325612227443794907464977212828060799877977142794564118925261806790283130985, 2803179919956413980140823249243477274671716047283242347004087531743343773762265522567209816012211152854460362676865300438696612583497085385987279968221204409)));
   ((6284398916876073731312786450527458759458510623557680340229848368470716255914331535608173731538735657894767464258929898371387715891370350831709680320318136197, 3503974315265890525237578142957776374458569297752289750943247317993742876851812804547082477119406929836501470051884873397938701147211253214331275776847120419, 1883938671732411973285658949395930378011119133415837336013393144237240162423569121556473033694024569639550558269433662965447024559438856008743470987707670028), None);
   ((3037922359518446224513784502619719347558041388308777602683127958400992463781200718106530286623135486160503292220662034067321357965417544888491261662983133841, 4254883463977041496896480978645893789816491601184064084655682371699204955619816323952445960159181088036377634635743202682380997652403309150367093527404398881, 645497459048215582695674302793446871552456810732939184475461086428803021255062169558034323869317948439355872692065394021291267373980497553119419999000610973), None);
   ((4679870959693671500262631652759323211065352021995566404213570494791655881452714551696942595271350418657104997734243625747437871899666785364173545625618049981, 2547867416058918570325632143949636362749536563642852276030409358578602208902347393788105716355684210396396274897554932709786497076831931636092070549194778574, 1445793677804162534738364172101938524382453233732050326900844671480065756214077161728755348537304932927195306736451445885269393660049019895333527812808659120), Some (true, (4590834753714594210038664268986289781955015078626280981674818641785780232183353259628087475135728582704501050573232415199530448037459003573488439276702785651, 6455154375376932017850951620964961922384394455027225070214660699481827156110566009204331239823994059126648402087913693949557194118257386625208808528080270, 2336702736506888407873895157514653880025580895298967786937389176401296921836345594344181995474197058080892273143278685008628724909288434752393590791689364335, 2262269783654198173267251700082702545305644717512132205399207389869145946180175607495483523348307865801717390291579065396651610668174484624611515946495975280)));
   ((800009238349229695074328263325072084978437292808661913340412595861270503884683482303408054420776709677477821804332411696741576264159279631459542839211545510, 2290754442552091877487685172648570316197421744211127872843038706449164461079287646852339555727758034938572248392291017770030081635600945049897712981286875581, 4280909821336624302304932981788029396777078058851446341285991444073580132590337616485996701364434340859992781610284316441161636272139209743642677662622648601), None);
   ((4674732582327907418552698859267846397185427745081284842321021068461258038643350034813777583569741535605166065965807169499534601747566498882188121415847917298, 2328031206690097947427471329172827840105498877703056081440500901153304164859065468666118806112068032910195668248009038142124511422225009425297327919829458182, 3486071979194685208230490112422625981613891665702688420048524436385170472151215645360434859806178802674754480647362606554863425925832228710179201322562330544), Some (true, (2062473386675385192281896731929150291447780179819409747571348167252839203757573316558471377024416109477086394936184489619286057311100026696194434670019272971, 3734887677188706364834692034510378753182798114957985242059299299407758942247618774886574771770208648267435156398902846296964531173984435905729986547847084094, 274026002945517021726528296944022637100986914303797199639357261402693267682140781034421683288072435470824359125398911378471518440669846495416153153059324060, 1957639308054041193265696130156048958904773577748569935952923926275283170597379494170272320868301164531258554248931013813273388958141654672407247200502443871)));
   ((3953705270298598004309038951497113533844438520799715191264052256851488627215428567802400055059063931922077117962705715134678105438457633774207306824012897647, 4170890664051696373744411362593375307254683667895522342671099006410680959143767943536104605795484059636794839561428154511737131865317457803470805726143957268, 5020304501008893060824790544979982517830022956072588064894917446468315990631117248011555608423002903941911992471871006708456093296095108646150082984312796301), None);
   ((6858953662844310819972531171262804341369311239569751852487512564711454641980112765499165317628547743931261665843077211042403384428611232999554341458646428948, 6264164486580394028739822398655325142756261783973841845228424897015302172563209075547774157161546711411548843299586927592999685492194043479312717852805217954, 634611294543069710061118859910460827410852692693289074562382292025455176976409379166916020778146299589458273109722767521119263270951285972050472665989662514), None);
   ((1208762269955909366088671467654393041607921941976094395716723023120749712839410185783272859570111107889646368041782072366855218689804595909568631569980818591, 1888189382476598306976809492829534639125649463405491983013654690562369544427306997706494074409710812553524004536839689844355892037706934977242524557258765174, 2688655543683006047328634206593166604227176342367975404093420869707019934457380222264951037446505482514263991306798089781074084750596795812861720037378735261), Some (true, (3856042347538551397270061723131498314581882128544712378929503716880222264514998194223155731985287396421003700633484966434525800906395869248013525318445971805, 5525427256038771679640182058549696933885901703573871138519746726495954698147762161099949581593402223642505576548903905587304182129910035714223783638479866007, 4236844053448737827704664976310178299812985282806367676990168813019532694618450708832478834251321389059000939395746107975901264639631570318906409113305078165, 2702700270625856072668283029493555566772458008342080730070384518876360885173051897822539592617123335042012814055319513841815778390646105727112177784395410924)));
   ((3827250010164891704123398782946876382090031028248254106025130959614299755575815795656333213096336931675202402752531297528590633463371317850195442297088926238, 5637322440028969441689089690184274712817746187387235359623908642864632279481157295616252823688224741194355349186887117290650298507772450860082477977886044623, 3384279513315976192038103161374207615987084710607163900430281687559022789044992902782183156696311681077675946129003141122050615533383364714436929017180567257), None);
   ((102284358705445311829436480955843652250615230670935446251865370586464783543235854184257700800419907407729831443863601631416417282369746162165577390091885049, 2177503354341595054097098960226042307143275714001914085504502597380464870068130560819050081441413083883363175710265748462676459895327511687994218036011963047, 3427887288193278492265280355135300655805360369897222428497255044391615651050321535303587373712599465769635766306649763404378575329426025137166681581343975865), Some (false, (3826933443444259026172706551000738482139669642117714710701306715681396228207099601221287078107365098319484164528842695879977614415056682651044292995061108820, 1697553270306337939331399213442730337004017232171202097319788253828871519805918858842659992969198568801362531109979817955022546936908953128876118261736423328, 2660352999485053569694573554365668703610165922777431904208625493901420813360945248184400636421509550415626811211315048534387760554843222153133012011278301230, 1025375968125523575943590991833603336023846211321605148621006748622185896999649127077440529596045010319094242406374860995011956537681818487075885504532538510)));
   ((3839219256250924471893879010651685114143031752240560654376925828872335982412975145321026043976461302962993887270872542271530473881479477974544723261513617325, 5351757547952152931531948036549152058807545478822896377727448057816507545677837537319164313999374376249287110380624824047295197891218535521244692806327061216, 2208370813783086646736024376954301563619804900967578867879408739312365778375313779962946259324644545539307617323926870059448075321715409902590139359667957229), None);
   ((1636844343529179039090535983209617783137123488806985144408430318057415920004797166192255184630590117097743473153538207259129648117501324933198055482030893636, 4439065440548946089431391196347924701102785770251591384495931297215902047961919724698168895786079867676765660896014250591869402885226338752838082547243898134, 994726343977518010166464582932870412002928825870618827089916113676472339319518319101756099686594010467135369274261052744175921354925751722748920558679996835), None);
   ((1688256142411791251923437045904628622982908546883162376148585328058040976905337960434097412442358165928902151629961078846756884504400487703372809098609605092, 2589648424038868389559887729683598032557533981164817270734177109488663475024258848948424597631902889341113687657866356202777117675011725994096582734704029682, 1894434996660487209702543680579665106514799908394717022287710736052863120797586933945262236630106199310718051623879492469917656633374919556617234161878853798), None);
   ((6427852690645432597056796168675930122127584347917134751784966936032744135142732773674771527678480996540228863823279891940871215134126514438482321306789706934, 3425989540286142756510526339186158074267966702252702728299720577793221044223877113455778413491864003781595557924380655380432349227240447667172118493765101384, 6563885732145901370147057335958661367865839221327623380304968522583240978088117633256133257625703947034381143833535857544180446778164731724755972998170587655), Some (true, (2397387917453607781735379959616296546343188215929626038787848391100429321685167474691295339995863246426704612817146156047604300426592052383247672714805979368, 2723448876085455476770681388532050030452238939037387611168182357722219442425997286991779596467062812173462933103593589479072141481262577643829668988454247386, 2740107015222687355871329392192947806211894036305298103615921066924209628191414068874000833799466932055854395447366683057581407927747739512025161528019803618, 152680977523929530228196251410794059929554704818873036063388641351242961045632289195568037377805132726164679622952196390222867087772846729936545529321039195)));
   ((301143400720819614125220980637511900792785421857459805734717678264726681355696129797780006748014444005427061026960756516848078355898511527466483638237743166, 1463536105753198430489503821820794252255932442731613724288594724749877094544050759423783719802466250957492614002559196796530309246051282195508552689733620064, 4027986286521497324328057111294667561443655375093429873732164824315123425824840526086263185098152727830265503302750571848560861116455207666030747322371385469), None);
   ((1921646426056007498569315647538342774856139664835955775155902362028794475347924545220329206372445507636801343372627548354346054633113779416507960765717987648, 931020135899402340926745219899988398893729698799436237376014310523632110087889622007851009025065711419122349855179774622291940075938953945646353396259832173, 4429033534996680286054466785750943330484779929505785214423047483917073494208601385533665216995569723102548550205541579276929587076631687302348988268256694321), Some (false, (4192634955661942375402439925314239422998938663551793237263156573040233577455185259771276687290197226792578273058265624465693073971099010926836281389143814407, 4068922272405519283114922140411856447859242699472994267824624547070996987224950219011443587344335565484449317054181969242296555685177161332351850497057265534, 2873504957399330947077539117282007676159543010576938141989013970088157231389663106767677206169676059617496022302460119558687953508319925369675717458848809586, 5397441794364774062700948753885692714353832268166909867114864527140319832068085224352696708382743756578961524547122576395392266003499759983334918750523279296)));
   ((4963404689385533502419139069647355009323670552823476644902219720785866013176228059777272591298737000647304722823152919818357745561179340046047364792653382333, 3058713925371019036868478812471718213114976017815428904465038450207540320959206601799507761672793187694457667369906496475000425789337990728093886938483279409, 3849751889409531744288801742462958720597689554995269235542567176332027542339665837777458919814941438910268803673761396605887699659768513572551685512543679002), None);
   ((3003718520943298426044438101161421307763121927929828545731055707436108497189460122738219857674782052002742960329360313101249214396705425558968661398147721323, 1432405009366251890674380181809744673327977265861909045641008371547207643913338758686218237051933988834087419354579360427503471774383844387486359040200351507, 6405366241583634374469764757057164275906654348943132352921214962292580434986395656803145164513537641882233112357187388270630702791890521308728928824889082271), Some (true, (2437127027291318812826610379952169825425653596052182050756145927609971032972358531897738235929008571184681105412114665926979840939224162583503079944240142167, 3613681779687372358206555577566125925736370228905661232017354143778021658949040362547057686791212155606667606365166700884121624261843241099336227880699535449, 1538608888987983160041493503764860525580660238247994072026767841157753430176138805807621283104493581073436894002243701794112291043530384024422753888005679347, 2845792617844834208140262904175526660500770859878634330244755639221541859338401850038440689309494178457060975576225418346496342659897481399052917662706158422)));
   ((1841399743530736127890293577871761055999061690243716429618693450154460875913537094239118408922311285361803243328263934129494074586641430595164938961389173900, 5482320767927494424272733532376649840510933609891304447029594485579052251310273034433385519630515489560061996838031569439240902963408273515159208244656839728, 4945908881444950191461769903196332917448662223833404842651735768040877962496684571357894226026569243317718776070780192524742004151389926958965983495182618023), None);
   ((565913269908278652709521199566469201715269580143032595448651165640981911701068570175995083099728848881587211486732696958737503248870172295521264380592880987, 1109245086889677858075624826176870786545354959555301832449709985095314773992121432502964281688386186297419307267937468068203418370530307872192493397701018458, 4571811764291572509940898399479117096211538682703891028734730101175075735741038391763272324802228019373830091080816589502541469642993589847600940842942672425), None);
   ((2323631502549488224636436166996107037541849901601455576213907730133936180237678426311433331314311086430786026704261599724292959501320253414572068733760894175, 3670963697273804706773951491249437864529779667821465734723553980013125414100410251828781175067000895322913075056875410891400989381981280003247752983342839801, 5373770880763763453599255767943123040080412888991448457853684801373267972871321216196436472225514236183685218036864636067787834573218963729753813054786935686), None);
   ((4628022552386402650003098704624450005061322850364922792882225284584238579691468147315872645034625761590088082057056920899660237568050401174043418281690130135, 1369083904730072724200467559748918868928341973616683656023845824206770833739290803220221618172938659256071166647806091782256312652115572576221428906431071620, 2256402156640342385765010282911936624172677830201743604138593754926062554317287946449446037996262656285844924256360699980908247752172440233022256280299197502), Some (true, (1207520223821229655469478807561014195260658767542933016214146386024143627459402058449777408089867771474953848495572842429653714600904280315051588063952701247, 352936221509166323098352763939214204841861726051805701077089438414482465942857373323654042970723494946261353567837541353744825682425630625237458876759029134, 5381639528527672009408243151808678834999659311328006900758786473862713624051812248560651731659274623251649400201241732639754898576297133995399493031481476975, 1214832314828586424817436923231395806622432387133917959015425877728731973228975668352916401489773929786304386423994802630961752971759243980965274176772009693)));
   ((3868184773500201945459736072900893307673458936180238743836944863172067618764229688901737526044363634631830473257769664201126150326333853655891853569835552070, 956089742736923365295791960007812211843643574312100416907384493168782505738955039002281755033914165080689724418668895548261819357774152214578014083180031804, 5625521497190650849034177888271984226062904073666892746765829683704295326328690505786456789588267109718679138902505008725419089199250732972105692870733394793), None);
   ((3683907820829687632504709281849799557646874310866397677544636354398557628035043939826703706354165816065300433841172642670281746644083859287530743432417500048, 5854309935344958036923722054155440242511068835734304453825228593748930375174882806440595378848587716896475073840822049985799031358365504166551987640006923648, 2473364530645758426984271928000964852775671374959269310205842944803944790190644152319074948164322827915653936401978529672263299048567088666830281563657085330), None);
   ((1745116680291312034836727203595623555306336203575129781935448789000121886479652085157143107293727083699211406176584925308145928954161830188457559623788516365, 3574522542895990760053020477148174836975709962876797707870922394174148587395630684554166865097577550897165275524133406930339066634413044662322999926809460908, 5340286321465597388387262922489876312266041413457521920541203365756952497727688005506687181133943736586087171031310708005956831121086978177766543011187507057), None);
   ((6775465384075132997325858665151068615184205749797426937027311829277382490867004443943819492522757336311400872406155555751191697851203061304112750295534725433, 381208040851129041841338540114873112915437924566996521915207144662796147612413380032177060456012948758603937005555212453602324831034753095839461365119495287, 3347857850420841525247519345968103920278402594761947973873600838617004199021942316092223244623089740125023848376415356389048483812586541085087101691115708439), Some (false, (5042167852082316787624888706070372425574756395123816455340700805679943031964595197139253116568769927695901627810581542094976541492841034711502737248061712819, 2292035269410753760265274663757782316903252161915550277083159050612488837847433518942185924522078311659805239080583637586290704830918846039352625518832067832, 1018719777122169305585060776705773072999965235403035615394205027132158818936122506947470636856458504802466550218869950141994127349503118146604648670127119682, 742698087432081458670245521891496788412988316985814844735251899798908406657464327701479309198148269472282569821034340409353586600372304514895646014806088706)));
   ((41231291622448344860988370953696137388780039257340663967839655199759483059104774393470154695862749920203979961160064300347534591012018498299070462250432551, 4243313763554175772932686165207977599698281445058266450355719699041855551999964484576664066892150012636916730477166069148941146604254595742726460808890701231, 1823434740502262346659775685708949393209643200929027595806217299352178864758055611292485621733583894769564133091080032154685987811135677277333676034681067293), None);
   ((3181744929165674253994016645632339246925290621874494459567653753626512363089554386773637943006293595220988554692364073784478155600753401566307566710769411581, 3343978381281698631326133130768091775401727605316042189379024845000228882795160459824601967306211905064766545511831011825759580293254358631012267610842050541, 695368274967852358718483941033709971091838203015646524399931056856463082352325224016678942872440508851104876797300887687456932554875666185923624069094730324), None);
   ((6363063917800163267097840083477808123793604925570390471720278668417892783814300946181290510739532755518137589231170080678073769938595457383324202498878553665, 1858119533231843981209267074909943787095377549344040097656304003803408019917811867474604737815640095077798006652736901616098987666097472994394654037214290194, 6693009554986307111114535690783333641370903620213118221262072350428279727069289237067791963777987846601131144495277631755317579326703496456444278284948715905), None);
   ((1089834013357526098264863228807980666853245867146741289590127453846875089765372729476172875185662889678945375201890210432862897985910579099968812443055453506, 6112534893929523794702647149975551299161000699395853622974626634197496250714242834758957878130173719262438304178741141203683821199115917260690046766713261328, 178050490209395891786809946047731091214297267572565748908922159569728631703213545146706820587151139334968454928866582442173496845430463883855414184434287467), None);
   ((4867855281006435756324824911600325305301505009634967199138147560807649766790668660304416228741639426145530030510652520264123010949661685132497567577664140555, 6738858510291650394301832839321110692445877403872881105541363589510940924695137393863991062740394274846357942091078057401327691840996946841374973270573768622, 1292138451954381896434521112131197484333845373428706479479950465960688954122575221813695121810632156517846854309903179098748055519988998468235583803309706585), Some (true, (3119921928615524042656394967963288797300595405587748408641831488381793542150667091852939367741923935095557052779785046093395901031101119346013470605121570964, 3013270291615953851110624116738380076352725282720011259474126723971994786114814494727979612144400219131255461269924210942856443000121454874558149209575378290, 6413852805820316601684940070767110564020419765297585136083720972394921999566139300754613789763326462423157015757270129229918687294509215468680548237989066744, 3687625866893707922830014107774492683590670774524896251561709016161305587838242773986714279001057013643481555058701356442085201220357391490949880540510669709)));
   ((1936287769137539356315809684452166464111354578565277250218420812561003064887339040309643609562781114390325734002555113107368435656054614746965646329152921665, 4824134672853031378737302839353286779161855397723424820431094326089514649656630241215306143222017686282844297945328665416432251756175139953983319928766622607, 5666160414221849823689112849704226139063390023355241621189544028424545406655274146342901095484142071541188737158128595850102791179846182119087719812491199243), None);
   ((6688726087462058421573625840659325988513174490388343257611584786682804811739423502930707286026332746979842342540716205014622695743174572041219253525777913102, 5187799709094018056759364221366726681105722704174057708550753454549539663640816252205225508766881801277696162129931758943922291975899112906707680931185241666, 949603276429690171930650770646340524068128283219068344925917694933122101402477702637516992956919482837354193277183914292278046190140799955251689223129566128), None);
   ((1249439755288453235964466420053244216208964815797411791720431089373135602047938118315646748639110908374095342356302849818223865565873799043600283018326845398, 1061092354360973606079549100952534897628700672469177498177218312539923755757540052647080110053361201995540115779000971083733571552490350389876482427654467265, 6184934471452538729292094538855575548387118757015675360523528745703233075738982615981391378283489870861482076013678938421836989602316759334309400167876767527), None);
   ((1898920824759227159642817245426452585918383719049119786587101334953109606502691585241049743005889198267869872739856902901540097309442455400672837486564521807, 3049282827688190966314450563923405645753571139026701885472324171637012439206750160780134985635473393516070627114998175386078662006620546809887039565047271036, 4049929239677039530953658162961137946416532447535744661811402348023285849027457515416821053294151121681749238862976540911886872313283704775832974003497314709), Some (false, (4970726601511629435716962984575249176001975673775149179239131486506144516692852003368442096557526994331456650447384546606763527937810279254520141992851690416, 2960108731377466055718568243052865386460924391275704424845295569609430157577836030270273452175664076050131231585971759476957483967548373937053440336822240551, 2547029972462244902307501215992563097567568431261909073390480508036917581010946131478647290804660735689772623378485268597822378079959858042928159687396730760, 2345009093553924234199213619079137711152163547352587765188782819496814481412711303008728993976298176891477054106668351392060405538779380969270850513934030664)));
   ((2630873313065966106659336655035650627281784832263367814997703522689576688625769190179957828040986629898352501318646238772521200590660331026544213274986978561, 5918021875042260524791975063906923373053575904120158082100062736983422996327162463451436834831593894368465582851134395717895447367111605097192747757354064418, 6131606884551413556680281300744875101842494694069492160691125070143128114642718565930746441382261667784574805654920381487063639258015740564551594819297639146), None);
   ((24716665138295260852161894610483855593779585932751894481835581941876552844157449757022478272917945906960151412224632889896977007189028120905479638671541045, 3238245753151127148245617848060544585396225853512197879166029627802466260665009675144636186765079496703675208037127070309375920784863500648299833148938595687, 3903113685465896165035753818681905686044395952420708096136186703919709957175376339776682718683840280011873846680777739342060403935126542578670601812714612816), None);
   ((6841637150032493231550571447255433822834939366893248390131447398165616562384588029379803899416542606461156827168111831188479621875561187976872234017862059492, 6786033079918611262023150527252056297476040736572659792628068268566213339471492969609815941955315777547044968627255061391207230477040590673234837200015485459, 4446652824877041811958117502266124632691784041517071738078565302066883647025997589092522643098645263162537405782447323377565893678549918723463159187986805511), None);
   ((2364358649657864177238795665715258273326175649613358175917071673943248066989247764729226665323929620440317805576556731223920504417003360350239358811762845503, 6806717317649908111688932634514015855210111150563067570402955085624802504766853817219873491886540364049688324936640097225211166046828977762968314384496604592, 2807001342244689277809851034065044331177056903402967533673057894177443287565988085346432683044107958432422248684430620886423547205179226322401862085190728889), None);
   ((1195569396174436096762150375209174371109627146674811311294609953664699016860432127411225323986564083111094237311000691116435768218056635022097425281113269309, 899018612375976677368951626698553876855332285368996053363440728593237832098266962282835205306955844481261621071846706660365896643612968590049597596064379273, 790949150639023631804777660635197439485694698748539629887885936146686818312076867336478279026112122916694695980386089414934040443645601223598507485912267527), None);
   ((4599284683756997417964254540538506560143035275632680797953677210314780998595327107045096555544787500328572010303573325030706465102561558379449381581508148645, 2319500032938183534704281042017102764954359755223407754095101790877035747405797423190004828389200859583442824227471057258937677663010629912932072626204753397, 1777483220127393724892821739910684303541117321646289703546726555556208299476601010230516133933200950465329421949410165210049440597469914788884863304841067784), Some (false, (579403486427883328526557913745333775503379055292879356353021683498195684047475341874288617905282995232506721378144117423679376048482840019518983624301119196, 4845417574927845127442041028792156879957126090036355599563629812988579778796936516508798200302999841260946724264633877803438303076110228676757551309260771167, 133450517894833081085301662900989282861432066337047384599871849849824397708122883489939966704912526743345331666940744548191263686061707225125443182893205932, 6669609675913507543628457062545177201365083469187258041737324596029561283781161026831724822742132662019382444366482783863217673903925741114014693531155634878)));
   ((113343615280448195347673287897765281978782275444206835691904651882636169131194979523366488998960926298782363004419159472077109757797990000616539662238960736, 6023961814660409935066307005617902676914387384661639834258191687327978661828970483349264882861541834961246547864559406563065761600848457579861151883905651665, 5331623657202419869816783796841000610128102355723288614219476611826917616395236086536698937742371052324337440957113501519621846842792475157036637438805499285), None);
   ((2818125907655923153359777409071308278309734549642427726462153462355230554810811498301017501802877446336294255654145994235682343971554944826337556847204637394, 1048431695097845140805222651645552679592643566994388808444452564709758927831642955304696704032601712351563545822871615988112169797142128837257976669742355076, 3322295478296623303797637397401565551892989399334461079677371926997993404871336956609688276843907155943172979861488334102358809823451637854407799904820292895), Some (true, (6588669189572839416509179122997990082654805920551654596522668187649864560867759200164815058354690129413036797570079908183769515841838541443055576173693524756, 2273404298978614564911712113297909181399487900264055959601753011755329584173189075872969514200735908086840776343991184074329024340095955242603473302733731892, 6628631530692508778916368012257054578021501570647197459289527932592875310019153360644891182135257107703191090771850487594422488996253964416592558083067207234, 1668649167903490497263611803436791126735898338311054198051043177415030108327904515556736569176268549810842481022502179791855508816201995537261726415151623144)));
   ((2685789212264932401314270165809881943614255710055362258935334711207021603130638605745352762093008614071941390944563745453760131400863491044354863991630026049, 1872442523231754732934455235409949434383839422247644164391200092883238998371828723940026489728615097402419838966805798344574833404807173492594222260681049825, 5366246117171019979340148436583520848852259811788015363002875418505471777792586717772429976840921148404643324788990485769404444098425702180052635417880284561), None);
   ((5875133118424942519540833511654731681049160085891106641009725456547594035102256035586299814059257921341029957182145488690767105507304456263946026498934754773, 5894985762619777351065390228597178267196286901139404840053096851982008709087279210004002600645449855208072611772587681625911162004010221475268100701400941709, 521227261796149211873759047365410021992746037298168326172258417572506353798060183920303612164021644982291602170159671164721893859157977689422451125520301739), Some (false, (3882980642072316140064078378636237870628354571825929664108688869339922686863630526884358989267726622306095039900727463318253420088615489318856825942614229162, 1233814396484868456683291354062693068347472612764995427582714826958258639299954285950754406535762490184175069844619349805271682091169907349959450852844829489, 3775486356278261981930516250447737142423290640084126542375776790718054179489491440094291502178618513640505936169013275155788158414268217405828999022178841349, 2160801086137568338447379542769219838520860477315692247303477480809277390859997056503054313197728810186902151299569316821547450049964434269610272889977852301)));
   ((6460023326932279124214241067250030792056192049487534640603856016465865813645607573346154795613903729328315739264544622906675284906796117570897064435556836980, 2772436425621842461465618255717915257775278510089250457210423434851859186319817791125681220943865246218246157644846054346670648570069839227386976432397282852, 983211012613245323377057011025868746640362048453912299830893844626419223088826924867355880066443016877619634470324188823614626716220364618520420789809669592), None);
   ((5183868704707675757629165337093972422602482167939780927341621882060023709835648292429888928391461469689676921174105483173503149929975490430471586794366316005, 2455001158459281958687371556606871818537140264728752563610669438938863037080396059525616168305941767530031627611684633134805150124603268554437245238238118798, 3923851729116719013170336918094710957345664643424413776072641476171534677721515298974078152443196716561777966194758555349465051301827922655754511299110401106), None);
   ((5957568780564674701677780238863841546296105448793337225976317352360159403817332368010369605734194049403833031231328288589782600682644939944501466298790229234, 4022603386933372879415117817939403324695890019340183300346860936878284232166518109924991111380471862512461974226853070203476539919504540618017522511165889425, 4724884343749886683511869385498091310329606185679573725734133328598063476715018500883845411820405681744005458787394482715676413042322894491698435509398019869), None);
   ((1013876218650361689213192030349935621864365904550268067850584966901789641382538633434570035784730451207936640755054752428548425530367544065468385984334181931, 4749620677901206402446149915242209110589811984673217974658026368621505441192241939314679470657030680978237786325672609573568382066502241333205403582111281083, 1871508113134125505287758243639581354189559325354951054287644720121905172257478307791212188512593749192943191332090363877075572799771887500621848258463129533), None);
   ((3541728522284460614704338393472230131871820927922356083837618974149025428165659675568067790082450213074455338314926705707485778789552263692833584794030861417, 2489118812358434419991829964681090422555242201450168535349808106884304970156067728777531752075792918137353260539068895518974237379164885647778363451556883120, 4713227904168074808994487541095290423352143588074495646083957793927083826539356667296231634052027454784015358147713588905137178934200879223086972368498045782), Some (false, (4869259049726130318005734083601506095740839074228262568187380781217163214982630413323264835658734957094071952439280734634902487109385631650543987702639732409, 5469887072823947089765039246391535361401575908985270214280733201550421637857909589255485971783419903850531334576005459496609399525303086758325102466525111123, 2552722943107427217873846836799997237472011206429247535409999652635357902719718337466932334798989527034050213126476602664819866374269618211172723320085628672, 2498273849181531006666535559261877328352205408973599406905871279627292806917929947766929985179009266895606796182143100384894430820534342483238644861157459348)));
   ((2591798504517622729711689133585892474656411535188076979251773448994592259320906649454822831475028485238833941025679677014543405905825167461213943163819850339, 311849103599040839030607364821926440055067703271255525122619438400815785473694449095927825885716902360087694211151028447122711975530174787809058478565389367, 1481247031722683464043123529057390970799437196414788782675594504067108796019321266833779119587295745004520794709856998889480321682047922600406889782412167178), None);
   ((1343910781816387082831895055182188094293958528674578391291482088529050957237976978584385650179378332606667934386157052188440960043541682703038165396314420479, 3064068256539518007980198707007410102787138211114478782375278190445773040030204135285539420591413057035512812327071367960306341978018296651689204771887207239, 3210398284631937765454161467347384536477152980353285836008399856957195472475139640321071025011949397927012654025138057847999760425358004752672100934117275684), Some (true, (3478402468395443347649562810695728653277070215870777285595413941021853231026859305885950711052160086546963330115992175747848652331263297433207413928766006052, 6784000606265479204498966456965529749314642569772059609115117126530467451668989636878890622208435066947221072904564283549294314985816475974711742567340143736, 5913142024180644494967752748248841607587768243436301921912310274681274217648156585322607047651858660246238629111907874153463440552728486996697669050256962234, 700686815626124378959917665736639895822440761722997845216870603200093137796909153705657986977008798477659442828493857521223231762733315644834732513772769515)));
   ((518914449357947216370013170930800895559745559155658044232342816487790776860956471134485775997309719553473055881033012979872630219233815780014719305665465430, 3436416819685835281683425942706240891496399538194276509030926389374094398182673510361568771466924613414380738476399744770562259532432889019024730753978019760, 1015098821506783478281283211242075021053891769691904424789887534072176443244410681607697350332441156650260322754255274964808774899016562522325305715880567777), None);
   ((5380724126563579378554740820163614910770852347701774419828448984769432530896630421816216560136533174003545404746417129303729654541177598766704903703084132297, 3072885876613838938803221136207086608101109939633354124630091428114298104856098789621203052111230461205337774599124670578761715448985616574846897887538687044, 5559889973876704923815186156122044053532026731785902615353973597427279018273888217726368554520920693678308864068906923826644601273168634803290753845477405149), Some (false, (2451439105864964036500613092722150620742443363222599026946850359760156986604201003866605604270250373993734596607242678932483271195105297346327803164939626507, 4407863201278343841023953058750591628883587618192072492120093114320991892323894321879067529178579835112313743602476563955717012771800788934148788635737710212, 6763713485244604206049578245374249481287682878649105159203393756054754898478364088462158597955253265613769233264630547779055957806131481072554050173617657887, 3574825300995218348368772359433502435261804650983005281158391782275123794143435911246856168099110974263128419155383170617660122005681832288322686421775122823)));
   ((1129200515165116640206847250161485392520029549249351735967419940791001551272815906536479856175096042687161901907760971655035617456620583713903706622053363440, 3134346898592289157928723117446370871327414366670239023856179914236106760388132128010382447869862561410944087425059789062057114958191196714055693189196414988, 6195735884480108225677798612012592083943982550000799274145396454630587608403223199919773165849920527129777815835731511863522553972859582062659834294935090230), None);
   ((3791320931331095777305200999901047394058713582490215393786157892479070537591558816979194101031473067188665081095908420005276284202418456780277422202382002403, 551040856862277830917143100890588729155312820188336724482050158539908534660163562605041065623953240241433277173318135985222213244621400226587417438711369282, 1815289685649731550679481315178459020510545995005948737607513481131615216907047903204848549148597316421739098911706649397946845542558580751453357862170382975), Some (false, (6678295572221245399242577375111959587142466492658487251528125639610713347455298390581285940403742861567623475253838135132584145387286929044357671208008647165, 3086580639796980478302133803468805969160442153867312205116683737486787921708076141352958074273052585704071498396235506697775415248562026839756230926518494342, 3537199923604989074634997026892876711730640413228446886296763371291235202291557181896283673657121512641815875127512759950133219443360772860865569066970675903, 4632723316007671940574410297892633454003479548089500096092590380689698387842573771540350356041665266770071069858079853308748240645359404749499539616451037128)));
   ((2342221100802552674538562631240385295924964226058181021534319025017819014497151824964088278478892235919741548923277350125735822311138130358845065655105159097, 3800828492230469711372598802359338765312418809236589234748751664577656454583551974712321789960153230268546210515586473591912811054179234793015302197210440145, 6135349257998025683167916564446671311031393940979204781996265416784325734827776877689108640240664050854287239395709378796864319185769509731364266288744163564), None);
   ((4144018320202540244375293050074258660724649133463556697692407269305452908501637863017842621322454722032108661525850958772006886022646587554441990008856793930, 3023041062284829215964199362764543088733776788433288000043115061043492993911567161899483790296480393282066337815175504767340323944541861815771130584393208958, 2081312272487069065827078161635928504788816454210297440583103353490935514690273377682358146190083022369018666527356029878011626447137682554099163881298625893), Some (true, (197493151720102021130428967464019277560896868981918392563811575131650174544585358818645070239968099852113702509653725091732501946394834485754504363794074392, 5174802061723350635657154452474813983938137185892108861413893518664122505993738552709219004148797817136374244196168232734001474032145999867294235374867363301, 2781123734636974006911601327018595707582526209628548727159753422878840401116209814417315001368810256416282474113404062859911584173392574908725917897889342772, 2681787889043271730518636494082958969823285321411142033873526644208934041696625513910518400439404491343410586596796698131264538552865286231955695343199725655)));
   ((6455976828416271484796490874748422631600057770630686196479173640658750942380126238332270210646067879467514938660977685055711959900121564821589577199060459077, 4619041946566410233297168194113327230617452670830180859791879349510547593966840595215103397580114554651954040073625273167961562222622589490701206247788761533, 1253357197160443231202905979075379825483419922577074614269044715260972758570524511757898117347893059377495146770027773573317706402114339874398767009627209318), None);
   ((923960570642929637303765747774982582492997253885944839296679042415275020352766612879777825769617273389963951418595209002791108378683147904863582885392272815, 3352925553498238387480857389017366677022010030502316793306566287366244975580261744727344472757303015217403169798002759998341670065975975608068111192570668819, 2120947367941736552186216451604352651471493952149118646368353965396979825368377313858959479005981837956667368340068038325660836852874175419547766245365381311), None);
   ((2319159555130127816734163488297878504971987967846856533828890282069517246133681814357580100583748694855184750366769746074109889384875188122560036726653464377, 2167524983324921292555040457558844010132945048959425382327305817665015570084201155594493310548059889505941585657458512663366845558223673160206223092861719758, 2231226495751780166523583272413741479805869375233701721094348379031783380298833414277343039721226880466429874637215211207280276935834740931860459642814437864), Some (false, (4483681534803722938854996469415706374903150735449489055583609642521049800047181445893203642347297050020556365623351499981112240507283699040263480064402083867, 5965268031436705177119069056742739405298959387214037373627402169056007378041887159533876726809408740871918253528072488401632013887785517372190052868010332094, 3084304101397884646368458152831391729737665045905867610108989692953822131921006324286680915935503056655223289593010706064375649194763451529057186560490637978, 2415550179401035642920248739823790565877692804995287107153505468473821878421079549256971573657254530723413031619815668581298455399490669383241031032051650071)));
   ((4196239747101901950124349744170526345812588284442393132422744249391403569739512710810703864858992173262087699995092076795845528193389882420462660342403516584, 4318905170552182922136210291433765689761243926567557400284545838995497863386038939326917746331901473214389754935968639406821729149649179542296692944135787581, 4029350299688564680623484146651485077996247481244083990254370512980811469790511012280774250130852847827536477802694718844120420403677744161137756454800246969), None);
   ((4746210335913255439251183274536966741000634732086651486500117609681735846355557722659951013235576640919710899772417114430176940819372666648664075851304537583, 3570696965777784719154074367775986561783049434242989328674144883030662262693570414908825926936924765503896089243566018184820347657876203641136899050562830337, 4095755672439242232765097298935300852516980412802208867378683642479669774798744890758376910584746199742771438691925715843614525209974615082913948630777378667), Some (false, (6058157692926379720765984634735828977467287841277118386709197515054566166000406061866678644099127835481739749097580324770811881592216860215512521011058165853, 2907412565776380889161738325952506002701414116012144302236629430967245349360211881648851716586326161433779232289539881110442038424327132215072423508194734599, 4432274209460105294689984860125425328213829783554497636474540402915424085624377161380012906810844585669214000516043224585288729954777584138666707922934791921, 2514525295510896290971007287562604108357004063601142894062395465702784294262843948292283799227220616253813295019902837355652777788803000401994990444857823657)));
   ((5963419848375310603053037036816616869049452199610396641255078888184705503069221169754483111551746426286960896776972474114797335308901355488018577285711604167, 6342436858822592557274170015205329153365253597910207557454176325982068014481421786973862740701494647029946114448330819732560022706505000003367978528084025483, 154190451606250813414827538111834902121020568595648446845495378337555035191961091660435753751826775296055764182037664840479270630372246462550249927259348575), None);
   ((3854827584362838129452242419846036736849594048318806391868552309002178129907069930704242820440535117139093401671273091663370726481867715419576174635537936371, 233243988767840656701442925784179273181834500191575568647007713443455055788666609179667457516164647202090772021487811787856365097011757861804913895664359035, 6646382052679884119920036305969155158923065933253284946927517467168855092652464398374849007175056469140380084739110712046503641598449956691720987288720999979), None);
   ((475333197565582829490249261438667097714562070013402534093885690590645565999666645808056421103921764047773155455681127495353604656790979639745905837062323482, 272169248183848990860278880334791072486501285432462659950621074419180446765041893296277880510858730923940455458432774924730431136565571828994963639628169904, 4539678496545763523971611242058066065605512923574287102803746720315529428463064239392833753640398873403018440801522205369657464784790250100998976867410949243), Some (false, (434795493865735989129031985644804263585416497043087771357781598618132949586456260582698094084614207006152635729174464707365003207326438997151600121615949555, 254172568036421861024010413355400379491631112299797623691662581723276783951066243517109799016912226727613760395830738960075247676903957435939738864400464025, 433293602699296993048859286231394992609964641934049964445193910699793175569649715955267049146225068964202726039917134490772302345649832593451421113066184748, 2594061320859400609029006672037419075688897629078680110815359016820649479552940543991654578820775190696397022474919959232879367787418738872022892790355517467)));
   ((2071452656738600435736858066446235727449968501005675316025770396126128433416030139554202239966822918428975130196169821233971382965566995294375810831399063352, 2930189834100570552580146542076987232400889171937153343897829638990662539328633170474317680732707646517128749433706391862469658489820817351060183880715945967, 858906171242772341135516798156631763256584551732578240089028961447424628173042863937661189853738973052560580401286604837761352420932601679244788337471225761), None);
   ((6424348446486652039377722723819098847008605817893435499546157501718784564750378061507505386091853438840867300681770306363115927820694380445328075308759238796, 5649235161240690858634586348751718504172074720628106695127808178366427208603227236238137373440301727973943190402589627054616879267720141509865218854590318016, 6382958156727653158251831623984180440173669683617019834175126504483474208858607244764127060312682003788818742216336242399979637237798408307835658964839358067), None);
   ((4856596740923561852647329051744997756679121139343703225496202590178067876569740568949772057559158251988399833851771082353385837219353812510245331627467017344, 2506301031288353101464496685178775291814654236447270177426508685084089829284128063921059814614968453233486511727623630402102271186579444971066967755570313536, 2570450753879690557657917456194912999400499292962009694516450694762757974054905753612901592196098922597758735940394216202736786352852941718823991477393549159), None);
   ((4840490385570724719789817739701130575300746420660116582781309035841027757944473905132953524334012768940367957108275819286610763822721785164145719492843371957, 6057125103485860924640329934682486150609897850410330597872639517413207724515873430147226349860887977894559558322658426325806199886777493775962925220795414153, 4255135585102080136222101449592130844116288076853161266280923471005798213615476313345800267298112792245451065086337362805778936191554359345322012549571082746), None);
   ((5347343946175756134636386581111000987214723332338852812134798093796033948035068469571818295815395347920547697459381457096438932566666553715097644300619708057, 2386327665763191524814778172891472227779431903142326590429005685273664008447079541006336242363788366888912736263907852066713212645022950000274485414745894297, 1265545961339211940450688153054943718403803205631499102552720696408206395253804835565965435425289248298755949776796223249929577219336749607228930927252639927), None);
   ((4021734828123236198759893483628678139845102743665150031019801931021420729885109988740956045318426975744078290175156112800748718920075115222789251779857756629, 781718593059292686480807574210115150841655359829820522876241085067132410381369691705615400354684300302326811374864084172779110261814285602340220033393355343, 3833060867784866534142871328202786534162972035120207867747437638373106041316383756992566820434629809937803690647051948868767161863945844642861269585431951590), None);
   ((1989018415478473722638978323119923137887989112160155638996434054328046213427697213876027928546516155940029237237239272819816092158938303880160136149421093272, 1536549630013222241616060383252923182688670031471174595275557834350764671449934814670777238301327619268484681880952731866441096472162356782070063262448763492, 295311424051661335141356130820243320935948750921900520285926493317998272080023552619360296531135108068854260151002119862522451048040500682238357719969032886), None);
   ((6036050120983270279697852909622554475141135711613715340099793269752328756569249421116306810035104814780868093783466640362228797585069309987362186036700766232, 2607937208694811791673826652778599270679720273964402925982059285349083862795210414366524366902074258699344017440905378734477005647630251490494829724650861352, 6100980297371793467816145576777150606701797709224915261122007230591476349976665786695011401604500644672486970521102616881288885009427037580829431521461700670), None);
   ((2669327807060468765187070607581317404534122669823397283150365646883262014513661024727295536411461245785306117672802733236097837779172493542989809526198004475, 2291211091380645303737350003642600802520858634810715772176533822612972749077534528434076086273395853269699507064543682504144064215210475405892727737589983297, 5793288226800858335127365982078587623543079645940999034902674046759843018023826573441213558371788315148297083395229243555138378268882252736713200745044490778), Some (false, (2957370051709219777479425009651469729080296863468884852217359711942628699475254267754468307309876311993733857068048186882745884895177783666120833003326505106, 4292901985911610445879177571383462314358281404023608798254524674824820095958965552139701044246258944414204988944105300420864614159131489563394249590358535004, 5033794430380573721069082296847037107420899684721445206991766218660213627926225737141927971878271086367478588246211354935766212241246975120927644028071597506, 1018560328439736718875834053930854627856494941644689157689521195947237730827376568319648955665772743425455040699194510975754862664913235424139827655378241571)));
   ((2349791573471959553336288669714459918043181674253293067637075173124765639973839168060818534789951605184527020178875028892899923075410335722586627396534532073, 2386708819398806434354111439497691324762804884763938625956811753068999762212110897737880779445494045999362762589183199391761639582270372332032362366006828467, 4802430787494018046059852952739394199589215578944312148387173054737956455258855432461434854405229239467812876259650618695814473675269929459930454911830001729), None);
   ((6414597077843095422310984530918036926396351076795595098908295372222605362954157203062810764395879091727719401258702333163003505658357692560129001642016798375, 6568007922375170555697364522120990378452060574615860031640438678253853948457477478413494185839625560157334165880852213080610251653847727704460432285991734273, 2165406519338937351451964802298156269930591586720711485995722267737856257171988606537997572918038701406475165455418358745861139501497718345219396086911622615), Some (true, (429220767202801938574950276461496807970586688985924610744475094931881359858951366628924847201204749888753184542747465142807125875249571688311056449676298698, 5554483153804683358227848604154236013465611555266386259457804037344787277754421381129938627734982357160042460955821749031993151669291507246805922163395062835, 3771898162879902274883956403076985477761434481625877091500184322516536961126020191129395407946156164097318662278221564827557788858226196300221857515099394821, 3405025245337836150678172954052130496914591841488619701389084593436370285753155173629285885205084795881502258666819611179811708281907793927049850452649354382)));
   ((3734917674391251409623537284036654341317352512542509058362105122243866292663212544563149808675570601620424565583336729476569549694971900963879998525039888715, 5593282359489212614924924159467563714165036525976484110608514905289020258035351593400445793076723386428979878669916119826586370335887387462559425078424904426, 5366513966361144685758375050407613425757673205329498974082834511341455830203558525897033497977410854177083712036223109483154238991619790300746527465927883870), None);
   ((509827304324176417572396873306936979056561494140798383636734144471066932175165658437386466973004400132513655116408666701279641412277813180789205592085610279, 3385894369789113891839598592120552887916738523900937383782583727477179067143707261910446930882844934395475944411001562705698059240747659351234585345200543855, 4476391255798383674353618598103493995230689559658241641018724384971086465779951752730567621281282102713592328724214226426401030378814170076511635104008282227), Some (false, (2577139324341658596092783379533739387192017632292369644885165010133439596909083933261065259714736047855189406419667897261064241794853744242162553169280553512, 1073996638350546482649592103213902065322600673937959711619573720154650683121838839664353810848976396712235302301112669344006138271291455160211764140302050214, 4578138854529966553621567441155614975040970236217252912705432272239926570720969112718332301453198420129291120546504075148942391313006348593266191684895387791, 4569724480238924604226358337908207390941240277424089969552390558596173094686240651324466367637569532557429081755034521736753102623333146506843789941242970966)));
   ((3304445560478980900761431395435733637046877277636900820864116588462260120785077395959031651519830912477653393821440747018528481029865691380993988861592436585, 3405752684882164268029793902526105913897115482773653523778741977679377797002532576297822495204629956735619494249226252861220103245524196374837577299641914720, 662108952817936212335797152612139705075620602934829974779416314728831125428617851770930987389703679288009237199730045412282246431843692332936812037124825748), None);
   ((567986777083902140423458383878341464002732917510662840200873773621700180247678759977558041804013178709349764397583661677961032345909861692276627713364999296, 651700909773630876487940150907277733500669955921457506709114817128291970700064861845423980326981189188283776131911862477857717177212319655075600277600109933, 4646485181477113818951125665933976344184785131849586746192811518400385404870189754086402431482975647702591262554463104022729679315533421576426469459405397765), None);
   ((1037776130597762852499318788657723646109933433270581758986030177763467135918129107194232150734569636087017244760099295600640783675775813546898783464980015596, 4432149015596247595143561105644542317620746420109031406493846268994500616018921908279430552582678265055542941730331528581401754358336723941219755537309159981, 3527608672980893579002791238936068788763591861912417992256636269353699289184952394334869541133340147728974283152775240049478745865747021080454589366714414656), None);
   ((3222544683183758302921995271690113583145184440269237536391283115761551818473349615000109958890398139269171403410332446822461137374541505854866072322674548369, 2064703816733961997153935731447471488982261679901180053079484323402458063853958170660783856034853616064852269640646711504091352466967635885635092451661305311, 283664117398099426138861925000993990543603007148772388498058640617189043403285620864015639040042802288527998474711658701165815386569172345064453969595925935), None);
   ((49089732814964709644585463378436867578811198875893885563763562495924250186447591117097262045242741576796904648739328662280957736144760306520300377253197446, 1302228081831435621798258272954836560113865882601609287960786811952953904954257541953663693945915177113020006196890453221654333697631913019601083196353447767, 2896540056929612615730980605116961957941401112819032335917915991499819643470818498025294936649255301818694141333456198960655985416180304627759189381291821183), None);
   ((3419724096017319759825313189905359884302845923698970114842718873053914808875605078776112971859796648104356081158554659349514141660195328238147056494533726454, 1112978073413951580811674016664074384286432643931491142984366145349372422712183758946134181988147542101425752343919948639626304815666996353270167337383505241, 1627205968375412105388088357800258860909966483898957868505301968855101153717182112855366428668848135959838039188679714473260830082222679649387647656852646837), None);
   ((5153949292565907486910793169379059259232656443215206255520817608709458694152339797922008861403609364327374384658589219061012301458958330131394105834162455527, 5356294973305097236773249452781412208770761999820950626711651418681563021669747443120046288853422272806253717033758645020903739496388571372851442614709769289, 4918795215908089492771734440909699058498281112553074191932002919372701056905415011194029241797887097377453037251046041308810746619285106482294555304529190621), None);
   ((1501458438440380330269198930454308047571831221654751037265951937459260995042237637725890222931849749501639810776619594132746847225334649300753477800339680678, 3281815321472093585957612834016228760322914526664248122372886790175648758401949895090657038696262944639518478032651736647836697818698425422679665642346650718, 683139591518022061006843945532641717295923970789381339515308664049722812827133134585263839042899803654116304055200201369464440340162459913684917939298672133), None);
   ((1567619280061025950155582862161524955556866143996392159879790742535328348161224271243796100162603681490121981136437756796250429751629081881667649844052142082, 1676306937057890683119508703974817473528537175986319432433055899026236746299266014725176410268483326756557057823633638428803605840676530198343165186064128403, 1970326097457950705840890439084682634508750597939137445422060841521474117412775159249481011083198619603620259158922322146509108740152093793201055584152916758), None);
   ((5738431044739776057579174503172275588296525972746026361744355457500260779712982209348617022944011161606671000972163148542256961094922771705656170953550345352, 791095442044771921499833172608523122497257240525898093661955622748205160278131437669662692665109887073188969222568248394486624469260982056985153237239432887, 2555887703754033384053999480718687173500749952368514136619952811680266764098918951277256125890425669607866075874043690505844706326829781611394265143174575106), Some (true, (2626751566253969188498399695753063930807375101227425932094276288631369805769642580804387651371035620336888471239606864886563122607670742330917360723453143535, 3881991996590639011842532692872667171208550377151311208096330101612243405769273963198681473224363374324462151547358791222002623471786714087330796742547195561, 2296166969317004377585185752524809098440895638131374965065470379700828403523535894807872163735694519206889871593637853975550733778347988266415085125970973857, 822813234779493387492870939955177943964130811500305866731034996477103323693546551873137938714197261490198014063644679755477630256011231905046182619259490316)));
   ((5883881026549095741327408099236719118204810884981721147818783961745398378581043725279574694621320225903149448236371916884483760005572208522537446859264717680, 3263955061402112979096848616050083719886518868276232881715163827665734773765306139779668162956212888982240993249525167878568355795561387379076876024148332449, 5226074766523297710298942403964218411307385794774453180431364159114853293497301934767613331101173226385579776064675777821475718629957535835653120235747937174), None);
   ((533699438209119436847516529023031613738873260134537688173885150888792350904936620105909851171869877825274664828356343171293616800611506710598394324755101124, 2310215329743591276316114955474939769269345797088379937117808427091692432760409269461743355172189524449437203165452286928706782395710668562146383466544474573, 723079330734646614252071950704557249100090336147592538348214449813755034701663112785992990439096153224617600712926661034361655534379871130276135906165762643), Some (true, (5487174063390465784217730407802212377527879346361498544842846693165104129938389444055909911838698264079345509548546820942899961578941779746643009636887332284, 4118692851655298862665941277204621196280535170490046005442338675851895559282692630098524308304099573195109578021546337175367621323922624323660516508728472602, 5502962914105908869743983746942048008569128857115756750153144761190909795115210501327153849807321421779677922666998621775325810683735036145581800460679644467, 2086386786394733940419592084881394670305518102024708019279178036946439296660493564535923731621863716157467548716938573662804345866551087317471397782488481171)));
   ((4643920558336893383870897051023992687257836228351924621423033011596619385820248761145397080988551710068040638760280829302489322478095104992088862597319276322, 4054303427416070493548316104283649960271590025626226272148857788067777656385509660282916710613073091935654463325132088862399914144077493313994866255815584257, 291405217562220863610992047649023034962360383890374464721544614685217197656079217780847906773358464876277848667882963018681573721383940444147212912740825682), None);
   ((2012244584738569990165051250152158722219122383065570035978409541716741808073818380074246816424097935538683794374246385237043944164914451419833358841493736141, 3437007588002898561242753903176683825308800629187889666641443644774360742445860891001824592802733332949805632236235547210120425144815968535114970775583670965, 1938487543104986874498367955284138137527570565106207425154767623112633268244068714331087417383079437557938414719807291555553022365338847462635461759511138022), None);
   ((4280062300692197499959209442189568717706134213393908574276149222755257952813872631886024901060174292078671174602600299597559119913422067735063989364430002873, 5994218211784950169651772565647160051062839388746419916982506680013780463391462179733578700231366303676576568823364473366918508753300642110635173537016205523, 3046828110512908110604432015240011842600273710128240927696838819999941723659519835537163817450416493852143764896825855113982455921490741041010937651304153014), Some (true, (392376598104299963650909622610019580629025818076799756019585731129977122294931943493654167512492717567949255689935579123487030679630252228183994595691181734, 4959818193941329486051438417207607724496441396103292809360318753449337518594494868456062693496348479154491930199522905014138431588066940002201126403382614467, 3786828207751672864864863772573307370304984027219121016908047751023687160604297267894773031270854550936594233803424519434207209613076204895007600397723297999, 4981582847625985659864563339122647702637542605715261041113732783594185970056913487821272709531599601768880202704671163363188209647427867777842117090369202262)));
   ((1887268227924358851825133444567857228341630239657953060234618979234161147264664909004698627158322789393229438765015130298462965456584137263751869346813996105, 2353095712763509072583990562527265353588729221652897587477580498956721952375149703816796196796196610463846465909479322883835483231790395481438548345891352315, 6009205422946299115806541670361035005261028406693092089611978080291045086095395079507784285176697632430361316130639359098177344411509120457426955503079698962), None);
   ((2087084863867477217584517580989061700092828911144220050940016110312293557709808778715607738202310237671003323839053185712903991534872004446700133261282375323, 1439770456539463702618057488111251724217138264940749473316135070362237558824910138807952777996947523518754394398867183640632708213800753179398379113838224011, 4538042711518369258693963109726192862098932695443728436163196934792527384704875458338224663600532215612285088958683888883246471749448568210480637313884097126), None);
   ((1297782313610937605369721214305749552050053519723485941940068164304455294828311845788890891277138661526267730594564431638691888086941679855819078007094108208, 1898302853081112646893351174985352034738775671020143275070416594095443734714545055259094863500711115457199193887652907723374555745782763469554035360743832606, 5742366225866820848679001860602873055174009960532801273479995684354535751348911513626801525375487123110920043745296823469211717137430839958471602089763012932), Some (true, (2220711007984627348833803945112121076758973856475331828552252438173666023247059585768767124515703042959521415322374617409363049783406161251347456207287402803, 3467298632770821797880202232514205603191079030285122301074877803850859044236937705999595160582056448933409987735917401877577318297841262314744684798232438993, 2144086272323387232029757602352715153433469885775289193038317990148484439749371562970894817464448154744097201687033554237147551482044856956865873284755106730, 3974112232621197806755097880084480010365692513989250925824076778697649460068514166452421646084499090553440563433074098077842839745185070490305751719002690063)));
   ((5719026037291203140843040066597981231218582088735924189382660201559573966098858153725000073433121695105583297470144524631686022779619289147445565136703780831, 4181509831736881359366454760129846711510213438721085119024031918335950705971581664471958263677305740586330619189622674092215960286998389293171272022391635736, 599696832890320273175835031832838068290213636245047888338439962678775108436777284412479931560308945051242772417898502874283223566427374424130337646529492892), None);
   ((6820012160331911574100125177725695692621392687070202710710420924558055698274592644013136279790318792632898612540414415188055172821678761321829539114686028247, 5891579851598763619409752242887650621660680835085164577889318603545271736418491536231155464993395715701396639917123565411238002341002223624813668314715479038, 2012414592037882301840281154332566149038974739719175891600930493950626089797751939574497248860750940100441580867605713921916939176619239463390111348649848158), None);
   ((3994021129190141115486480539446939121319976508383234779463090188806526943435164477505478924310686107063169909494513346907261963631916407686992861672773066493, 49414585501668654076169563463347713142918387685024203601607871155262978292377754386256185596058073644408800478168440324155454875012644748723352607268923816, 5727546966708227206776277174490254449155060801350273310413283787202980513750805967066706585818415979215208812365329795803319069685057333436479877890618262102), None);
   ((1469923099310906659962328455692458393250832690371154099586853993025444580118730448439762043108598180783863810788209647998680481910163757953894709529240833321, 407574943700818901656436869255055713298516229404728700782275453951537750788170572372856581609325179924960527607612607530337247105838021353552615231223003009, 2448095564289545820744112191656098887528060071789779706795388479594953648593096522659195269650467580171673888555207790593591719730317649050829010897401692075), None);
   ((2634355730125179730551516594228861129527422378875181079363687462745053691176070460871418260492460720539745998671042486612636630477657672865133041908653973886, 4201825905326788375551983992040917839338387997814415986983211781705911767647995994579142311043801675930606100897178864843784233140222792310963395131947228731, 3469879019815696892987771066014483171414444125192500795339417440579116065888092026661436917352772386729303954509866653961645156387831747778259417366345619547), Some (false, (6650299483368312974225850377722766291935968059357704549495132749524713964347080308045999150457466719080410300504636580598784894901301220679104419580217278929, 381934642471155247435286455428598946185901005683206623068273885674937877971887320927261567880924314535861655229137619480060900505367759800426687610261992841, 2160205188599169144464519508890587123116237481852790626571158305504414298637856875902752640129260933265637587818825654208666503354978291916095454466114591826, 2758902775235036364489862838434249336297335774149664834020638518338214691391294876085631271089713940468106825316607275199844813230106036670331505509517186078)));
   ((5992883597031000887194847747076375721962290068229770469830512143497662454481147356336907876150314012654297052965512822614124110595157515053663590464141575856, 3008880305029114379236620314005485500661611573879365339689905848363491178867150504665751390462453316446617422377958666972773454238271431707180904654009273810, 6175162222072169174891939201040028148726726483440159567711185422977220272154416917570101288610710098245977880700960290188243122299730961625880008600878924013), None);
   ((3229041430852368942825373172597579088292207245207105807678367457980947767788014678234615596245674332573213594024748277945646840822172455408020929514772107096, 4273405397405823465708250872844770000246421313669007372985626941633129857462996218185223664838822287170442951486313810467216129845310450580329101345567550015, 5233419272262197781385945001701353262265974194496664539843375647552369142438848479549972178557170356923926832489113728921147236418955517904160032876453824244), None);
   ((1333849534968109950005336275700596725172223418790314047410028423680014853484764160133766652011229167421233740580886809186626715095705639616590247644901991699, 1377337361726474695576227715532720010350324291682499985685919836995576353111842584565965890642577049217080247998315293474835268904309902648149743956788068244, 4479668035880641656544895457036771797216682149695409157117796741084698127967733800271639115523509569505326918231573517109561737275819706779755539090265383370), Some (false, (6072517832467790607249401396923723397547068850544122805213209984301520189626051478781087197771148565093944418091647576429950532109408752657600656155223782842, 72789133492153555071292271805061165334084956851662808167122014320473149405838885152281944320226722487546009143511736431097474772585678137394885939647461385, 6672610096678845545515917672288687538471522744786227014018852084963174214946208489888774306132812637476782096637378036374260586797101006128352418649433166172, 901127360219537280789135258852163094936925290042698617240827503947162731059030930399871814347472616220178015264407773804611699858754076225306946526361994735)));
   ((2466293397534269653996642211571641911066720743031961787733251330772850516137844301348999575573761968502458243777931808790904141144639577148108262672206261071, 3988408374194948895982864105759117680135340737618010108789283275481823927506193664564914479834293315326599489332734694003733230428205894449389501228633194589, 2961510250985105279053448357825174578454781128101675560505399859838757650509865307504040023595955951719201901672113146556464573938247882147458826315434129384), None);
   ((5975223043897301745036247661758395833244170170009011573186918651306142761973836549973775896216946358752353177588672188964116286084161517448674813087959734933, 5340843007867959900557243731502639274586894674451009835270218483355662184318273566669188313663069858472402412624883263213177232792008189862067508532558860091, 6544768893885254273854641795739624533254285755717601128246724796820878986167939900655580392477074816883375790710899257972603398332162258086516270396636610844), None);
   ((3502716073997133679087059737521823163422315149273126763696148348123597490050900634061302203582003666389458363868749543266301128501546779627367306113489781711, 4162410776924010333011963790323472658013557013446184966235424415169995847753810317342999704885970607061291226183817204570877691892551380536418319072450735165, 2873782461183919444904554114474424193881742599906822522589723354216539846122412841761032167726439783327798351456945759231616167993960323174456777510766321886), None);
   ((5380835943189469896981179161263031305877055937202311475777241948046566212828202793507000491994552772645760174579048856934763912212650090494208660539047722700, 6026005969740456404762623499180156122856561128415720009175433793113424807696996294831544030542613323262268594964773222666231061160891592170254265541955060442, 3401629388791935677966595974721872112704914403925819410297328228859348474738042311800877114789734946559467924141076645455108203007286549023453973239284853295), None);
   ((844923187736106807813944500018752934194769320706299729676067510571275870608089559156996326630273811271287924916418119847984699536687122906418334750156437336, 4014115908806601029920210511476660455996244310167977365417525857081823503462668587607018248261858382910732043984333209871178133708314823697814762940539645512, 504055923611993401514030885734615801539911505409206523866384677888454747874748779732998402162374938405371273508904075595855260536142617054190489938513659627), Some (true, (3041189859871111596063733518859553972342894578215203410193605616802602228917077131440339309179181215630342881259678815207546018901949509432105257124828330114, 2352168957879578099697520515471741045570117459068891242449225534206560067739594013999498902609785113053952699185928619147752745731302554962162147064615876787, 4053066868002471784626949036896145747298226155831435488075349962948310809132027282447597129091677806923262224603292376025479727826957126396168965056721038488, 1021231686695449766488084307828612667867797166587313052164034053391087214870288575580348463032465879977211293615975703485115029903777426350072632487180178712)));
   ((486940769179572023986384198260648058043951007906110156374526646337079015081280436302669209707525276642545128490163223068478948341941683092731707484394798520, 6449266974916039341739260338419248950955798078311077903085793926666162062735686647074254640460223127597262966541786598000356229977254504675241932216507492272, 51251998353686365724840972433320479265730154775357140009400410810196074532288431009184203695700868313448962738873080954097221239682251452456767275118090376), None);
   ((5868396925489553608696540828450673596370641113386258727388915764057196881696746221361079731033432089274255862834410285320601735460709971566334603764204071810, 684510426153971490521141045345506101507466664041810194769968796697171958344656540480713542621923734465624234458669634796036899397982811420617640506018139142, 4619724594466248685438045289614042170594583512786849130174651179797880377152618383373184618551674754910344301204279897439658658469777887990336480109253826207), Some (true, (4771667751007218176226898458577367336378620023228679213558436144340224457037399148960852363962778895897908705035360745890268075200629261393538873255985248157, 3303428858819876221322770763518170814025559869932431781246066558456336768910887551468932612160805387582201793602653204535013417895236148290223803157678927291, 6806508809394178405272026880172963031057943178761285589354949260285969379487446936373338261845714905795007189431778413163578418693627406371769320014692496858, 1786495792146854948493285953938675375408998868618137051826440650851159732429560375844001269930384503986442195560397889736014373831302238177140205923617151476)));
   ((2890955981528717683298856110421747900619034793714182942690835098854846275764583101079880892100712247292826374223720449070537428837308158624348994564381658576, 2458172261544352845360090573475065815970923782953269911973458547437882521572193651708877223971388396659536744472112404573839988108710306553194691099153804814, 3217076200326829236784532759370189948789466196180907159462163160920653822170527225429372846554138716941760567662672140003082897145218763628676936473184484086), None);
   ((460966775542536426250032287433953429004627077027487448188484250832416107879053200245024388670505558040846148027598776672696712311189622336197552404177145561, 2030485375807828216953265963585879654395495321016654912291797082886241353275680302022191167501798800597958509927638665674100591811439305703630384517110861124, 6049661212863264892911207557895970589116337778279543437152019938722237710139529406364730644210758926504098667103547066498886248269873547869715652922307159110), Some (false, (4340769483945179691946178421025755965307391710756333567734954264689700251504722594535731474397759607240562982947573731983923784254909937556864005338486886399, 630540201511089597907230452290971318776293319999464938096923011988393526922031050572562287568883376487402950939503372943378461069124809859694972958310047080, 6848455227957509506351466782894504716993616664312090622436397315679827461828645703375797951992282678154945520133288462651939987019037098423354511683270149132, 434614159734484271213155612872328338223177342464238672720617817546507108773803638555005026195772559078766668527647080005044066921523374111651058851665703530)));
   ((4107025797645379889723528712569414318618997954581171405163440447470399164538617442821671998424010546859169001691473309578373392906542779458627175953153327792, 5234502823092752616968549247440468162015120347827719300393995855607726657446815743056680913236276149369743868258862040228999205823375673750386134653769301380, 2494270396416026749733412176062186320584543020046751715862814967421010575487068836678312978702445034879302259509584005255773263155368487045644998855102963509), None);
   ((594189657234516746814859655300545396124245695589507401289669479762706596177908184356026000841352267481153740336606088071617199446315694719072550093574032352, 3605823691795319123073338788103022041206104305907402616539255015864023442292029411373645035894953694241362635749706572628153568145512442830758683494165341711, 945417322072796350956015038981801081490956409971597055404541370417810332123199375010035343322867756455246461898364690785252857020698460245033610324177403052), Some (true, (3941639046555742097087817280905144418179222408731501355322092043044561877730776766105904206358542817958228593485869373935227963637081680457169123773713863924, 475606493318757563798069994264630472157990413255425311417388826556124356316882507792258555894485123477460983235559969961034004563928990481421844313587934598, 1246908361669959072980669715879849982691164383390627248372361617244711631658677797453409566181839727171397273592489927401329499733528598575982005147123316694, 4903500258668185247872856578623131030975754635636231038940195111110489270448510879098270268168366093588882614266844394228034078220859019781292334019976928632)));
   ((3262025119925438881638266319823126960915406949848011061011038017962560574860555227598148000778391170630754350051808251265163302480596146429597975127375012831, 1712512591027377353148115953333632548464715482116672684253303123932818227453210735986229752667899109104457562668782633930347245396362954536102672367016099750, 3613270579452485237760385680378084780707836342841574127711184967971702278865796147359875671797355708053073676162406556797448346601813791272154318373995404595), None);
   ((5955127417795588423465705191967663901500553645728183859696999672941659980145854768021593968505477970323293788419443466208384498752919928754238865576044255890, 483156430264839570667968091412674038347916629482991438256069764915681073220594756304776204911869178918887629776214079701027845322664144391086575029980573833, 4547659281117171988515891047618510885258794867269530541564711113607873855299994249393605603213532751879350509045317353087526844749790681307215128076308837646), Some (true, (5423723815695861766787294550650945314672362393966585536400341706181120794107335536152423402848986962027225624743369163703177540699281167449934480141295856288, 5159408737160237486078927586945628215484305253384044653057072110078276548592154811216703547570689675195293779590817432999861140873361087592853014141000886282, 3955931811549685610623169341834943715520155318533049980629984514615996661457198317635202410713580487461522372471656380918537227370764171481285407651299299806, 197041274868736021039765107066702772793834331382025155838792723490779632353349751992889622945968954624449167867690024421099382052077216692691547291487916140)));
   ((3152347041656445552435515062365641112504199690044557368484827456444116166592150929823620824776850472739647711379434682990003317650409007227787707073262182032, 6096841985670636894901960784999632978433582692360269844554585542924502596980096354452899413453220539273598219610168185952445932869567464525875705422071636368, 2596369206211391813714349477934821687769261846356348023393534706038202827359123538975213004611816928650575117952048416339301255024618024948222246683965323024), None);
   ((1481244884102484063171864609469093645004280657035746804783612655232002230208314860863705018573398041362690639330658956038945160079058382062157494743822612680, 3981980386836369562373239023670639114590833269738910570611143183242284802180041484929155030736695871428263051626644456163150376765229326122920944780226684531, 2672149798262847076682623460940664728987470277528579306763499332856470439827551803858773837264496118422907583780899710106742550096170992291435523455800991345), Some (false, (5540999921079954266023092130038615746985834590156398344562960537999256132309429537184793020266482951333074729617228566821737744236365673138157255583829547975, 5880228682166481143200139711229564546658037352990501712036746580328595125475638511331129734639646101256212277280660484597771334510909230001307169472590033641, 6125991479253047349442485263006471834083498910624137617982761262515240209290580219047202372473675157755710648577326388635328027803787576832914441894372445454, 3390923730119086324911504109688091223281709750582015891180677712410655095376159793662530930300297246631682434917149847885023064808054425024290557458737458147)));
   ((890734164242679020385951133104216071772096590546729133096059476384699479566572521343176424175258107378211477741022027433471287519617777706489782381357096061, 4110973546773598765790988738111012057075112177585442931714108615521088014897927030392524802755594311586041734597184388498683410778296542306668493895513271703, 197444250616863258160777814391418872529612735017110226848409753107240416591706549086186692389178111621509851850542084434213129505369356579761461442427842058), None);
   ((2511713402791423130732672710896614304071283559295419162449582988831388762237813865266147867673399215413040253401158591821029906622803681584020797358604457211, 3388018718754958924513090634902493195022800128904270946862744051731606825417359385770000345084906310722495960151673905583450177043164398049383869808033537231, 5274771963043616492906104563873110820564514151177471149449756707345957988929645352663785628220906921298439104344262716923079475424876518027553151279193094656), None);
   ((6445332613493895516056841606971784715858162954299992408135130717944977869099478894700500154273661551024233674956270024600179161180665233108659080937389980890, 1243868898678274415105429687258738048592464824069225248017174545920903188225056387381731160723581832144826168879308155459567986690243291868083750604950479280, 842382870769731039414071775126433470536101278408207939487782661661969592008689687272562301296393841661570614201618673485582275851338378958464791153465662629), Some (false, (384445951784491735691766568901456404060368429434407452328670919491498952039708393660518834163436440089612124399648978294881790269717075396094558825707439316, 4172551674298357286307382467979747945406906213719376258307016987562545759955121679777898981943069911857560875599584269879969133481620658490858057310336874692, 1013887161601585522783859902882977161194663566114759968159584122360190600569616056204191470091056225762964024106832423950545085619002915357457162059243818568, 730012287605883442695237540961212460595819697274197131861269896745750633563479406123035490708053740927213413321468665053018647786876330133373899703177379555)));
   ((6764981365531250411164993384901102872899722532875089254909432727864596138027883737746591983445459227895041122460716421321477868542465868094330481324937745370, 3869796876802834948345967923694782235754116630480073788070060165750408623964956783379908601499247706716888352111910583104347763066886604412350694632587068259, 2747810418194891953419034531642954098590891373529429487103035925652811977612934369165618315407103282291184157913869331860330472163091950176069547200063439920), None);
   ((1962521236694856103591068354441071177248867256707101417299890050201674581321995225632760480417368494222845130561720027596070072002241196572303501827161085193, 6143013500328588906049634208079947322152052864065483831617627441949790412636895636984418280694025531329836579283027301876481369692320737842896641534491423705, 2570080630118820517795179106295005164691693298411443484432414226471721795981065070360531658841794504060127023168978198041424119611775582058528137061434410971), Some (true, (2844771375680854772249391654760094197114442614281175556883593693520317261924618303681325075845375998981867367876444834077458367126389936472786860781723568256, 2352519127960268262614301654073678019415799184626919651557983755754201738965230096602848086425968960543359852421195008669340996721080499070464822012883481916, 1429659208461292832945732024391866389911200824272397398288349164818850459632865408090708509391073676702308095974249170252953808904028257318555046208151432986, 4632521325925502462018540317152582945142533689251068891760558337302868918097567140753337931994221966015753239827161849121859063747919579822165758721068780732)));
   ((5943717464645929543367735614404859518510411509735426129659746168316913454388782834536529993619517047679814696641124909871481582543171637020995122824216337204, 4311908802190825036930458824334601103606984355457732916569336346810616447906421191632737673612108815500307152173821275691207825753597975951028320735274188877, 3285590472993320333504553493962977747510892052817531679314226413377466723221098767429502110868748520711270113438944308054437863324138612204816140182423762084), None);
   ((4585013872827702395547948731404050414732723575408462881929914705197222591901250002357680329503691162526326122566936829053664799814194417853594386076617656610, 4759576174387117757464733614661020962184429415482283225537879931336920671075628467312515801121644956654357275830585025208323054497708097752690362917015116293, 516061160075996737757058046869203759854072815965432479493716139941401978532553231778944877766237117062630191304107435351793170110661811887253349956039951663), None);
   ((5312628313520388267841071201999195412280919906082052685156759225775141792040047793183105013940941950841502449496443956893956611157208191703467393659572722125, 6197068609144052311867033801596698889324150822806311636186059171364459045889595825943755964610730689807603353065217236728455027012491919048508340704106209887, 3961656857836310159007400545286060811426566620733474911732455291520441963076120430371645729519505916014354800363511847912349765253483069443793452791246437651), None);
   ((979635220609467256195261610681799441374074979459205575634310052196991182364177318699761348892321894564767020750380801346626618514384399843269887090994733942, 6760567090230986303220931372563899973441082018190952882614460055440786031092243223167425897304192566971722217087857959283264840353586940578115596845016408078, 6141651086652455976011266912339649231632433126762016020633506960692258968298098278527664244559881839698575428190164960590154612933715857924363034482290245782), None);
   ((3160218563535509106795317417462046261716511689641277983502121623643338528071617038176371323618092420521059810330590629874454953010521686634168451955395928868, 1842667720134758321084905056845938485419320239834576231150745087823478835174175786398992279335144962179954556383341712933951091061029319622037576522190384441, 1969839941116176517680983583288782374076291945976244146136029393188485395496255720884698884248503981313763321215519719142475335919602478412361182441630790054), None);
   ((5752672854573536187065772487240540724890810944180627390705851124629801520718030203512274628112785119014583010336314973089646964422006577546138106419869405762, 5289276052135121540369537326626500069024645388233570264801569765927120998480629743010865846875593732227203933858297160167205954045952843194102878228132261879, 4203491855828006042414073673400960703572796197689494647663264524306397551897268058368466503660492335525472620780361877974537764441457898803695670025951043264), Some (true, (3220918264163128924337413332483739493341253728402840759061187389295153399405376278992649561363019856385952509303344386809265976374804246414723978979473194674, 718406845330971309138629134001250524877050246358450670798459536954515436310548217445291784773004894887534705521062398112534965325115886071121824845030682644, 2497865930591578597551976740443871441196387089542161528236971861834491263764372118887616049423246049477832766443838124200164824171770645741018178382584762298, 3838896109792029278636508411777351872771029275352396854179853989144787022050692545862690197082850227257984762505584566627470914293003280382614167479507956957)));
   ((3064016264605046082738796663946472031069263202725037658533437144198194029805394850309736055991796579606891169023744340095917716563166903227429756830531488348, 1928290097409919624717965130319818352628008357558611587230862217028098243548085328061790861553132452159461390899418886227299899371021406411281850993601245795, 2569971679731547917123820941648808842930053234045688925797280523982909680780377104887800395668537049491184830844746672397124954146267069207407724516576350918), None);
   ((5777488644380418171715973887617508899097311925035326023645011929951587646934709311129753096167145243669767662289237015164384218616020275990224522734055852860, 1379946624468782084800517069325271839405853569693115715483133420587171000103865487103246231171325858721629022554893116176315372232291846546526241106078117622, 5640947472925555111061522058836476240237305460640608226578303204607008935565862192955898883173993714967074127148076662304445739830994112623807907381061655256), None);
   ((6834558594903925117021161137010597725005095085742537326291987375283605162124090090930552315038860058077252094032867295614493954390001118640525379156512447964, 2837930840831087848981711466949181441154874054844193069212185616681725491742010559303636793933840379431790720772950504193361723095093132127541842528086166989, 1107961943751715409110277785517341076097231295179713052668612192714303672524197142209116171831851122131806831830238935807733852292306009555731009148551389923), None);
   ((2326980317228962515342697570841819464711545810906716008124324344487552766580070626956722593130146199713578436717416583222504262193613170021652549032590837562, 2779489257996875743723468242201837348101295217071989945444074898410422571955476391171505521862356757823417405940829855348306956130966410568502059776494024401, 728122942633649350007657211905021662979220060486185098589354566867441851656649120579394356965956779131147117469599305021552770466706420631725742394579687798), Some (false, (133555045905259743446118868323425685232574342951002371506878836911793529741031219942792674649324198266711434884657487937588837495266976775674281352148246738, 6413349358110194977031367395929987250914483010434482406635148688740080418834640627516685841221498776150480479131024298836177298893272351581986832007109963718, 6495355519468203332088397292705482505712034104225526284561582264460461317972208119148937619042196280892798584588084928148387868746673108608622541693988819089, 4371242128972289010133611192238213578348461358152068624080181857953535642540121772543524339417193580904965900543924293414671093403550097145756396645615822145)));
   ((995190898213272677682629650684573242852737868564714760014958628899908712411832089557237133697513385790594528451419725354146477631723864914409255856109021566, 2038728209728627053773493536902382103808456032015071599312386361633171449677617708520764758763564076308943886887275801671148182504457570549782408731522364224, 3069532557918330509516292439294809577960333134971933028718166025517109833208968242199599485393578810491120151572982241772106018903734868345223961974712964655), None);
   ((6839634120973925901649040676955036059195566795444102125544882186345145225371187467576784285153785564982393627010411400657224347154186623573432255569385964374, 4992133698031723623386279672946480273061565229294813322457672584987116816524175686725883714374478805283502934719125615433697880730134795149431549953412437815, 4586469583199322163695273434934274333769281781644034406337503292774261994714083959738232718296025785583088042472657869986438431075292962637271588232026495255), None);
   ((4799728299868559822300580694077227711448191116921684577858356175533774372733966403697790433964341035485314975387944089834724506921514434461937174070868269324, 5367909261094527044118728388841803304342188144819915767418106947727475541494554565607803026251429600649668685312629661375592286657503379300466470684744009402, 4096150948132387599095202718150218978341115564966895704510359165664579954457139903559643278306023664987039909692369377628768144532325793486554249397110858776), None);
   ((859210506488988513691469649920378136809341487799214287181553064850863021117072177362254482690636474554964283779643124734601324519910933622769958907125996562, 2981891866272565198089915169785544998588411480764153049665837443585702185277611980717784836056419900219011438102656034371120562745004025919900836977333999100, 6103234188625820411288454219554205022062274510072796290917337680825773011445051932215163171920856154633478226169564811713519241753844093799243536791051956956), Some (false, (2269638070720127304237142986731232442095601231764688060984137712741153554759949137793479762493556971545887680491122157624222975369196762135429700150836941139, 186023760984125192995474113685056126486575139163232828760966529015077099265046556165194773243599847671586239485656239118686461576778735363203844857019260513, 2770671504472623657029914585002898130734314352624591423404376208694626386220048533686546961611564327385947908630447296683320012681690925728226858958584121525, 1357168739844658223730222269082726940255528017659013323674901242097672952356291623583580402016463993127228024838536032015990116468239593639023877943420061604)));
   ((5954792840152804750166513862211226928785626538652473248715982718887827726113083792836919723186743606411464336258864541992765155693203747388053538697529454077, 4462400601484105487341048006566161411661284941634331658600718466215908940779223143665981430320303850254765947841170404660707642633638095125130866687031583093, 6265242295644626153193758940285614640288416322181492799290089425029485487285308002166612599893948166801675886534091426552234723056736396216321489672992315304), None);
   ((5447945893288260135329733251976257620991477766002679277726634033608996033287723382715910377410146108971317137256915005004870116508950784510851544920185916443, 2235117874452386460026714613993834109412898741174804226383579352573650209657889162441524299209489805356226518936352018337141056870099734572881474124035557681, 3098593675603560197077500320451024443915632286611111471611786725740844111513823770510251635604433422730261636909131564187709985983645583104273336562173685580), None);
   ((720437402191132648994539815562711367411257286590293643907446860144447060820955499217820779553041077770485065236980264882056748962066846296890809940047612399, 1953805779574509868428675005668579529974123916649126690016034036313057738752366017483886720589761047416421239897945077912342087703790360870586627435775982101, 4465018727559195318767033465418656329686916465259612661199037646912719003030442541241637996426095785189781951498919649564230401063256053132510125805728410321), Some (false, (6507282825456333046148677792973272885661309548383045980048928473306225953024908373759920113669969945326275429171089190443925808931130097091171326315672216952, 1243748102558436233217320117283479846544190313032344175559633573637691832512269460640408941616374193864593357465637688755120049610623431140200844125403357942, 2803306012645181756216260550885238489924307455995547834632589143472027859340295803773127610989852921082599543498829793112323286078006260773464465931408894437, 6095544063414046932359030394541310436763166495323348355982682545245611406468909189563732522059790922047123391417449809467239223520473930158448234974789393701)));
   ((1877908877331088179922049958896218077789547765469644629040480459602557980723261848174046633022728568763216740555722455574177177835255706224615188326603434223, 553844469294543103115212946267423232509167299580190780001966994858959565054976902935415534565829968568600379698202403674055589236041273784090070043364146972, 4363328917172557639596847791439990776730059379641449659049857317511459607573640732837725027606514467818768642644239720413882824490965210868879748259925303841), None);
   ((2915766444073570754154547278610017091501451095200321426910995797503362699545471065398214496770681695622964711653407015458315989977721996998749446924335805248, 1649380827945190208145221464800690011996019117985892816664067555688388589719934290481660817092236700176901226016224848498240341244701527975797707844814539901, 2061627826375922354137642669864444766986472050758524171765674415425098100426691551951889007574662719890465474549084963314729785912305542004326102615541372664), Some (false, (1634088828562871838186884828495268935815930444567876922842161993414708633483997563373741647142404466275346465297592302910779648764449517331981594378483346347, 193278443788701863307674491109307256989512672193114733681825107803948899211388632903548614597990656987482740171359408282840486509015837100916560004473230900, 1327466809237869317360277295054699879944652863827185123708963102027612335048855727876041209403232072917248728219407802230356166193949194613955413357667942262, 4659648262262433341923623361445174154769884203359008842515953914286074520861630377767374687532521139881125359361869041640041618458774987777512581223089494926)));
   ((1770592596973524722976939442500347257414765030645483831158218681190949549368811431109395854489614596572923979077306245115399741972601186651322952548110874802, 3300144265893907754822271262146481346836773337747603701662862584493838864572137729487245102209126907739700608487052026107167797785072605434101993294848500511, 1510903095526494339779003659787589321501184653762688083975311805668690366978810205616216859780206848506550565614119994172216149624430407523664111024749065373), None);
   ((2186464131645577236432188749730379174637794110587769134163260612593022631430768600770327451067036360141276185050962603310824183514354457204640711880463039338, 3630077941865234357694401115712816895702946434940841904366447429042202403577985395373037494827647847145608894143803730878757982132695831642552723376191697264, 5132939540757743156302910440657366631829648791673539042868536358680163204657655759723827414573431635429179610415676912757597513307726190949904787140710363021), None);
   ((440330509077729054475506014445033494869464269542347203023070287254900708095075067082815121073979968649269208890584060665650803083559571736410523349984042662, 4728916055432937597469394012606627981474382373513753890614962329004456631630098875683161697298160508986923135415453507549428556871013754437502413307594052925, 4011738873192402335862329077962415948551883489211819908862421252413719700514584874003709191599947086217820693027914185272442385014789206544149095554513456039), Some (false, (3637428358259621895921705333811897726595901180369928423426847417060624376614208923100928209876847774043917519131571703821794501892242384929365629547683928380, 5267965863757106304725663994562400645176879816355583769721878784513638487071505058258285056035657960095734577876861265844910597892099093838660426059793173819, 1117196123077960348600013246408931854374457686732320646104397909164071408022584421152639120563128049292079977225751989303750798304451661701641300800074129759, 4446399564905311491940388074600737574607690478561699485707078563209580680355273461465323682262954537205260754144937328140004025742619762367730327135619792530)));
   ((4892453371489777198499350574800702106913536052142929736164688222636235693987032758362337035087055924030848208653768724968232110175643252713167904015356901756, 1774633923526500030183645192265973490561479626967874849456299384212802215387437893901970189752506497098795738665324368574266526015363965417046293960698684062, 897248712910982525795022427271622286069763555448124692217008705047029762811961674665623667842614614402700196586499739332554449776261236858594476889407038487), None);
   ((4495718129551644623676023902766518750660620872466544212150945808542275237217396665212373602670602121055828201837772435417666253147960254966929561841527870973, 2713915289388061786779879119150485922674496112250030138619099779264758169805419375088864022700336250989254170525338314495473176623017288015609393573649771367, 1463113121199070805292789327055664669851976315560067543785248374442134232351528305175020139180378505853219790374281097706984221359664637944015148001483944520), None);
   ((3696091241196757520630773632119050285818707015424495269140886026634034743712880351068174825585543895930386194913913629741994614429416972816999943279682730249, 2043777334235215553864157901858329879836937862216316124695617656609773228866338403312767686283463860762845035531620218523371499991164602330420583142435717589, 5463834105193472837272281072179302785974813090875201608051912943741849527540091360758254367414174899053000317540836839662862152929153660364232268745981510522), Some (true, (6036693661221381058400243920431786578036023130525727221886553467041342212604100713428082181025712749262167711500737227981374471123833120248888982107737179631, 4530591207545315216845506163449029734246068974327675258263825793715837781208472203203323805428139046696841491203831629789383251724788404223149153696629115811, 460923934519111380563173879261984796008201098177178403145934874741665429314399823647295763045459163579948599921766067892057820154696752330619117877629140668, 1699234896400238012590177563997193449967371093231388336411934435795048578438017680872696982170878472408685408655166854469682928089285339301617216596826820515)));
   ((1855182323257355940354856286264356276397680292257844568224216795613394302800638053638529247511598924107124230772664790761554510495300518878654628713240992849, 624755030960277312403201715493691440495550563166435403754466046594204799224815027107315007493868079129336102501207388440722842255389472351502153009122449909, 3883570334704399802671211312288763951278391253308769148220453630589672546304651670517273192682548764923343318818841434809884000488806052026006419011742754311), None);
   ((4173860280154405995263301960374835841063611474205048140513746301714300274985805444700833158386196673463957583110813973453836120287401995585731931765468736621, 998106640782361376930221477701016009201352224622671644057428552758109890894860402601139290541577111680411786955724844246890731458286868475891340930463323680, 5214454964891454493024258816199681754291157896931474840620478748968502883708736171434768015876508878240419283267137596004467299257325197466291260353123592510), Some (true, (6462916137810132486264442734629749832591668845536049320167549739135166106566073757009581716205665514774612453530410085905597893253714090773083400100346542591, 4817699941857974944411712941919126454291817077386597703617937751608409558897637473650335185228248828685624253960068887530634299592872867955874636484265782478, 1828184204779295170347844636934159184142974335197415038624461629802901254030257929773989375297218687286306426243483143032338773204762370155262285040787495414, 4266528397059480302241172567862163541371938449813206917935962930182214866031338526263320176059445577957420526829427334112560231192084070190519267700682471472)));
   ((2602233823733919163360472728867079014599760955517629172628257407578878444093277084147841036270331308032545296257948975120461506603685577438024645786001800699, 2595520147567669987389461033234831753387188007239982636438540144450613160952287223684712676626882650130994712853400939141811774008699195428733914887456229538, 3012240910102728854662005298969206328524349018331454623076915352076645035450215998070603249728433753759932990905679277929820568738328551453195783330932196057), None);
   ((4445994643140539731615602148031102754575293086965214995945006716258067428120470828451397656985472266955361229304201361009154346029474771755989323798107274557, 4476974095548221670031467827070752613928755133500857467945251297440452954653003339130695302785377202664578906225748363148570672182904617311452230720857482124, 4178146156566616768805070352417974596146798136367602439721711844526223277483884489909720413049667678266600809538132979035283922485877644493091515411147960863), None);
   ((2767803466148916215537485328433989021992044129094269584854369768988353358628178335007046015964469565164983998486612467858408812084254947271944523455294347972, 6145348985098627719847415660020159126144290950403297997830167132933003328245395493578936080251402979232581106329391576190383671912720842418244942804117729821, 5652841200868979481345301089945142257070347532091475164709877653690135640717898258429687718609800038924005133783472657730827875090049265209069214521465930229), Some (false, (4661942441071697185062968156980866030294573069763331248107422303066622233377023745296501801798989271469444986599812017281980360166652125413899261923645778921, 4816317925388601519445694295143818650006089306578769976788439039010639844470814578264267743727266896152860812341989344000191658399599140985240501546778420475, 4197117013193549219494089815086786204197387645878745494357175300058659231725595296919410896966734626983291561671321852973299466556063404299300582216217569773, 1725998363837877521572494780574433410781502813791452875003497364636246856672349023224756061701082427347592536320640063087706782634947113532972200924134119308)));
   ((2875443266684107360453124308269673182275794450807830409887204243784289702470005157861753810684674028176356635012399679021403062087029290931613781037248587357, 2450045220170002393318337231788732543083335556546422684088110452087283688676786292472280833538424396875719309181881000670929655999374517094008956798798667193, 1912307507496556054153878757347752032886085208135634416783333442244443545447288936720861760144631857325078116079713991277986580458662108031760968700991532985), None);
   ((4110986843477178614728912951727070849459421570840403692369419804882827895463983241528308289262242572244894978062745805541022324275765552799039574149589380496, 3466953638371804699298722981809698059150831875980414394145240179252667444571606410808933879941789253724858090070199861148937775490167530363858333693640824107, 4491126528991238819822083733065405468014432698989467094621815032672061090692775388394641292415669528323638729814276620336581773256245292907746442979614666576), None);
   ((1919009930139640621807740083699968142256067305031396413797828380111386431613667834894304940629838281586169418727347943376198776711211954740232756717533719689, 1813474303517929213370067365976400329466549570703215286894257515523785305792953425829331629574392737395009768977044358909455957383448687543266933946622620079, 647440755081628578828323909345497514531299846304269769274519122919835393220988828764735988153072800421612019560429459884338880195965284449698818291110655505), Some (false, (927831359173947192505576101090679210057890376703850576699964696456639386208109944618323254793021637495570695963790151665676369346024616330079631257664758611, 5823681814006071192398418743924701958072971343691165290386018709502782834284408369298631239828308146509393130326595045646355215791779464061990534531402466460, 5230631316424365396799852866032802353651184715338320005426172058077948293729051478928767777097331146019200920890029978356536422912147385953674028881070138493, 6088275797437449201495439970869117722036233822010128084327053793719182347259201703727583723266220697756749500875088921488808210404693741423081942999857669490)));
   ((6317865633532406936614820566789083627164583660575811095933741435212135806444397227843758101284316264416870622404033316761375968841827862508875616381590522797, 2933377536018031094888041494333943173124603847340912022445119419061714997691127988519323943429363401019189913069531528228702128728109458605224321882529873822, 2126332059715989547553755785351165280026007190105920310621364645068240547502488247560994479907968876809923427161449229107005867250615439038655742594019701026), None);
   ((2741975208032478965545904686434787256723784568438076369446928419632266535588406723191905141559432110857000432727619471402455656147722554657212572038147307277, 3554607110299611645982593308812762671017111037049114076457126555965758249032912308946095633145443306304011741935054201819316931861546944700139023724253659814, 933793639697374454940224532749590063958631977572868930384776543645720331441800730940347806927966761827879727683380292720792843499030795406998749311481876483), None);
   ((1702112962219918755774861314225913701290042572627395924678886431674593573477900910344667037553316124069130691051029723021972758918135150560966319829031093411, 207419134704379294128948980844139192155350651916325710494706819334082179579325039509011203448912936981789260429514037980547154780349842076352750164159155570, 1304604301415863112758696357916656062718142376256549457755564136783566128425378979341408935433513968121841031942977879341997762180107229213078844017872454069), None);
   ((2748736805465606445752024335202074767296756915443266330208859520796506891488700994769379331272408518270963159479778659849174011492948132006118751704629557115, 2508736083142887807740679556241306701538581948088947720877024524685386789103216656653129026470531629328111568306729629011370921012005889389072690170296867687, 5908947160826234387241079884478205819398996119273675315844916119122289945551153926562198277691668178811136510942898720225144541085211761988194461333435761183), Some (true, (579946125039517780602872640797731616925333990911331328707152271669771285082655915560319870078069319849979118893044629037676340743092815759720124584067592766, 4921459732022337742923191482831278055896439173852525752401655221783909187946196799548751250506671648522912161174700452577380366266714648398757175777122063320, 5325520256176851747909849164400641771395990274279835464352465935592394328446245258829255088641115596362900475858028680831537148141812276773058387193757548908, 4534808694760301055996945096077327103531693856479058605330049645409363321214009113502136631894922982326854994632021039669969117157057798636641840778717420316)));
   ((4266598705385518860512630199691780511570355484850934280497449951625229516012514382969635530516680391017233544547553967802214026511256438445920396925584207694, 2928590602132490983381413223473143220976745396909761841745245016103405618902156974707229102102635279849350507109501115860258232509369500939652805867087776293, 4176883612565908846139293603687224188602768327604637882536365193795152079025007618882010666825724527580722639811338043731602678066572243168361867408679913820), None);
   ((4625738024732654409044308458879656335002287837873706389670336369643198339648564061781639575155674705329973784112318475612141081023614976856641171693994691254, 15772927482549609122265994689048390436777302414139284415787622227968788073215811259559649761157894259804390151942360314750412912088821889239854746532633794, 3107784778839339269515555692598892518437452753224779130868557621583725264803344746349004872777988975044764275098852134518485073299997159707479256082732118226), None);
   ((1672315290645354509381434065004587541535185946103316144527772694065651234768682917681773189283325558900073806259146658842178234147507565466277871265305589603, 1625944174088628136763875703028994670593469201655712768455431166788934853050245566238200758723215273720939336207585031184812154793082174056775448938628856987, 2314421566538486719654268466035140503025464776394918855110876839138653677871448314785375466716153946123456660842629569491855447451437267835240204276386499968), None);
   ((3049646953794877506390886922469064005708348664100323643692389143917729575361339759605398334274865273272169888085189579698000243951903857839075967176436283039, 1819294628316684853066726044239383078605662289585805918184466064453181357571242745282440987419290140611818483312166564268969305570222142341833353447540493284, 3562969527589787191336830546361333666489548673897908706778492046718550558898039388184475357937168594601838344500552438281178537508709783194451065368443019455), Some (true, (3676424708401762071109684066779102972029808949260431485175758475027759937455638411967727046969666472412044428915674622930629847583195377978122913991192439301, 4384701533199990111684402044093989490000365702106602195796918658411141367067338550042288738426267687985628918450918367689493907643414273468095606457180557977, 1812719511272013988201837675520667111989253623998917178793101479611775113167770532543150381633211829072670816599744742585811704714319089749197861340644494658, 5076161928271029131505026792034667914768940483196980583110112728722493363932244044634254844153553794137700376976804897090759205132897442754506854756528307969)));
   ((6563897489882143447861946126778366165439277257353281063037023872897216115290338084203735713753510152867797509118156317018376083973399340580333694322367884674, 5271258249049288692682553164611888573748340544275913975933925678793595749717637725648237398368652423267662381698755951402587609214856003299243444992617069677, 3502322638652201037484751581262094966911474919642451403247152161385862360680237058863011879012285661989040623784101751092406184440949999364057174680330632225), None);
   ((1868917330392170912763855150528905204238522331598853382051980990511559576975033565578079304593269607587401558006734864597731549940038692105041428217616633643, 2700548288848302974713226727662177771912250541889795141193050502329226924651292629846269218619589088496350171276109896281019114990656134631501744007647596372, 330390633644937386250099747878176862897014388934650062531633089761112531041231271154606948739407882456117035060754737349353318990336901604092304159423650728), Some (true, (4015066414919652769860696013479017026657547008739088115085596840193220350537770786337060793277759973377126345011119923745225434262171022357685625859316435079, 4653015158970921848536917945499349544653840012248814534580097839543834393677995075774107642845458762286317696919375881133995203905975840589180747975547073840, 3824504756905413153863920023781249908270485793873209774842994784639310473298408561767139482747918175766945885740220267260335451677619765645135823806581416303, 6756803854130612590425629347582410823606527479691651883563885945865078972587132099583142758085504144015065327079485706637768449773743532489187379558841645262)));
   ((3299487267477513006333150915528338621785276109966535942868592907662153926191704638409088006687966278124900649574671622974935771821525411526953779437898076133, 3820402938112811273773118478500177798594562314381268394313531684893218710631258053048661736279074146681840081037043531398490914575593774876137958613494939250, 6684493492334679310630923987406000252311615228869014475085879186438877286156834309281659683750122828677509998572623863556068419041035902731556217325635313484), None);
   ((5546976861362003890882006532927819304863513620342182958059676488326431209901771757213360966331123429567354764078007667133345097405803771082384545658711837805, 1029263036076208358606852444039131344428665189003713054637832168288755164249344805813184099715800790360405124064589003676360430785693897209786019877646221050, 2049163210865095004554121754008768699072881113231259441294649561457301427532254991676788409803745883433960603650269456920357127120117458740623062274550254497), Some (false, (6400291010462612872452290132807391912259939460617561469406968726060348646151037489806765166008295605352814596399270612108376171314190466211527389059148270523, 651583879070705080685967374767500988597288213423974612799117345510036180315377433736971076860804170036185126282875775403989533566572325675961402298879066005, 5921403613756912031552802182608073229223903514755245127752822259207546860669641713775462642424603059214955903009482727803664241993444841084260618558054598806, 1187668131188843935326328258124955484227399283861865660386562196829657443515023098270301002806390584423159729872233609808986828448774287839337643266078345877)));
   ((3002391325563319791541724216897917571102736739490430273465797052187169560534755623783523036679926413373710191412987688104082212066845332316420666561055073154, 881636665144218222193028949692952227463434152632468041013313893746517689365989689324649586933981572244091133451022521853203226675500935473672124628833405699, 3139259857820066175181607992152349182258673268742979573160378685795160265684159952661044065819822608668794491725122390696699166805217520436619094497491746979), None);
   ((84580282537696992868487447479775422278774447268081300216392153190489846251637897422139612321819663015847898099832618204464575077249747952277805886211097129, 5379951555304144440502111331944278772394249223282041947016656665612543145118750026501757766506097294593662830250164799026372808054512313205592331378839886338, 1325420338069327933033608455784692487448682530422122163679958387778554573532784320801558387513620961518119843405852365179561376655207487920836718440671759490), Some (true, (781725861801579193679177748311182599403046094950717013327076366020947244534216400740134005704623761865093791943072015412089444872379395174999111945032956025, 3117468603080431759572748069923677154312307211864156998189169486863291914810956369544106512009271872523137996930776523456483805645014612947570273803686146945, 2606346348186544247213417494931766094946446067343481964640219686729697475278376783697169674874164942216191752723682734690406689200509980981064448837345869674, 5749263151636033109107681737080921287060777434662113082152319088466199243653869539423457284379179058899078702663851864907768988768082293811279180308140532501)));
   ((5607282809482971302971211800552586414572791478723145783491906623296109355274817415720527527397681446096236673797472536022545915726597338854438747262779847002, 77139131529168965802066572298727866532431983235726604629148630839063283293088298672284511912369710643107254894280134073688465273066082007484756764751179935, 5530302283209142152946690613571815054767708213496989956338631205566083511190334742771427789163607177175401348788081711496086215550089369540176933911235362463), None);
   ((6062228002831787784555971211533650480014001529122362724718350263273545533359717981574760424495283601255280681025914411204062606563287798495909375593991941904, 234763879672224075343331201021978838196521141978984494242006294298023243610260760637813999248539145920086263434630183427988968675229683835872279298213125639, 1209754691753341264137434723700870552183532699556666509658732273688529037820860922159358154940082249647865830249343998858986909925859696726843699383243931830), None);
   ((4911790260756329517738144701062031325213329456160033756187968388167283568558156800045212326384971803242691348544658188764270250112005331971896270686628440016, 275967727828321073121721784967068469553457422646354625458697208277584389234396487208226512070909333579538953690047339656911752441980009652974137740852236458, 804843586769846839272249697308753447205315022157428895419104333547937307819163758227136958513006863659676992746557667738271957494754892568451541664544149779), Some (false, (3278022558887929850451334175375087786401076924008644086488067990434993905403449748787381374378397564373724830122149382628216096752146127824721988925733508240, 6631369734052088653605756145469261149037402787251300002500758617087139465757607479296169128965897699673514098514780909970770147987765463280154031108059224573, 3667133523331602556611121841974975662351238812918890041369145248659490852443308154802600129506290914892255140304205405293118587014782334155118311330002141488, 6161230679081234905302389801244504345136075995776585970222773436778145388241532178884622195766944977079486355157979496725765267381341686245481009447103908151)));
   ((5087929825851802569768546219351204870137018901696730387962871714456320266281832742690795484270790065425880066270186724254003178988121958932147631229903869283, 1772618130648615527232783159201574963233281754386246492426260215750300850127612228476978064248722867512758304945940253835051054888691827823098198126561254389, 6103629993623360972482012289637460001775058073757926467459033513227757225496621300417120626949820176157009757649653570296922958765657066525056527189283881935), None);
   ((4501153187409352289067624487238079273595301088075875526124479857013009167932293011254534414775535849943029747907699824876107145001295221138844174228879163259, 2418018961597965978232260937413818115544410702811026849195686350500164519214725164374886034890796372991044131881344649341790672739438850658150674352610420388, 2047437126298914648510540840449125496198030333250721336060276740486596508843761399981005787890274730647617693386836712184638097463276010916094611346754842250), None);
   ((3197121387337519652406306583423455059266333833713653626547010231826140849747268194936689582645322990417672651697195029492083530995758537165929148779292391247, 2704807118790702953744184449379028966359008149365971827610191441920806736730186530475386974374555636437533660418297243719426657494444369322237472630352133682, 3474749581678207915153999878190688315663049657079522381767850641348550898061419418886963477674170795760539661215092527611123992570899552281438353277958823182), None);
   ((3252815804740228038053393781274366523014012459193269913084497079476626950142711668150188564158322342115558321306172116108003520516351868750661741338696122285, 3540196741228753214657080653126695049594030490017708399816873075292293513877805680091407617778624245810087879028650369644991811247672261836678087300922227795, 1746951240660389746210309196288149150823238825529919107945188722082306142191779945162542768405890017251456295703793646208723106756911730114529163726082975499), Some (true, (3815451963315815722965507249428820608688443265110837368585857193474438380357466159844646033077548206606641248046403618418005385120690417387003186607787684232, 5967535775522626666240278765080544209056874836034817402724835937127909057611608769304853992363428437920389472970040586535969194344087717339191219197154927653, 5187844247245158342886542791609722845303463270239482526023214534610713966577523844531503879510512914030204731544661878917130712864376783875025267512099355286, 4297875093813231297131071316538557816401854042992629588822518793786870120462980536112698659064135377912471173843863988826060177365229077337755008910529168706)));
   ((4002241290719122460017927171088901103839443316851139493563208551531948727401831813150184722495916343987097806051658746007687054268918629356070438775768643370, 1941893074001711834837477949945935494752290079113695954756320853233797256071824720138280978046504542654169311889956157984848613912075549995826769392992808945, 254542197201040318781172404561541909404575536000613286986601133910447370292455150870969014641090744548740074000821503712876638455128162119578531885496721191), None);
   ((4459952160959468852179905542298067717421014210748018546251077419063983392218791267858586605595745853793881364202070216690612714620553255837856636998760367173, 2524145713960380813729422108759798034857148095834815890511924411804582253113425129842763012080397484452251003985291081186154729509794457888660688166140472164, 1375047872802709409033107462043405844830791608355913928126989686092127812510642788094538729775255142980331114761095277867173584569977390428801362576253514117), None);
   ((5971228726818299846798245189332236143028258512983359400952799571105293341900343878404523254688257360913197012280619927879230387443737889219696324714170342038, 127128705679289690952982080879395328981633170913231489885215674335941672284754166459862288877478736815060827451877582178566416958690362284311776643976466800, 5313223172060520293649586732711882911664972955824277464241007619554886756269214194494128101932694130407420310008586383155746274519188565285313467810568870853), Some (true, (5886139788868158310882348049479252722666291753392021542679788108209109307689708074919472972592188828753345721003724348839585352290683759908621895182023470008, 2905469793714795245284979281411961555152105609999610327930605533415862350619153350990851263477574666370191378643490517757274832922658406342155791813050674786, 4566961104628336328824506424994826556383150549067148189648189077509268811061400090047811210708514720668358283420744992621588014884846503540967284805839279040, 5502709048851843721455930167686345899867486389704535246181797241609965416138226526053561763018084539742661582153163278550732606460926582886270968612227978636)));
   ((6599061508576121632797157846396643069711316289678607108050150213041753810692238560728402147645196679070105501323392435779604851765232708220159296924161638509, 1785309662330509588870109224337718020706742679207542640454301267761161024522850110188762553861419446012741366379011375251430528542621109670304743590878339606, 5717884093907139641626228692078368512970174259314115113562579703080590208522630126402030915401218456633248737024122142078328809472675311256839510249302749917), None);
   ((5443517233666013779175322418049448413843718538189495499692383725380714728292566020203182319093542480415742197418906435919359298282520375907191947487765347787, 3136086933983323226588250291937227239643559382444341741585626680330979925903029335299532180760240627281365924051572944832495377398773306184978284085476817263, 3120773863915999431926141615214736531525066239358412572825317082746349259939954783433939692167621773054830570123982704628701285599544304564397698915383614203), None);
   ((2876224248756014593641708392562755632271836652935949773719321519546628467065387570116209096487950943616758518342498124055721726244935184811951855095566558367, 2913983578041540994761340557076082678744958914686008399297462408606494856077709954850652169008212741150169437646929872136150621969860272483827864191824425977, 4489199392375897620978732876124291389698746163495757200585518910849889585730561284612349916184574070320458931520696623811810886217596504441844414385317249521), None);
   ((4849941590938676559152870083031692451411954300672012615798548152337238473490707273539729354203304644613835636152194283205473521004912229312760037392642323835, 6240406363374359063301412929990088774620850625632216079243657924682221111042884867251216098810046623029334430011201843045991688506420217640702880123667598065, 5271124442417316061257805200461716517418108407451880651263146719412456928323042688241324484748289596614484184109693303855203029636888762269409092492579319586), None);
   ((5378149266553467587023754489966286658568812811197279772184031054613951708739108656631890660843262282810046308083935668554009966788431428285953942984087424353, 2359961124448126272758008778474684741876427667185958596521610069542418973326575818669592213448709161762105880006867672472638250913364167549779318968603165922, 1277465012897774365590345771816674699078667394129543896097629301885329617343698229071434756907405345480557118102168373874864048057503847552956399220586567638), Some (false, (4597245500634311878421188234371099198457026762653047309179235102135933044646655999646619906267297270605742605168828330053970611595215969923988201430233417614, 5824464647444252225830932237736982684968059596238682210285732833231340133347763671995385825732450954658762609154361572139008811890872311598258569202511456690, 3620618984578953017925836476498074542341089069286308232903792579720271007160210966018827950443010512765607656200276825858715119357041373395437298134618740027, 2687518465147113200464794187190510019873197540930860105486568304808810938249656346014212977608121719447160572628800848103938807786500363865310443884614047338)));
   ((1657605585741101266799671016108286219330489697747052511072216781200250614194706226278333912114504634918742052951923425774620642321011653966935858000213215593, 5843192439874513445445395835127704617322297575515727847899933970543229296406446684645760235345781652912482503128971566090204859615408510728994413265941030566, 3105223096770643148757499832465894338287656632324872750514443707516705084558023384885195333760960116582762692064510306474291222616053063296296527287524468522), None);
   ((3892106205493336199255900094160251247855155000375947231369918831723173942987005775724045066025114332232572660763690550336073511083989948170813880849090235383, 4553179304191712311737808548105258017519745540485150679029974462792209244977863326846628363456180311314497308864396084174396041885079956665302669996906269184, 368345945978522522626010982406690950679317920384344307134941213354583563013730153097254128888971457247056121349433390782925097491242403595326310468204797178), Some (false, (3706310108362263479437042844780330915363595908342112529137813927962941133275170169125210721200943030236706654897571677006459234573723813804999422060585422247, 3344452410495163051995945543465191966795434120208715666324654947701349818762831539229339527406241446019972800046486546954753001617706668023502018146086382577, 195922549653348885864071375851555830226493778395950671342126613400159754420673924109652423789310229589750374551333890728214841750188332390121474483247270656, 6583914306901733389526935438533344036061200329110959936854239411674249041432707063852143193742644321658874567891415775556075408830223200734080173997932739202)));
   ((3019920779869148380774038910414254553101711617024198233058585971569235655942583264533423952145688875592188045144110184399171967733692799614971928194653766685, 4890638296805403408691938928839106125389700352812710101325164406933504357818701925080344570556469690554884022398180158349228309381865829506571534337243939522, 392694473576671335316546194976600067201060181269948348629482650900948379039260211929280735155860608596146868517702474161316511846458290230697426235367912905), None);
   ((2692024803170063013007577916258218394039339306004458407722983504453330813269452854592557836603783146269421447518137468309922211730333807176805816597588031365, 6614986339491788177561310194412904307466789761539606862733233228521166049702599239286845764401459212689806922561609146449161014430172990633140510583962691382, 802670898901603995778221184534789664724049932762866514948845616028940358741594480115765576614015154185416892593367010617427040942480457017933052482639869895), None);
   ((5690214865219078143955988780226976124526355592024112322159567148596756273645489098805323119385386691603163683432682760421124091595620805508430598076991999639, 2466434090074599376591951088332558008128871820663400861110320220273668720946195877732233273284538692377665955337267615477790943062159075037195847949820321605, 2892857171551505764836209150768011158187639215391974624954248701008861656112163189416618135131024861756642417977654639665805368456161234088153705952868624214), None);
   ((1576021503197629984538211089953842754370665127680690121670129789899598738854018449518348103380273607401783830344683287374341083476991493016870591398086330486, 6771145238905144089642931443952317687240679621698376271974657594391913604344511961976811676582906210130352502170586829188174752750814922188325367048594900469, 3208667729604813895203430862200557797329028353177116268702937698564315198024350167787859934934901613165027990889483964669959670586132792052993554727688348621), Some (false, (1940588223896874332303825845603054478197534243652565936914705664707177097480743680298060679982775842461327639599422065424838062061993093689886598717022453067, 5046967008097903955268514459827859906091015532926083621806029633975725989567000713005084268153625364831080938158105440306183568932778261158441609300682521464, 3545194747471312405995699517065867429680142353352964393436210412345433141130612127496375159617287214935295428990052165443781733330588486073780384530326895069, 1596291987722838854840878092367031083986939209844822690445016526461780315891836754614290879450824954186237660592190267746956460340410496536568854349257594747)));
   ((4791871545161276885453044057484035295949619897546101882020676628712141595196955189018695264730783611919298245262711721819680593268177922365013940965474189325, 945155714760152922542591968252318855372987045044833130827018336148374184454970914978607585759344739869728726922382132596391562754094374859737288798274057659, 1149543683110126441078625605336390771400515402647427554622880029732360655872354839636518240214076771210167604115882981996091585570289205256952723046633976648), None);
   ((3509226053715139635951537329008947978004791856044068588862510716037395802054111145382714146324333156451628567298621836784022564699686799395354614731367351992, 5501339998157614277052046507466560053084600578720862432430294368784152144367434222090197549232703423058715922707595969775325582702933030383555307162180389074, 4180728852437577595516417488117218157434779084557353830081832720065309648743512750081458685428278925850954866219142804710266445145320366666757556998274223505), Some (false, (5470675687399392169699864244445066088777699853395009895307583270166288542150097872263508328644850016020165249002300268627488220928995449880482106249366419290, 4281702917963687207323173788395899949993711570185742282155376917308468382975022288986735063291404440391324435418894539013235529303510452075470800236540128544, 5114524053396664362216070981457050049953251289378993229764895483334108583825086051572287793115364076892883924302504748670441854858157520824282116579403187398, 6139387248943951766483862725293266226338307082707036842960498740139963255087085909627708463059998478258500770783402719538417214376651502021446385276090509788)));
   ((2875931286886477421226632769183839479505004320210953227583786858141507350481514567097028162437427159403594255926913266166337617032659212469251449197678775953, 6583285170279893814650692265553535951228933022608739050296704414073747508987071635601416875675263888676462919451364448561422949355976199852613817917373406819, 5839436580452893556364101381811514558746342574823019867508781763668676273824848331669435805908291262578299377407463868676510889216323275761161937330547885077), None);
   ((2357060049692439818658343438677993813514634315554546820927635398823283464291906774357283885376536048798745096572310995571131210848485896669849764439182696562, 5594253002048405570888741052817590715609725336556815176852209191756582550915031809361795121285350143975080861099654155333293000214878283017146133010137651450, 2906694985316991628176889000688568443286917399099797848851399159275055353766850496163695224613252232890785019317676023263810528355657901759953947713103204781), None);
   ((4836486417832643322363440721186808872798061689754805995779916038082300873469756776209192912534849034070094465651378123017087570524102501649414819187799598265, 6612771853188678496443709506798997327472123471246562002176003888574826518065754163652772645793371324747846665951164941735822995156101430430523056876396500083, 4145128319372942693742765809002138354821176704996347156701312252903903953409568224655619480546472482939082431126120717208186445670585540163740981215659878593), None);
   ((3025421758182725036460469006799616239915043370847345653415000503032105672916369821290014735658588250261971935897056123531285211803240964416442731153644253558, 970731551486121769549326849944326692194253644598257614436739467154638298868158442487875051538399074431090270763365819368348457482709777535841682341753472035, 3542675323697051921534104710010731099230437530194496477436836132692413719000008367482144852482640111537757556363231123082657610595751626225968873724863046980), Some (false, (4134860388005632218941558111874721895122624066618009906461832531792782546382106463311539340681556332668568822357616296416327957129316240695511268364730414674, 5071669812777637753606018850581098550106636552858466608742419278025242726834169264603752064216678243011324058975880149340064373673546290023254879688581349544, 1893786758138699945986451510146118932423901928977216620574585966842728615428123913393540760172722665782078764524422881609526275979160272186779874440286350109, 5115921347872303270855519551395537964220238741668137640993131107298899887096026500981341769968041249264457787978119746330825978169993075312221571779199028759)));
   ((6566234607819070092808421218375976645736825470212094051094073778557406527362368217523737253561496137088310254718188815012546715467856687984148546819130163864, 1995262767405071877158994758631746391346555563902715856564642257406078557844650311363199675994757481303607807825090062126622273594635442885331902489802057404, 2709233080659494796545879257613068472327241257167920587410668062920354065498947740027843628498448073035331090455650709750216618759876567266253210762446875353), None);
   ((5619917609849546261595100134507911196844909858734243269094994360185959466895129163488358575318518300137474871860809002734890867862137690397710550069472471234, 6107411150686697905672926578597857479672799556468020208400671480493887540266330521638112088213728280654085574002053594580682081075112634826568418012046267891, 6601489662719110782987059643547249115571988446914911816188174736026585133837870113841890774337549867042308915983727842805173146608952924000267132506217731160), None);
   ((5774998796602582778652694656970834577654013464076453853184978545503735189296920873872024031482763060416181737264745797111423527788772646507083290972532591266, 4008908160203245044979793776385901297519166406609944710851519416310428155656700683912304408282327203341768623004600239613083553506798140354060337317087084722, 5506748270284810221057457822530455469082876560439712792376412270083342477431628029129368751343698688543294003714422606665789832232797993523184861590014949823), Some (false, (3711951761992871554966006153243623507344979018793038254529385868582290109985139543837191068711947265794329119786761533366946397853813910020221526828682866378, 3748114433234975630511422431097107574754451521346447489486998675036480980172950845662365593756357481243395171597996212482867222784360140579757107051689027281, 4498963238377106017451395791781115839160304516697216973101392043520680756132828614964259100958025919330733626888924409410007118584130268415028493172885915297, 1646219416980968846717373756730128965069720957079720616482353887900663371055283641322181348155710082591269530981124363605875229864188061032716748289629542747)));
   ((4149627033486495721954737016171089096443022078521656648188857090433943976737387604770509943266245119731276084324751487568067914604295156016171858310420803333, 2522204773830185467087043288826437431364414216223981709293146858576606133377910507769023209729475104076462257944820818085947743391811950634810861115434435758, 1418089753979606760737493461738991918936057157282465853784768126680630737867006987147215546403952234724836882773181951747037266917504750796326597442403584836), None);
   ((5709380074990772229110328845051137877608253477744709202410660392736507383151315759642440547800446494673224493792617120458338119549543363512314850869682378526, 5320335513997018228712388938578525205984666039002911735997386362775546180598958932009255739951692739420924412060958169865193915169747998307700344323635372099, 4975071314186796146383486382174080549772249725696223132652256511084583654625581083776887590320869475433168191035025068055316990258178308650381200422575775562), None);
   ((3192914682869111828913787969917822184178560562460877528418742286892998703188385260989896013064101533706155522530090387829884657031172624615711718959470490538, 6846125460712464360466524420967992898515748420071748846639949374075890776770302318432507970765002356017409681259660685238460993288285410569382096670645495437, 301667962448915343364786101730414573463583710186076560404947318526877215966729530115363280889459055065908566720931414025104913828243323277928532674812642653), Some (false, (3881146017752220885675183795265843648746087766221625961536648232922767714044479205786645856654511936344730936210838405859199835464127694251139245219465590126, 875423881718602161248164661751698827941647525662973944101966084617245725385213440650907176307327742913725741728037843408963304213029695052787335455624832808, 4666984032129919745838017951641389818342238491693604126682077601458666943841530912804591737063963616136563245803403741438583382662229813398392607521949943012, 2646736209086861626556147183896275883291769519346494634139222956072407978152114391974134466166916804306514176311578781563749213558845778322205430872600371314)));
   ((2837562507064450761282796323005490879058655913443213585068376939711018870077162699812844532939770097261442664930828905783027592011065063547468877104389688591, 688722226263847388490012008645612625699737699472251504253784919061402561215506259000292703024947729193251917127877993843784658292618425864565322518248558703, 4315750229941652658383188772931271291013289563371507902148657864478904534992910932291484146176463184087085098000529234915498998608477918475072102032298362001), None);
   ((4315137730641474225066679722782865189468905571549526518379070318054587158276295918510587403882677385780995647699567679916146028127871318579460381537181837938, 3271851602207507257305892266376551806501739690207235718971014552911317520783590342034645639347675270778049384919418543316989149770060308779336424721901483315, 1599776478969725385907536366652769626761571077283436143944877446909572054780265546318643111341723114790361541859441224296149586509167296935114283516183419032), None);
   ((6421505903729600067255180608304503835959841142278510427577353317977854139048919727969614929124371851140322107897710242070189177991466626487544444991407813109, 183677792464046882991562016191457038818842752351165309896131428379553882353798939284645744854341317410176771996128637217370486681120611474979201826677196337, 2957157541822753008800400807827423284200442556286121839599747685653816669666928352171079915316363227911365454211499086197081466184631628595632121870500967191), None);
   ((4538972501522905526180503212561735555893253779207790360840400239769573985061204233516833603703418888270136993406421983587762251843159609250790472527647020212, 5809986784058989526692411331446609147446026632876337584427497181157688761597461840900967216463232129186943430641419685835138492108357026197050674131887887390, 4877931829660650042021623023408549272619276804831264418559466690466490360092484526952306055594247340315413332025050939828159173796717391917602571867502323180), None);
   ((4573159289574012482588656554565692855974274289363360862629962122939284226831265404885228163656661994706845055249704224517529855129310919325485209633907268768, 1212794412516007125015783462685609208120509921664113792419156228921454502583520476973394350980432432821286501189374801878347833428727978822746816556445834431, 5402256351877298984505935408228337092435062720260473124596207526996005038024097273484444569917073823702378300423226551888269496952546647755040194418152473681), None);
   ((5024993809476970738705838058232629442343835868391156222607801028529899149228437826633153509435193514826060375842707669273371068955225377685728810502296881879, 2722679173460224149502722764187350490587150699027599346805430795390771686315772961696158290719026197200924863017160282294713578069873303239026221244343436199, 951418415842625383079048349285901373845961726061304460196270717814388065053295576536041077176971715606039987954725100487891341432727285509151221982935092117), Some (false, (746518895825784215430497930770066337166502626618371526505618080152902622329112515263366809488931709873395201682230098331587339762523600047725409883212411560, 1008114738137287755960931700022612428701670052924944835353344106520234511347191709938525243099834839644276597652121793928406746921739035975158339488624102353, 2062465070865315387694268953046290176536945166198467385990217150007447288165477435899613864144665354740581158129739736885584744265105237583599729985144580942, 6458792193148674376681566833672453784020360866506440223704467193415616716306281307837692081845115037315833871024389515226169069560800046710135787709819303423)));
   ((5299975888236180452982220065548705769308188003778762485121606480007918808628334076424388917798982209595019184050871889110829727304690329801571859562533324947, 740659849631854743208698704926670216951491199224947018904506204770105139019176302468801532757944277304215041594376459547822150284701454635022058580015259328, 5712022275807825314412262590602705664708386977180103385605474155736685968612063303104541749899781926988520030463089883574973233515135556171565861887014872044), None);
   ((4146281978688321633818915732571506602498462741024711835193578111238442117651686072068972076712006143836633602034143563157162356430682852742442511910036723593, 5715275722135069234602526052578972444312940852633102329217298958750709044724799666498257676801589125289640738485291940713813991460354718337062879958895628982, 3525331766689552220884060166863310754378309290142060072174974085331551642641556405466877274526757196094230476230843060759387747047057729309674130973328773082), None);
   ((6193278709693605166028287368675943899703281913459613833563610616413211471121674402026341984892827916368863578954543696448962900968547938512555408240888966594, 734260893042443111430877492426343902039378476151092121224407167060220929816392175205109855603012701744436935112300984271713251705736724254223592153359958345, 2275907375053026417801955420562274490165069630504084498210920859311449803541999844001085542397590207894670215593243100938595145331871458948976740734738170925), Some (false, (3321200265198370393851022589965093673157542800854935389274998958443984811121696233790172001288847214950554031091428359766912098858096545969793180593317243145, 5713319995662027192924084709602621563577155021779068518373981375780937151665641754196357537540152635967591788265779515806231334406575866624200224674100662239, 2386966309364219254257329057375549932187251697175556556056981715536561078421401722202295904955110225268003909894955142113421576207043267530860376025963612156, 5764900716958106309538636886177291697932202615921197706324854468087863346410591520101632435478219704331524923931061826421441524629483529469270689140777136542)));
   ((1489614217448793772617415135113916025289471660441191110278156718457077002742561769677230975118543609072528925341183744338393267443909924465634576695548190908, 2288049068565981466384304823716974389433806356854642641942933724449665328786062773772389457920487359820198101926192863629822791385307410558603288094078804626, 4033717826746073190213845539002520339517607423911271453727191630291274044797009603522915402821461299671893257079841002684220796028332550691432931526647688450), None);
   ((6379949853237683323882769608288591842066106428553907800989070872917557218062053769586263261342789474831940732115305313223681227702157121911491148472421787146, 594037367919140242937365875789887419407273833613743604911883764200236747917820777372619485486684407630883590345914558292766437642052650997410265449048352315, 685633976140666865574813973694635323755888690835591000645763926558115736180024920551274886561662816829641826915429241235665796905633848900641866300755910070), None);
   ((1829824206722260805272257747699372240452719437902461309994004392366124882076420754817520005490803743062587396930024746960118145803171396888813711158510483726, 1333976423295408311676162336411689644572788150134374977068570245481960287941343598023570388819250689544065028427417319783896234189875663643394477997478017138, 6022730277654481347685424306201505517074809336907694428035652382576421910243365825939993634042407967808612437943057058549451872576096297178515409994844100990), Some (false, (5418535460695784742859103908960575153043477037979984858026154338560541421113344919034979300489653554674430069585593510198741877752926747510475191972620423100, 4720452472421854686510268057857511789596552760685980338345044255617474187320556780020273716464244863279804281592399019308637409292638759052725481651980567317, 6619509543991672027857614420993724451957645212669995278444500612703302386294644739795580138150962944493124773142876377708591229144993322724836515747314170890, 2914985091270098347467597717377205283375265509569089424736058130400088224600020672519725202777602064509662367293887539961852185614316259521392642015948779759)));
   ((3238189169293626238092012580578672389837013098363972564551831005798175023348138482396323867769897582654230002957901455707161320658353547431083379221064254375, 1105289866837857704368683823311171382543162614429613057921481145472263370328301263966034310685409560229283202936955833880290459785875378063637948649651409709, 5706057412403460463101262059511616288053674337438752144026506647936265199835726333990286074303690579926840975647377639703206063156796167218000174389438108649), None);
   ((6797196438098804849970520981010626581093960486299543956805186650803129312571313850267403352033592671407551178089900183041194861098532508237736767308329319398, 5355924502781512355778580682185202388912703799870885815348768610600133439704665307010195777439455869782391786131049063294860184840120453592029243718923536269, 88454934586258074282429421639030425228528239309041136261897247998526943889124113921863744034174826343508225559703220373437612568641725383864241113452169450), None);
   ((2090196800846937138420672694088234170676177915179960267748633160390736544760248381674371373948586595561375560016793803606463537861019054946310918238283218547, 4264772519653943705089230882384220907278661777312652272896844467329303787937946943414256957218820328872235250201537763518247782320759618833993254263921175349, 1723942521385827850273807470730349971094793125607592674948356502224658932434065817896476167935558606782820910410450332591825490072086166142636866712046524897), Some (true, (3934044043761143354373744376272860597699163263472996159266402211479924582606522306302686173982368429095814178923557436990365508422574884001951757806924901297, 4506468046469571850903772540576186536571411125248581906317832340135858734586988107521608133307508149823472891751311869595591656242091034787250821530175519675, 4918154668459134221925179528741010239223826692639202961417854073002201547049703970548803802653778034059826147347269438546576732941807725813252143938604525766, 6382441749892699085681080518545004011016157046897689553821334375595079433000781970447351351513553745640061364732570640256204205525197668172967004580408766437)));
   ((4632715363519127092500215559598128833376426630021176738399838998167170839187150603328488344513146414844821475356049731757954427956141826093956261664250767412, 1260294588924413186967797334804382099057549673650787468466622364433440979364486954064021971503439651008874255743843490761408190044606997585523329398713730387, 6595281121617139331387041436874240987289865853705519847957794771489620568777281760013836089715881772492944764374912777886788769242321739709926237461415326725), None);
   ((5972629032300998615688161674637812063126933056069506191130185107918460715713494077658292239011884168412772329590030669934711262386094394522167031535666736566, 107059121956393198453363202984144088909269853655362902323086956615192960950411641365135904385859297452690402456394434412321275855493294142639345353251839112, 1704870664184886569566026562176936548065060263494274966319067982015520555760580383505004277574936955177488463429495041616372379155763831834576625001326368821), None);
   ((6289272883601008961264458979803593943090464937158584803248569461870860068494579941967180186471242391087616485937122471144985321850643469837880500241359823217, 5722967660314637283843207951345047922231124006945553487284737112703148401402498599758221595549810467645791812696438516128191838825107846846065360211479878577, 4431445738433050040798763661638240040674621117629990878039755087678230662510734280011363182526664754810667838486944627617227444456539775588875612631190285704), None);
   ((3587262504071885667406806136828493902424252142227086403834048318876430034432572209850098717789877182457109330522797431054960591005295036434882784927193441346, 69507512367318351548858806957779169475201298064431677933381950947910224852762729602189026354694776823608878004174047161565027042904477287856851733042206237, 611328478038843857369416226241625653158149106663993611291496522683270771876826130452999848012668467997791467196449800742953092150004474556699964621030898554), Some (false, (4586498980855222006681400324197282298529189013957507061207764086345177935201095063603670810014893860187544616922473101180666424626066674785356475633802493231, 2996911421180190703298302903533469774391850033648833962570580502848145479863034840432015254343141801586141552577489830325845517740562132316583998247239380407, 584956934707765084042619405913976372118939813088870858872007195449469379347632403630656514715538058036604545522791883526826013656785222329770753765439857487, 265452984851113470925236642345126133374645305373105177468454485679493413416921495797698391929651277477082338981507219873958629043099658783331192302076433418)));
   ((122058566570242503585242893274480115619295230341608389713947198652766733293096256161697431549794276006280497265004119776465730031809223739662192496673198343, 642037735466434775114067733886350011357230302300871088492828474998513083623466250854499463980543956519007699084428393067076689638379459373113773513098470961, 4792994824852691235423736224482755875162893710141864089972777142999544339909731518373877177514116690629248870595176780809528644880785537073139729229888441061), None);
   ((3068267298213933645393357204694030244902964624322673249334637249391177430185166849438755725314934064274054416349532398603290653751557464735405085151027244604, 6356422760629209406071723436328416729136519255540857954860441696578321350870779588064544346533012646839446298372371640943253875602972406922556674094292659953, 3988446289757825017933081830505675679086779952707129898848107314455584390870926506597689997805858621407579809466938968437575995396142864137982198714705010444), Some (true, (395612801641784879831552821702315106990881521439098987977790658624742939474727794170163665758380866301789157236235109669105735409488133618823522452232185838, 1970658392815872049633695878796533507630891822529769093287888179528671322735264552446659737429141139234594033166750313055009642539907365006972098584385445461, 6173286215448994940449219174580071824487323511116499235180282471052888424892765080628234710418691687373461553842651120102709986733081030462262529716349642510, 3082563845574441214628912211558211382859710665989507937505901229219180019468377708305958942226562830350119373982181028433090557848935129529514437897010130166)));
   ((2598048339359720681387277722206951221192639138772434956830264451978029880072127355381002106305973656631623084796590722862767811063993494813592557225588874842, 1909840532300366150260103903003621965259091399871372519722332330099648224767282321593363829864423387244629083569136136607593981835436930912194767933175785833, 5459661326135796373845191696469841662891266401970181746587115251105516554654571520005048173723088366634219132261340501158216083483377513361708942115867959452), None);
   ((5741593497738559171852829944535193492771667484140777040600277558433781315737171601342260662657670178618762841791261762914162431910352669208432057122882885827, 521314641254745441108514073858154168306436516695387792402913353995080433667189724957108117892528764168287114751428985341460225783905007818054358999026302553, 1902016666637262812718209235579768081003242954804688807516472227232271523316489285477798914938236086383305160844825808282361889613388433466112509025329320712), None);
   ((4885376263654619926592112061347102167445244876367252782610960425156620761297701668126558025491849332199914144392000417401617578079751349692237152708282125710, 3540240596267715985693184378325515989090264839007007646366044421838939193155353869630632079666948924175141407986521751059296090942439720333845005863375559506, 5836414078539363778614056492323454992920727181946028909269699639545377178791473302645438169339163894502981706112327487736341590525937102001162549862658107526), Some (true, (4752302905790879892527969477227722562340974270954566726550789323626117429631544168049929993886910539569139019075934677760096128127026860970614393835159243623, 3503667318651447376958280490201111535369725744768535355876460167686600591376938610249207327785661106087071217141655003566076372841602410444933488335468590053, 854341356923751858687814909436161922067482080168721256390117341962890478158846276277927781371932824416035083608244734450294964475611090893782580217778696755, 3557778505613836162305479931501709146033890768574297691497958209964080913264044827058400191836224987377224333042145412251008005196492374106806927826533940521)));
   ((2134547341462471998663900138972107498630888746303375018827152606545170097917786383638804840766873189064561514442327151529652228158307697490793170268926508425, 3959295285972067028239736258577325410826310321108376628151390212487433701593607120071225473880445757644535891669693597023355993865453093241119160968486601906, 5755848874625217433633648771094725762881520633065107958607346716433530164843756133073860312432558319795284498255483788778096359889516059651361821094022940610), None);
   ((4211983747632787285428274405316734766869726979964986782013929741385597262593733064475502857412444978817711223111183832945879766498322775228054171219213805655, 5088249667936258628395161428573994776995158068278855503027032175543922472603794286732517397287548099557405245599928733413665227696725357683304674259863111191, 6538354963913193446904175771472810336417004605282938367659140051698206622048713955508160978191143712843221853536496043412659155653282119684401199666428519023), None);
   ((4957052326543351807868196528039300147236740482834433935578299618852284146272314140386377708765570173087376873752786450947187065598997918383408542583847364734, 1519501133280315501324506097755058357893020365743570395656475663395294234912889097768073700295707952608271941921964291464515852918544092390282958349773293090, 6385609107772553445684797154257102914656874252907310173430425594007153889473728453619858009075785188855525487906588018599942393357018635161276117175257412516), None);
   ((1552126130469658841128575973735537054295945114746698780451780222277280199589743429797789166474437423568408668865272108453310699754434490277598289523478115091, 2838707582054306561014111171320546255162763774551695948499882720894567190751810859441355022063721905384575657127627532959781964311407353861361787386205634860, 3925451242190212833288413037195269530729174041617085111602558536290349006517720959979296373859102698901514076276728174101222788546696493135613405479016254837), Some (true, (1468621449645647240540043009966285033884499619542358895789615693032976900723288375906026132700252341623341398017552318804250045186774510259491932196559588997, 4729882223326346481864002909196110496687738018270455070271972740358501999581082022679447604557843151017136077183218216328811920795486254659478309783920515890, 757129563004381627165238565251446024053109898875387064254300102882202687412029656432447332084439077835225008483730536651917732834998818924913095800775141367, 4356536584354416490189091068627965579284029690689218185640899952393603158220829475288861002459287687966347202198539250498170253611372972635092544353338046608)));
   ((4615045249181750397957779037651856470618828832263480401162518766358521580411123207379495881932876760753396881582973433245744394272617090483859939569738380026, 659191430786707407421776075975218716641583022639081014511084586689903271868415816822367146431932355641503843376181845400759643347048004225711352141905279990, 1788925844932286255963717035464636936332340224906718861618746221450287432919239734804278679193446384193705782428603534681387158954667057394430238453693239766), None);
   ((4793043611511841946272058815769601735098866866783516625824920782535452251613034014354436506253892452374070491390192508253274766368581701905877470938451231907, 725235289508347481757824105629594686907032644290312367588001502295602448414104231014158024070643235562873904810647192691275650576274539770724152468618155352, 5152287832807973960686387401631860315361139170002871896512777440940274675879843292203659488068009981565708705341442984063131104516797301341109037853666626303), Some (true, (87700358438206253306267705518245633665337566464701292888441884742482038201586374554303629108379199750608986877132924305666578294304234315351794385716740455, 1547941132926827813749628607500336800516585494153961580690056949644714988922915404180881517376356751262329544406910709559231091236146218368932665848010633781, 6374319235266236186432727492900044721040997076107984311292756814608164306447067625871278449244885440847052898527285713329348526812912011565165232362292701544, 5974321347937678974959747055969029596836048968880477415009096508670884635110949426265885838199467762497386910350607875221466869683137521584803135436266737430)));
   ((2599045366431969914876352326193940411084933789018232447299707449702660244868133412782993592700533882523687111228729148423613132300826566525451814411771539145, 4150213019138251390544129440984725044466317789300779737018204475367396160921830050156660222245023249820699850878460581855162786236600569727134202677867236223, 4897422594136599160541938207743989712378320308019008980468156300789747491087385559536640736116577355609522451409389302326094088293535952456016277808004544700), None);
   ((5925539795377385699086459026185183792712150024489013386863952500183035201571568842668355224399816223847082721146911430391514572723778373590744077380242877809, 5689953384929681284338611689136353556401395902754964213992005348348006001546905712891899133571858013795020028641411557889163184172488602032601987451598988989, 1000647585770696907728336291000072040370615146365262348935552960389613591589076916518376808488037279393562189459035968573190619109272291820281824736873594942), None);
   ((2175637955572862531824975920424802163622088368279585825784003465606023425993203046912646238735760528299437081304678432540087750219569264645475999128292164824, 5676763755022452153719829589956204572463355756008302636051714482878470754052883414341669360126540157626363010749782281423462630926079688012484403063615796452, 6821191199680191453523156104306338052224363807551375474909699589991312728957132575871775802015478975423128942710655607653321955000709875294457183076354606452), Some (false, (6526706978217472213852572708271615003574917329980673573432482088576892632400401853860748885412804521650186561774501377967352303818800734698262224387427620335, 483066019499495589877862473217225143253688959114509661273030353839163782685377999493607617918180165307503058114509343538943769421778709131961527369131011525, 992481380563053942881048483390354890658699527207747500645641029604719151476321995153003642727197021038463574906800660185515842341067037894852867346768843462, 6299148586758155368012279478098956530199960974290834818978425457363288798028629361041613032785061821089625052077350403345857571134453941000300464228581126959)));
   ((6177623611850540604079969421813939586854161200098006037139165523728149330013073233294870696826112095879675741676771249209635510491526289836069644640866195065, 4240687723081723520863655661600440458322620297831601236128018924494309982854981471634209887323440490100639598678232670982713032876390590917853403165678489063, 5174641379211282879196038776871542766397899604108102448116970913898422697547948314328766628330722974254758192077582031219145158089030037495883529233658614591), None);
   ((1475778308986465119350020647167446944397967851390847053205684710427230075248391664799049006542676430709242023455756233249901350391895825381592737392834382808, 5237641546767390616902332202131176330045133606685852464971362512336571862621203684085658666037590720721405847647907980885864860936037470998832428964327671670, 701892636940504459600287774113111259476444355502520963556400948462532189542421656179795307495036325541901875842021947251936261355185285322120709731491307133), None);
   ((3923953147335606088940539557803713647025698042775438829038292433797088214294400488953191623645320120922942710952762110960436517168294050462829458376692612146, 4254658605920338741144661382660579501791459591302170708869541180173924042146311413422198071964037210651496987907603504712382685732198630089514526312365037284, 6731396649774075933001822561671872951679785596053129628331681724627567941035063903454233608819472370299889448363763251513011384016662982853783961999258151965), None);
   ((135521158209872908546216573900327720843909048402424173267492652921675399264717753002175120865315284576856319654040139784830642914129087546475749646560149125, 2900120804425697384089673863508466898355606694387505098472302318869390640695449508843083478182933990688387832740808866655666704608347006454647838664148089377, 4145590447882087755156285220563586849372600817435431104646179325475578915879247589610413629450457732076841610356545424897876121625692715463242779508122671674), Some (true, (6110692831570516189945384853543814249970420602527198476518446846184762482034612251037076888370748885995368900002321724152973044252082511193017905513735569140, 6143641706038164073439517492384931639809053301129035795011415235993279875207817400593623981222608906744835145754579115863066770735996735336276534403879140582, 1266829090375694132023567108238725418544466425507938706201706213368160151115964821459260148689418029780671036143441154943230567670220496645610841819447473814, 4312166895075196662057797706084655241438632186717222852308523262694643784292571633277088118414812191502984424523523939433170599864771235578314989752400676122)));
   ((5854283306819647621247748803550965669897936863428608389290284074013997211735587762689017952071417856979294130633840271720506851369855382784767096597122797302, 1514087454056702175566379722195649482341218481078899501583808955869687156674986680439391300365181414352094088331542004530017161908632159908441256356474777804, 6758457166727301040651802059599655942775193733090600792300869730174020529155860832032572639026406139867830188730859469492664453901849415068237091574758231688), None);
   ((5690027879766086429643282744154989094331996144444636333057646095907301605926875473305707474168883466266506599376225615672778722774254080536434240723556702829, 2271305927412036594901339698109576002842077682932929680114494941168632451117432549984913797214965681657716710581348785336124141288431454753096943183807736494, 5779173965350442846651798305239453020611118974379814089820010916990180955184336110797966177757300693040340936292354918944382582192308509462460593671389959601), Some (false, (257343389146821811454886275160834761775992350663125654353212882537484774787738697025793139213315336635526978461262044248200649095797793027420002222795178491, 2180481526672927063901129731090495556319930418898458977524896458052061711238069419444384446404672482421566052422658153598827887366206442438136662119803833815, 303881568148990204735472135752424022289657829191470362725055522020169526302236097924505842370275955918653449898450928390081535475755853748508382250705054500, 6776600054246485508659659508317940014801134672660785920151049294396158202764072807543670225628587942115118551476553446063763041620582202731813746208203441549)));
   ((5762686590516955747482699386619922452796536969603336978774767569030826736994771414681650081444125827129201275987903105365873974137111344986001181982820674607, 3254199773762759750528341011390072144457488579862795909322602803341721084750842917677729749235429955375312047460499982167162622040404084530533765831913542210, 3749782526214398260108164309679264748002892707483520666916777285596791871721842449239202220757733624541535102450303022670382408610498876355747208628987110714), None);
   ((405779125634641222713900989001442707376292453041553051837000264930745713192609830161149080307627941117615355603336626220679751956180490544216429667733795143, 5961490969045390393649499498353812213417862480771667773431896425378012589433489497651606145146685004162749808971210238618625003180549651237249294075292075737, 265694927906182654210499321586228224230932994206226803895624114188391811304577345040983192622373984825916967877263951559985848067522769945593854833448307339), None);
   ((6374891852129625722316329747376658919038842792106193322762743101306176832789364759546858037697678492469954973286584298773346181691754326148406172743177533760, 3267295017799426290564501541883365040433529162521427328217835179349792457478087399705731399020800934432274712202831512232955081721666608208960484919894647983, 2001833662219976669676701394579962895139367201217722606446733689402358640165449097488615081208398265688594112644578195068212440939304538762395921740524619061), Some (true, (22402960939760286182989775661192401839000658725514143297585132823379080070462142363872768761835654395430739938928197343279721575024952482442996786284964733, 3565109521101041830603973328761947585127233438139590171433352546733965526062949521814494978780446261208808780216852850026795502766022315829651292114497701282, 5978684421401315526680883644777989230077282902443903525775139401809448306501664323504897681472188001434078225810455114169769939224445749289011829194609141202, 1757694444183923965641177150951445047093534389228506073414658999101049913005142609350573183535844591655591085613170113296459684883088149330431640609877316966)));
   ((3380566100047319326045218747528526735816978901023844513157892345167810069956237575902817278514453634277772991993476892015872022531133958828593769484387240450, 4651830820443062963381811777626189409299911642287701083357701797898546970765892808898860021241517522769651979660594510691304949502838736843891432237318754178, 37752112315161969578995821107175826205156062083041046892043884111497628008784575163597222349016289318768346661880187003312041101446744982716593740521975436), None);
   ((2821587629695567518574126035882255160091560809534511817014683115752441339840021124796038435023839549262394567629112970174282086283526219004768744829222759504, 4333426437585582710999325023558024377002998728785726581108663314829348091915930996364544838722406942022584193126175886596262928763848218426063423632573779270, 6648865767625097650555823196593567722855403617919259770867507738441993400240713969921537147776105431264762408607260828082941707323273015654593208920232929936), None);
   ((1457836328177618632546843288005460399566326354895248513074058603815629811671539019606696737140344130331000305952822840600934190829332927247287495926988833366, 4841840781215643311700609326183630797652692641213373374705410205988636180678463882162793658555876633614839474926870288177498683935958000814676443725930824392, 5781813923019639044253583335488616186344201089517961792073385859161587020102718049725620552123717408366612808905133040401967392626709645261543613720383708235), None);
   ((299043014323849996549909829480228929777901911763730164937275287080166879054867000667864111067537981020501334258187816149598333478540381603423278938355182907, 4893117275420274896656287657094397396102026038191677322972671506339453555594015125398558389370009775189723609079527769689322146639712550628004852037778815555, 2636110054500508240096461632062992575032567188063198074802411895945571420008695114170366385924957927960526345585693172505910979644228759651886653434499057806), None);
   ((3581036991629773103239228726194254360664601580919598592676663335579613022538109044727775662835336295786560256691977051046339272050679073945132258383364976030, 5149132598293117117190345606519041611508120874996052220274560862876986988330011525621750292753915952660911807366407510843341360385348635403463246018286148017, 2223751636150276189560370054469154166372722491546897638359606680403331631195975980775153157162555718425272100141667635204395724270792939012680966981822852824), None);
   ((5112349248765562359972434648288954666433638296822110859622598744049229485067810221503170604693175462781004193164762918146049262548075808406543454180669813714, 1573030686833313445785128390486083607152186391427932966163301460335812240807913422630911672853464428877881707411269592742096416163706114319863114168740590270, 2566778423264797771561361999379644704143591351671482413558767316487208041767483193186359732189892336243909264167931663841909151323990869392388149960797278284), None);
   ((551411485023685197978174227573701317903485546910882442260685756633827996652507056543908204667343729884340303681462738254020621251173655156751186150622932828, 3354599223238531415344245746174233883141112894801497493476954523085385284593285499564261275945266241442659828565467833974002415314770138340941949352425034702, 2021054876238565671171566142315951416593037663552077179619021323517212352876450358263687550551572127899952294990454644583386869539203329002197948567948667612), Some (true, (4279172428532013296126629628197074193212788371291481786337939750768994578260107681521676400216831793006728656460309283664501776780175331767224482140188953847, 899510578436973662667385432193648672573328266921795112097535107698095754747402739912170411687002766272362749452891626509661462966481332690018694579158202060, 2253633714460108276660448765924564703845562748153097072866757858316538227335204446575754777163811661099865097155260339458715587654154441973102953150992510558, 4200205645502921504651218870551804020560239729180615895217379462342094670817149032096020417728937054325393306402072380489360925897495898212915311960924853944)));
   ((2209182374434903896348479435946445893060023269112517941233667758815385484014737915386364647351241038303502205558175385743933839696966631346108830558539969353, 1387483549556955756886764351388715659847196792370858535627934971261535777398550695069468566145710261761565405340933282542169339308645092605833707324379473918, 1160876684418915693318379580172267666440876308095097030760217704866962646999141283491373405046269936161760362663895850604175057510725363258899940420039126460), None);
   ((4405130492910060513916080354449623450419167376050622437122026006455187507543516558313688226255891561145270721778633699403022446149602162985752656211221479669, 1664019621786085728782817326152282335971438675124549444592786541689946944144611419667494432778396871658327048645051520181029548248831827961954645829392474687, 3016219963151750292613279831096320915877091946487499591728149048042995642421505474802607843025116238470564530536545165952280572072402289053054762865763458239), None);
   ((404006230554705695648051454524341518916989939957177996779154829567260768435709493803584973840948035722415897889167744713078982753644002355097405275048739156, 2661740802050217063228768716723360960729859168756973147706671368418802944996427808491545080627771902352094241225065558662157113545570916814161637315895999846, 3107617634360589251436393574590209613674980165373542922699895679569998705957099735431325235648509015415151866854191429514536321270520063002449684013536680367), None)].
Lemma generator_521_ok : generator_ok generator_521.
Proof.
  pose proof (mean_lift _ _ prime_p521 _ arith_p521_ok) as L.
  assert (mean (c_p (g_curve generator_521)) 1 na521 = fp (c_p (g_curve generator_521)) (- c_a (g_curve generator_521))) as Ea by (rewrite <- L; unfold mean; f_equal; apply fp_eq; vm_compute; reflexivity).
  assert (curve_ok (g_curve generator_521)) as C.
  { split; [exact prime_p521|]. split; [reflexivity|].
    apply (cardano_ok _ 1 prime_p521 arith_p521 arith_p521_ok _ _ (1) 4227714971925865618787010377607008046620260425444007655164701187495367454124487389458482106189321878470880904825123108494946841787864682171963533683246086445 1543233650131009821683778030707579600712967275747614005235175877194222613122433646650368796898373053257823274269651436232736693680260948728468167119389984722); [reflexivity|vm_compute; reflexivity]. }
  assert (good (g_curve generator_521) (gen_point generator_521)) as Gd by (split; [split; [discriminate|reflexivity]|vm_compute; reflexivity]).
  split; [exact C|]. split; [exact prime_n521|]. split; [reflexivity|]. split; [exact Gd|]. split; [reflexivity|].
  pose proof (good_on _ C _ Gd) as On. cbn [gen_point eabs] in *. revert On. rewrite <- !L. intro On.
  apply (order_check_ok _ C 1 arith_p521 arith_p521_ok na521) with (l := chain521);
    [exact Ea|exact On|vm_compute; reflexivity].
Qed.
