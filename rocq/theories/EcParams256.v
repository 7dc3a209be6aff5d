(** The parameters of generator_256 (ecdsa.py) are what they should be.  Generated
    from certificates; nothing here models /repo. *)
From Coq Require Import ZArith Znumtheory List Lia.
From Verif Require Import PyBase ZpTheory DigArith EcGroup GrpMul EcModel EcProofs EcCheck EcOrder.
Import ListNotations.
Open Scope Z_scope.

Lemma p256_0 : prime 919.
Proof. apply trial_prime. vm_compute. reflexivity. Qed.

Lemma p256_1 : prime 3677.
Proof.
  apply (pocklington 3677 [(919, 2)]).
  - cbn. repeat (apply NoDup_cons; [cbn; lia|]). apply NoDup_nil.
  - cbn [map fst]. apply Forall_cons; [exact p256_0|]. apply Forall_nil.
  - vm_compute. reflexivity.
Qed.

Lemma p256_2 : prime 197.
Proof. apply trial_prime. vm_compute. reflexivity. Qed.

Lemma p256_3 : prime 66417393611.
Proof.
  apply (hpocklington (mont_mul [] mf_11 66417393611 8) (64 ^ Z.of_nat 8) 66417393611 2 [3677; 197]).
  - apply mont_ok; [reflexivity|vm_compute; reflexivity|vm_compute; reflexivity].
  - repeat (apply NoDup_cons; [cbn; lia|]). apply NoDup_nil.
  - apply Forall_cons; [exact p256_1|]. apply Forall_cons; [exact p256_2|]. apply Forall_nil.
  - vm_compute. reflexivity.
Qed.

Lemma p256_4 : prime 11290956913871.
Proof.
  apply (hpocklington (mont_mul [] mf_15 11290956913871 9) (64 ^ Z.of_nat 9) 11290956913871 2 [66417393611]).
  - apply mont_ok; [reflexivity|vm_compute; reflexivity|vm_compute; reflexivity].
  - repeat (apply NoDup_cons; [cbn; lia|]). apply NoDup_nil.
  - apply Forall_cons; [exact p256_3|]. apply Forall_nil.
  - vm_compute. reflexivity.
Qed.

Lemma p256_5 : prime 157.
Proof. apply trial_prime. vm_compute. reflexivity. Qed.

Lemma p256_6 : prime 3769.
Proof.
  apply (pocklington 3769 [(157, 2)]).
  - cbn. repeat (apply NoDup_cons; [cbn; lia|]). apply NoDup_nil.
  - cbn [map fst]. apply Forall_cons; [exact p256_5|]. apply Forall_nil.
  - vm_compute. reflexivity.
Qed.

Lemma p256_7 : prime 107.
Proof. apply trial_prime. vm_compute. reflexivity. Qed.

Lemma p256_8 : prime 204061199.
Proof.
  apply (pocklington 204061199 [(3769, 2); (107, 2)]).
  - cbn. repeat (apply NoDup_cons; [cbn; lia|]). apply NoDup_nil.
  - cbn [map fst]. apply Forall_cons; [exact p256_6|]. apply Forall_cons; [exact p256_7|]. apply Forall_nil.
  - vm_compute. reflexivity.
Qed.

Lemma p256_9 : prime 34282281433.
Proof.
  apply (hpocklington (mont_mul [] mf_25 34282281433 8) (64 ^ Z.of_nat 8) 34282281433 2 [204061199]).
  - apply mont_ok; [reflexivity|vm_compute; reflexivity|vm_compute; reflexivity].
  - repeat (apply NoDup_cons; [cbn; lia|]). apply NoDup_nil.
  - apply Forall_cons; [exact p256_8|]. apply Forall_nil.
  - vm_compute. reflexivity.
Qed.

Lemma p256_10 : prime 774023187263532362759620327192479577272145303.
Proof.
  apply (hpocklington (mont_mul [] mf_23 774023187263532362759620327192479577272145303 27) (64 ^ Z.of_nat 27) 774023187263532362759620327192479577272145303 2 [11290956913871; 34282281433]).
  - apply mont_ok; [reflexivity|vm_compute; reflexivity|vm_compute; reflexivity].
  - repeat (apply NoDup_cons; [cbn; lia|]). apply NoDup_nil.
  - apply Forall_cons; [exact p256_4|]. apply Forall_cons; [exact p256_9|]. apply Forall_nil.
  - vm_compute. reflexivity.
Qed.

Lemma p256_11 : prime 835945042244614951780389953367877943453916927241.
Proof.
  apply (hpocklington (mont_mul [] mf_9 835945042244614951780389953367877943453916927241 28) (64 ^ Z.of_nat 28) 835945042244614951780389953367877943453916927241 2 [774023187263532362759620327192479577272145303]).
  - apply mont_ok; [reflexivity|vm_compute; reflexivity|vm_compute; reflexivity].
  - repeat (apply NoDup_cons; [cbn; lia|]). apply NoDup_nil.
  - apply Forall_cons; [exact p256_10|]. apply Forall_nil.
  - vm_compute. reflexivity.
Qed.

Lemma prime_p256 : prime 115792089210356248762697446949407573530086143415290314195533631308867097853951.
Proof.
  apply (hpocklington (mont_mul [] mf_63 115792089210356248762697446949407573530086143415290314195533631308867097853951 44) (64 ^ Z.of_nat 44) 115792089210356248762697446949407573530086143415290314195533631308867097853951 2 [835945042244614951780389953367877943453916927241]).
  - apply mont_ok; [reflexivity|vm_compute; reflexivity|vm_compute; reflexivity].
  - repeat (apply NoDup_cons; [cbn; lia|]). apply NoDup_nil.
  - apply Forall_cons; [exact p256_11|]. apply Forall_nil.
  - vm_compute. reflexivity.
Qed.

Lemma n256_0 : prime 337.
Proof. apply trial_prime. vm_compute. reflexivity. Qed.

Lemma n256_1 : prime 104471.
Proof.
  apply (pocklington 104471 [(337, 2)]).
  - cbn. repeat (apply NoDup_cons; [cbn; lia|]). apply NoDup_nil.
  - cbn [map fst]. apply Forall_cons; [exact n256_0|]. apply Forall_nil.
  - vm_compute. reflexivity.
Qed.

Lemma n256_2 : prime 3969899.
Proof.
  apply (pocklington 3969899 [(104471, 2)]).
  - cbn. repeat (apply NoDup_cons; [cbn; lia|]). apply NoDup_nil.
  - cbn [map fst]. apply Forall_cons; [exact n256_1|]. apply Forall_nil.
  - vm_compute. reflexivity.
Qed.

Lemma n256_3 : prime 1002328039319.
Proof.
  apply (hpocklington (mont_mul [] mf_23 1002328039319 8) (64 ^ Z.of_nat 8) 1002328039319 2 [3969899]).
  - apply mont_ok; [reflexivity|vm_compute; reflexivity|vm_compute; reflexivity].
  - repeat (apply NoDup_cons; [cbn; lia|]). apply NoDup_nil.
  - apply Forall_cons; [exact n256_2|]. apply Forall_nil.
  - vm_compute. reflexivity.
Qed.

Lemma n256_4 : prime 311.
Proof. apply trial_prime. vm_compute. reflexivity. Qed.

Lemma n256_5 : prime 29.
Proof. apply trial_prime. vm_compute. reflexivity. Qed.

Lemma n256_6 : prime 17.
Proof. apply trial_prime. vm_compute. reflexivity. Qed.

Lemma n256_7 : prime 311245691.
Proof.
  apply (hpocklington (mont_mul [] mf_59 311245691 7) (64 ^ Z.of_nat 7) 311245691 2 [311; 29; 17]).
  - apply mont_ok; [reflexivity|vm_compute; reflexivity|vm_compute; reflexivity].
  - repeat (apply NoDup_cons; [cbn; lia|]). apply NoDup_nil.
  - apply Forall_cons; [exact n256_4|]. apply Forall_cons; [exact n256_5|]. apply Forall_cons; [exact n256_6|]. apply Forall_nil.
  - vm_compute. reflexivity.
Qed.

Lemma n256_8 : prime 622491383.
Proof.
  apply (hpocklington (mont_mul [] mf_55 622491383 7) (64 ^ Z.of_nat 7) 622491383 2 [311245691]).
  - apply mont_ok; [reflexivity|vm_compute; reflexivity|vm_compute; reflexivity].
  - repeat (apply NoDup_cons; [cbn; lia|]). apply NoDup_nil.
  - apply Forall_cons; [exact n256_7|]. apply Forall_nil.
  - vm_compute. reflexivity.
Qed.

Lemma n256_9 : prime 1201.
Proof. apply trial_prime. vm_compute. reflexivity. Qed.

Lemma n256_10 : prime 229.
Proof. apply trial_prime. vm_compute. reflexivity. Qed.

Lemma n256_11 : prime 9350987.
Proof.
  apply (pocklington 9350987 [(1201, 2); (229, 2)]).
  - cbn. repeat (apply NoDup_cons; [cbn; lia|]). apply NoDup_nil.
  - cbn [map fst]. apply Forall_cons; [exact n256_9|]. apply Forall_cons; [exact n256_10|]. apply Forall_nil.
  - vm_compute. reflexivity.
Qed.

Lemma n256_12 : prime 187019741.
Proof.
  apply (pocklington 187019741 [(9350987, 2)]).
  - cbn. repeat (apply NoDup_cons; [cbn; lia|]). apply NoDup_nil.
  - cbn [map fst]. apply Forall_cons; [exact n256_11|]. apply Forall_nil.
  - vm_compute. reflexivity.
Qed.

Lemma n256_13 : prime 43.
Proof. apply trial_prime. vm_compute. reflexivity. Qed.

Lemma n256_14 : prime 37.
Proof. apply trial_prime. vm_compute. reflexivity. Qed.

Lemma n256_15 : prime 9547.
Proof.
  apply (pocklington 9547 [(43, 2); (37, 2)]).
  - cbn. repeat (apply NoDup_cons; [cbn; lia|]). apply NoDup_nil.
  - cbn [map fst]. apply Forall_cons; [exact n256_13|]. apply Forall_cons; [exact n256_14|]. apply Forall_nil.
  - vm_compute. reflexivity.
Qed.

Lemma n256_16 : prime 38189.
Proof.
  apply (pocklington 38189 [(9547, 2)]).
  - cbn. repeat (apply NoDup_cons; [cbn; lia|]). apply NoDup_nil.
  - cbn [map fst]. apply Forall_cons; [exact n256_15|]. apply Forall_nil.
  - vm_compute. reflexivity.
Qed.

Lemma n256_17 : prime 727.
Proof. apply trial_prime. vm_compute. reflexivity. Qed.

Lemma n256_18 : prime 17449.
Proof.
  apply (pocklington 17449 [(727, 2)]).
  - cbn. repeat (apply NoDup_cons; [cbn; lia|]). apply NoDup_nil.
  - cbn [map fst]. apply Forall_cons; [exact n256_17|]. apply Forall_nil.
  - vm_compute. reflexivity.
Qed.

Lemma n256_19 : prime 131.
Proof. apply trial_prime. vm_compute. reflexivity. Qed.

Lemma n256_20 : prime 3407.
Proof.
  apply (pocklington 3407 [(131, 2)]).
  - cbn. repeat (apply NoDup_cons; [cbn; lia|]). apply NoDup_nil.
  - cbn [map fst]. apply Forall_cons; [exact n256_19|]. apply Forall_nil.
  - vm_compute. reflexivity.
Qed.

Lemma prime_n256 : prime 115792089210356248762697446949407573529996955224135760342422259061068512044369.
Proof.
  apply (hpocklington (mont_mul [] mf_17 115792089210356248762697446949407573529996955224135760342422259061068512044369 44) (64 ^ Z.of_nat 44) 115792089210356248762697446949407573529996955224135760342422259061068512044369 2 [1002328039319; 622491383; 187019741; 38189; 17449; 3407]).
  - apply mont_ok; [reflexivity|vm_compute; reflexivity|vm_compute; reflexivity].
  - repeat (apply NoDup_cons; [cbn; lia|]). apply NoDup_nil.
  - apply Forall_cons; [exact n256_3|]. apply Forall_cons; [exact n256_8|]. apply Forall_cons; [exact n256_12|]. apply Forall_cons; [exact n256_16|]. apply Forall_cons; [exact n256_18|]. apply Forall_cons; [exact n256_20|]. apply Forall_nil.
  - vm_compute. reflexivity.
Qed.

Definition arith_p256 : arith :=
  mk_arith (mont_mul [] mf_63 115792089210356248762697446949407573530086143415290314195533631308867097853951 44) (NC x0 (NC x63 (NC x63 (NC x63 (NC x63 (NC x63 (NC x63 (NC x63 (NC x63 (NC x63 (NC x63 (NC x63 (NC x63 (NC x63 (NC x63 (NC x63 (NC x63 (NC x0 (NC x0 (NC x0 (NC x0 (NC x0 (NC x0 (NC x0 (NC x0 (NC x0 (NC x0 (NC x0 (NC x0 (NC x0 (NC x0 (NC x0 (NC x0 (NC x1 (NC x0 (NC x0 (NC x0 (NC x0 (NC x60 (NC x63 (NC x63 (NC x63 (NC x63 (NC x15 NE)))))))))))))))))))))))))))))))))))))))))))) (NC x62 (NC x63 (NC x63 (NC x63 (NC x63 (NC x63 (NC x63 (NC x63 (NC x63 (NC x63 (NC x63 (NC x63 (NC x63 (NC x63 (NC x63 (NC x63 (NC x0 (NC x0 (NC x0 (NC x0 (NC x0 (NC x0 (NC x0 (NC x0 (NC x0 (NC x0 (NC x0 (NC x0 (NC x0 (NC x0 (NC x0 (NC x0 (NC x1 (NC x0 (NC x0 (NC x0 (NC x0 (NC x60 (NC x63 (NC x63 (NC x63 (NC x63 (NC x15 NE))))))))))))))))))))))))))))))))))))))))))) (map zdigs [0; 115792089210356248762697446949407573530086143415290314195533631308867097853951; 231584178420712497525394893898815147060172286830580628391067262617734195707902; 347376267631068746288092340848222720590258430245870942586600893926601293561853; 463168356841424995050789787797630294120344573661161256782134525235468391415804; 578960446051781243813487234747037867650430717076451570977668156544335489269755; 694752535262137492576184681696445441180516860491741885173201787853202587123706; 810544624472493741338882128645853014710603003907032199368735419162069684977657; 926336713682849990101579575595260588240689147322322513564269050470936782831608; 1042128802893206238864277022544668161770775290737612827759802681779803880685559; 1157920892103562487626974469494075735300861434152903141955336313088670978539510; 1273712981313918736389671916443483308830947577568193456150869944397538076393461; 1389505070524274985152369363392890882361033720983483770346403575706405174247412; 1505297159734631233915066810342298455891119864398774084541937207015272272101363; 1621089248944987482677764257291706029421206007814064398737470838324139369955314; 1736881338155343731440461704241113602951292151229354712933004469633006467809265; 1852673427365699980203159151190521176481378294644645027128538100941873565663216; 1968465516576056228965856598139928750011464438059935341324071732250740663517167; 2084257605786412477728554045089336323541550581475225655519605363559607761371118; 2200049694996768726491251492038743897071636724890515969715138994868474859225069; 2315841784207124975253948938988151470601722868305806283910672626177341957079020; 2431633873417481224016646385937559044131809011721096598106206257486209054932971; 2547425962627837472779343832886966617661895155136386912301739888795076152786922; 2663218051838193721542041279836374191191981298551677226497273520103943250640873; 2779010141048549970304738726785781764722067441966967540692807151412810348494824; 2894802230258906219067436173735189338252153585382257854888340782721677446348775; 3010594319469262467830133620684596911782239728797548169083874414030544544202726; 3126386408679618716592831067634004485312325872212838483279408045339411642056677]).
Lemma arith_p256_ok : arith_ok (c_p (g_curve generator_256)) (64 ^ Z.of_nat 44) arith_p256.
Proof. split; [apply mont_ok; [reflexivity|vm_compute; reflexivity|vm_compute; reflexivity]|]. split; [apply Zmod_divide; [discriminate|vm_compute; reflexivity]|]. split; [apply Zmod_divide; [discriminate|vm_compute; reflexivity]|].
  apply mults_ok; [discriminate|vm_compute; reflexivity]. Qed.
Definition na256 : num := (NC x0 (NC x12 (NC x0 (NC x0 (NC x0 (NC x0 (NC x0 (NC x0 (NC x0 (NC x0 (NC x0 (NC x0 (NC x0 (NC x0 (NC x0 (NC x0 (NC x0 (NC x52 (NC x63 (NC x63 (NC x63 (NC x63 (NC x63 (NC x63 (NC x63 (NC x63 (NC x63 (NC x63 (NC x63 (NC x63 (NC x63 (NC x63 (NC x63 (NC x51 (NC x63 (NC x63 (NC x63 (NC x63 (NC x47 NE))))))))))))))))))))))))))))))))))))))).
(** The multiples of the generator on the way to n - 1. *)
Definition chain256 : list step :=
  [((113263017238354996763124680781021339965225951156625566108286639878897990968962, 84672426935004027085431671804273690236343479635324931887093081991397307207158, 89316448527499545676244853987718357194742176196649758754288902847342449894776), None);
   ((59989240386736908851376191049783800553769197824301739341565547088900486499006, 52190823643735369884077262698655859289270677792698727139021297085487099268183, 80194053592925940172994836434742864311950150166524566340147370929325760816772), None);
   ((3879137559360034373610790664981106968350461446953249623247541682532419438007, 45021246853200121926471808119014368225539371941808044148098174671280402829239, 106779311262945668478766049633152725048621515254379515410525893566977383429974), None);
   ((48865718188044955606449178794295942316498176763720739029524436144368083129025, 96901850018457161908273273537195103775931902370379113330792992839899731951700, 107635787598301397125403703999795100688797866145747328473518734363490181421924), None);
   ((83781885326883347414108848701142613283461232483918360845389741963648379249865, 15577349407385242366717022296610302389247076740910576930966049342601036027961, 22544216028931216831104901103478827320475956064750939023448864046860894139746), None);
   ((67923205326766345638108777840239935368408455140371040389951329743962392341949, 113763009770279385519265825956961692106526096026974648596072632893390575075477, 46645233325629428234619343906265400498403653127644464106889279176856840318761), None);
   ((3680753834736713608224101503374158308910996643893633585101901960130420697930, 22218412090194324632138534759388720597948675665877254656190099193604070582957, 25702558209801620432865860012455600767955868170919970882028227163175186558458), None);
   ((10951204789268088068055645459927908733337524402247906294600691884330565995050, 27876583043893181780423082516578149525979565768493691633953936959989541698684, 71143724427750217960456158744697729036159487103213772537219047128369068870457), None);
   ((84751965372800434088355659527715349324993974549993817607251137692197348433635, 16030295161996151550101137872158992973731700753931848344465129070364732855956, 89613724456021521719479017160860835785449302819171404544482002793510335783293), None);
   ((3697914147246600064482371685657277793675808665153012138235959272462469257680, 73469220450667053487490633339123882956976567648489916896285770776364342500781, 90272976225455484439608532862591297816363329440791501044789831692899829197553), None);
   ((54376640990044453171753921421809712785210232713980400885900406162793781496559, 43367595386048841077422495210552462950961916032794210764163227682529375336508, 79344035188098158762204272065859349361003721643388538502712578291020657802749), None);
   ((87115499660738837433443376125602527124765341835595961492023312976151327637083, 14893047556282956749553111103842576631976546270778272895644576269975262962250, 16318869669710083082787937593561265763867574073782554708072578861371851138618), None);
   ((42644913654729541884096184547724284185743543966220607479435483829584784862297, 62827864650704252138827020976896688544537763522475602730659916488354763494837, 22245936201993950281272638457718002576703715260593153313408526772777423563751), None);
   ((90512937460309004320245696296036918401141444874653916445415790467993996380109, 44138473202562245335916437348530474333634817358337128159886865612684069811057, 108399041454307088910381042602102998352868015732125768987349082074951933652026), None);
   ((6228714492369213535166341638957795926007216175029106332502073585223403430809, 111366922360757467854553287243815867154789254452284036615911065151285346565411, 83503796807497629964788327257661626857795431919171217761058478990978058563167), None);
   ((75916876994479365660292088120834802003683486445881378514471911602916811877735, 45561454392611008196496957923245993715231110289443378061894442116268716647237, 112082934748999885280403983740463793343616742814037360894045174188364956339783), None);
   ((87594972521793498507674063409484510583510238166899677629895632262441716798278, 85891160109658158799209819905656796817884311378547756011284705242046854709565, 5935175317622868637251109169452347127986305970493013631967371690777695447407), None);
   ((32363556718902132044553466617113053930408507716524886043488590303592627551073, 61608220934856705837735818167795066392931936481744546124925489341800679824086, 41695646308710793298962478779364579659291211543066082739489719820812250563215), None);
   ((115782158132766942307100621206056050086535497451361931634624083781654609811943, 19005223353999673863213430866367518669423033781548385101549780934488680301154, 29306879355336059166272412068922372245178307544719802178191995750942319239381), None);
   ((21573756914725859765399720118364670372056142565003057451213461997969295580864, 49813089667997107945832097278367742632212826905639999125770138750011540643934, 108241262351516647917396493221124781446409427829496441914905518600953789640303), None);
   ((71500815236310941048666362300327725260234597793333990784985016394378394578336, 90251436586042064310148226711631430480063968201436859622599973220911591852165, 13166652883257805471247971090472868739290000867940275046380689574843649248952), None);
   ((105874113914033378941070172690744720950848858404367924473155098799984104289751, 83047106405068230038482438505420550085559927586602372339016964403982322831234, 46200572535133244384082739510262800606419424235339059192893718919303798316603), None);
   ((35492051751924682615622852329988088879686524049511836940696545210498646296351, 115348937381210552385694318938499463736164066152175309707160117371024741589780, 78451213200758167228069538363355105936125118183148996284964933440964626030726), None);
   ((10255386235052631710893718008315931559321663136994953294801840605876876251217, 42216963535556118590603854376315141123527322451150377225353548896611157368319, 33853944560416044244049773830747591018132062170801550976532903302732173078153), None);
   ((68166143792052592049195619559215058641404701139199508570207671073739115390001, 43451025050548822195001056438367145419665346954513925713031691926101655500598, 43193297765036898485141940505584909234294199967116211244411290042304048845899), None);
   ((96818721229456054466776651513280645503222551857001031875919011240084424927603, 60088263266154114369163964526914249848061481445821985193540681965446859844937, 86859061074796865650519447666230850334767099799062659955619000584826090221618), None);
   ((10099801017370878302745084451893790987955000994224781591315196760123470245059, 12302376179852823159541970605405247653052987425797318739908284334375163286132, 29758417493709542610745759597012887734707744700804635466713966684319298438934), None);
   ((50552354283767779539464310723510086184099928069123134790654432053679749906742, 112913803648113508288639871799200861803446169718013624667310879788241817708460, 44806836143926716087676075609652915194642894446935663268917120217805787190860), None);
   ((80617164543006666018170869571920646393339659630402260352328911200763833964953, 77530739351026809119199651922826621965639458110210195244713100816634543618852, 81135334447970746925534522077042807615761187815025314261387574500973340119168), None);
   ((72863390346748745610554814221216790435990858403559415792706080182887903454127, 23119610798380417532428884357004525592263387597006924834957880679652235082291, 99335118669199783734986305373775935888919155677166253938946437006357428410844), None);
   ((35507129591840928729228597853682883530579686144311355409917210789294187597494, 31873999577921942307796659944572673944137945233627745813510141675165197154498, 443238314464208223364348401327703413499012821456430773046666969951475057331), None);
   ((66643307502231561434715127138836930714801412856069542762158042005960813788256, 37890136804932923365749046361646208975837106809485057272878987171604244568793, 28374674524422121887089475720478938711513013977067247438796641302864255225734), Some (false, (89786353078782542897404182951718390836742977695318775921800350279579022392613, 62688868667929147538625697246402414001499238557434748629781057537691756276889, 109953323531355002131667245511654239415249106491937242484896595808688064835244, 85044047066246049562713312753811775313121836455888506689455975247549403589700)));
   ((110405696624393235542032499027379703363220509184872589642121464618787191059560, 23080514045785742055893275146160629962829925325983273505574005249532209071511, 33510181735083414681046730088861377743874365748945867332504696023366743545138), None);
   ((112083106598184754814947208298797545923208816566725155588060653045748791778234, 14848827633758618712928534950352197360912598698322355733553405669231770275108, 62130138313122201053884455725311614733600346879623920347917462986854656638997), None);
   ((83919769170059272947151654443246080356289142849353655752412173111445367070509, 73400742300700851460433783086601132144429677008404915713328745828412081193606, 50046109916013681778885488899263094481353012421269161720330406891244231054337), None);
   ((35664129520210896655507559756278254563825498355222495602232134580985392952462, 3089535329366336190833475974642369300585301171992334329900154826221762407791, 90940877617588998104980039251270914676572399912270196222891844942726901205153), None);
   ((34712191877304756577417665756546477444318145860661907551379357512162698828212, 12477936451788580333799124660514520279094766174362663281485667874535741216522, 68426134423821075927337531449560919170838473364544448951235282421801459992667), None);
   ((108933336317011386620544536062989191090861886978484338368118205424110292227798, 111147223032128402018422107831009349330118297187251911244999314373956997609087, 34445031165751884238466589507606453487550581112621975509875194865124410464864), None);
   ((98323258324488475659914893509888815150104851352461355811552947918845345844005, 17972319806304958635860955532100096240907108685880350092700067680801161376574, 25329567965229445769482504849951619471446147822341464647893169261015944094935), None);
   ((51726962492528287610905601949894991779897358681533620469534978826364027177980, 31597293828916808911213052947331468993841414522845399457606395023352891649977, 33297333276706024221138805561680955073460933965824465540308679929223430217488), None);
   ((100999494310622029030404257446558670916554536499569665022330563891221955086056, 80567889166214215095512775790909925079869809275325338411005857818887808203812, 29767349587697846921346861964097704128715329548696138828937974314063698021065), None);
   ((110181635592011642628909178143541622771565113947188302413263081371934887088403, 10387608647063459365869511365281201446824480396214210001754788536409588045445, 20212315366845351305490317450175747742945552112652749479626870949491042223392), None);
   ((106591276835997517528645201770741875437699711871770809824180873284643842837902, 8919601185944468349045484018065795132652056206031045735377661831567262172290, 4970356173918736652440123978291481416646955646963244401364009212051772331538), None);
   ((31541514196096838551367217427317615600805504830012372546291791316444941898199, 45861943675197296553524519055468118902921214675268766552689276366391210658235, 108923813212164848657427275884108195233485274192286005914119723728246294562669), None);
   ((43631370476188898388930510363705163632149736080095789303852247301857898651219, 82795603465993271505231970540225190361756817660083513494417680772706263183628, 70946117624441233073304715271569966994481085863398192546367026020793692972004), None);
   ((1967543313347920474984562252156085553619789973130079617803859036546341170185, 12732384942317529727386127086340007763094458166269841417169833668069903185201, 100998926974420472629210370017837302055951534096986254875512157284304731401482), None);
   ((84024983494516338855924377953854860533135141409829828262595247825868015089445, 22736332160762140099514549577899891989188929638970699492642106387115803785446, 3964594150632324001821029931042209919954192637552698717067834486628313901680), None);
   ((115232901297288304859812338864759072020230135434153942530607607900498211122518, 110206297723890659513578304858606843358470329501919838752035709909107583969614, 87733784329877498353253792133678347690281191073445587768199594829601994316046), None);
   ((46717147358171167516066790026446948993380187085515790386096623816145379849643, 83120231011882828455600430785858223556217619774980049369946261236841048064426, 54392424240611791238940686239659076032872925599946755543235578510331078602240), None);
   ((67612229731575632102212617970107904985751329639189771796052175596162832590839, 48757274424264638812389623858295684072181132386022023875195906757090196712099, 47433823507106983145106565693663746247982734629906238436750864302407327944635), None);
   ((35124660376468764195869217520775877867828630175155004987847805812331675303830, 51047027109446444184517226190139577457184518227716859035582083854588972015791, 36333929841358908634893816432464627652084025002947116022221690203713483521626), None);
   ((102122848655467265749557684730464883329802831348840011306105500686750298999734, 79618832053457729477005288026443527866032319632266357091452547299415710591404, 111722686362836217115615378820317326966620766767900837958110042482315742287448), None);
   ((32346149828796757049466300513635684050533551076842733590061743725088038142553, 66430517595212212461344210592457259614536942130679894033442013513328151585525, 64277448007958787033686020447503680118031979638610860235289099022429920154115), None);
   ((4188038272124086726143160998779790875951026941896217786967228509065303501990, 38003563357322960328369856902671552266436854565996158970088907485278340500383, 99734686559477387049052690192166915633235504578117709415113683410381022871554), None);
   ((102805940400396761549185153063137670688950634405417786618482888837212992961572, 27072688540675486376629837587439380434293376327558201076489158910536346604769, 60930116082018760998355703559222583969416527180040476075913604390102428245729), None);
   ((51985647120265248284742079202199263850123024093389993026538387272605281975226, 80112603768519905382012176359740123123335100400864533191208398199755174666399, 42748103116938648642987206048270591135792286724403530787149831099445321956613), None);
   ((5038839826677610904109700982914625657563769128954107764270438468451170505744, 46305304334713177885745293164718937778353557249130650958019260325699200181466, 48723493954795842225942473012987134459448965167496165649442680071466581139278), None);
   ((14660384317176911497867124215846255880330922382224771718582754816516436947389, 109902936733836532609027933567062893203371241300718611652058156655956169265794, 11881460128357316036241463057334854044836686596575825911554822891736594872971), None);
   ((71578560666082577405350794755039824002880385712280473843236918167760650752055, 38231259399916312970981237910336446462495143659409998851935596028824293499032, 40716603643806337912635355337022629728268309849928596359387572785578319155501), None);
   ((10457920368777803855973742281618521521497336094188782789127763618421316438685, 52888459839470436795261194170852299177398286109242948160010023359538686454135, 19789597168957765369375417140161610661931394286230711634124460796313076367980), None);
   ((29250321697031809227694500662084298057687604990698786420564440586159183071693, 101208969418378700985593878477756076411495527067501518484784131767971081017922, 53079854027271526656573274407018588601660053804879909979597487438540724032470), None);
   ((66925938687511701374970559644919725043646361713694781947363067102939210207673, 107772870676807024537945794742810640171513295400391231364282108275456668275043, 78871415334287333923608291160107206101958118058056717502818142520558703567879), None);
   ((82823378419243528170500053951836532112861179780027907777290607050344176108672, 46428202148447659961094880581344864650614874455442228349114517725913431855829, 23976304768848486095223447079929644834437894033520774780801033488842065472941), None);
   ((69207391799519760370933033082885307643089520537020586143211052244737498612770, 33196779242440332825952134713313405492353944053095390272850343346032570235401, 94708325704709794304564686854444634296643523119272447519971408279295689950684), Some (true, (14545184805641917146219407230026482819131116096688126459494981666238023772242, 21715183716046956176026884989654473248787255534060260497540893563764872650710, 93790982191340956083926939618564932460657172684295732193844420167217637886662, 25764513240592665274684205519246776678442129334792135080534153585096968291145)));
   ((100394704266162138825910601355346370672908668553248759079134846159752386351607, 88318234006354830758460867294898958684188594017924962149328024657925518420974, 112678027941946106645900102095039420045966921933816371329782019199540126141368), None);
   ((30531608273278156576420815003482031017668642841010638389879665361471429079503, 40194745829092359817415332572032267250066911237065698951807930499664201365934, 115679374643798713054693005741126273003666850228690645678673797612864822918208), None);
   ((81364823483504524645052228342881709516322377338154649135458033004942629933174, 33666583700417846838136913543212013058369186661809084812869907228572791117618, 90109361938462152176712682403475679512471839206279137893335944914073645862685), None);
   ((25002865480269186760616986424932695953910984554028243721992933739242713488723, 91670630738009853715003701891611791575528233257348171639205394340441425452406, 97907834408004092267343930045896817596354598239067985107513345996979832244866), None);
   ((112923111787041523021285539671931339589694201445565116231441943518727053070299, 22855331657084946122568088559207155521622648686279874911414259384098175270503, 77205988043640742792947528281282914863636848611216615339868782044810052659782), None);
   ((90712371577168140226389981916861175335154708304513039779648133635513028938218, 5220487081392269301642632115022059226207792924714697228779051133371795570305, 36582724182121475592731342469044220059130136203298379920370175372182673399688), None);
   ((33187639001557838953798049630020702238703060414588243556875717138095187508681, 27249504730649115470903239709589457112698130703517655212571935870940522442970, 61382107697903840207345751487811235166990365979724499117033487618915620869944), None);
   ((14048335986122602678641741787996116162763342450095274667609134081675564218646, 11636661131366178354714809345580734432210272657095683415243800380551178762389, 75244094297297793511968995882063733436050922738602295504537880428292454404241), None);
   ((81259587320586964135235933075581045485479011383816585330502829091242635315103, 26579687330098065855315155681900877893381709539287468075013141078232034584788, 87105564727657852258750455751051838228582171104355137328885428770609477336374), None);
   ((52925571291403369163917490564024093937149991045168944370742901469041783534873, 13758988845243423847327181673092329609451722363589029013076117880909813286999, 87007858629121935592638986325587367097826733048656236023417896119564314598963), None);
   ((15324113359015994470595239354350890787733866527550849021933369998878052917165, 87036800559257579315892999924362253753882521461033720640914728179573765228186, 113153874170311975355371449769580592341855356869286624176841925561107826193988), None);
   ((40648361327724096783311668377807364850637239882018550297183051370378389870155, 108415628899304945722843305571057534402710646608593196295067152856680640317188, 34954290363963966061598458858444595850081606839964966802673222838805609804329), None);
   ((88546433271784742769265243958064337390916027861407109573614326337064065981806, 84093171641470106769680760782100480910042346827200812786999037704516084999962, 113024219920535695034045316896003694185100732882930523504689996579298733512224), None);
   ((66720785469413534858205518974732684042213997613070879127403109121896044864552, 7133722836669330570347754192498936633250195104942911874158709378928286266553, 90402303880899866256036848115480769926853088427551448046386816577804167886056), None);
   ((45990786302176272770187020816997318233183843307776492712199324813076210078495, 103569234803979858791012200979134963777722589053499418934373832048889842977106, 83027720043485431199457815946333860676407829603770766713231130069177450878536), None);
   ((99687601474741282534071144310477986035692575517282834231137516168834263971147, 72244132205884264673919147809665503542209964335056691270444815271589883121098, 41532953071874374267022677654563345824041360986320939208081017244356111519044), None);
   ((32886213615339217374549687757511247121703537761606082672111743242608433202816, 74894017774117466322343409386125074047305191348260724241558244621167752384085, 13464138748562435904068755241293035276009224794674938103337804208114384976267), None);
   ((45611605684948876569201974131041744037845960963088292648866934622375917333154, 5673552550806881427707470909391706991712030987509603071338129277407286683933, 104669653275720064966188449108057592048674032409972037337711374968614670435102), None);
   ((14486284046898878758581053335199831701304855884317917792079533782454270279626, 2695414562782402833134284739547545027872527215535996087679374117981869114345, 70421400202635060443982949437875981561595264994406211523295099726248461567134), None);
   ((8624697465573527526291399273293890786531196421348967658890970783902858103346, 78146556851930423341424878066067166155140500486566641827129074491711090226206, 59367955650611426342865563445372615463851697163077712551587802986645795607044), None);
   ((104149795140333779266157470867894676526854879078575472763041621341571850719290, 76988556694191020766890189777237021695279828110783508540190443125329239981479, 28374274418057229572634624806653720594086332806968237642133845196175677443683), None);
   ((77848664605928668357464735773984869422874373434868130212335873327146666345503, 64092766414701430886134593971867519997177502427532693430660116307320329037801, 10459195759119097370068129179914844637689426537684931753346720170283146488528), None);
   ((68579940680534818313730393475866710544543115675405302109807537616689623773349, 70741429360238653745023022671460347764240940133733698053500333273752022465917, 33789350694878480838505064815505579440615809583972790085765859268887232911937), None);
   ((87960337080133137214861390028349726781420348654286503199369634723498512974865, 96537009668569685664916448728124701018618367194581059187008592643841513833254, 101053870507576108203576404773772554511051615550636543140600313707857491354016), None);
   ((41089109433713417682134804621081330868918291289975748016509145596566331225530, 8669561584056508279047497143266982640421406005486501268324734756658417442413, 81475665339986381310614299865913005959246516346167698062932071620859244168848), None);
   ((8865750647568220653980864066171298644892044692932471636412433870495709866912, 106480442218510221437840462983742181554789546579286071770516436575199592365580, 94013879043206900593881232071792001403944878693579965088482476828007120427873), None);
   ((1144546902738472244392777479393532665576588354981819979213247121442041716916, 85489753828728735901887478683270421968571315097026394603906474586027566324496, 444515593464093766056204562103882751899969434182850877284657043985081804242), None);
   ((52990298326493433629935150449746248665312878922819202057129879523579396786685, 27985042247160367309763596080243753043828622524168457768423974964933301530160, 47069956202807922212071310643175730975964052171155285168413634875722198553059), None);
   ((67582608079573712862199095657241634531829704602022654786032782167055750325376, 101050692469514614989280547193712562805767868685569594933876487171609213328744, 114278966957135745095669266532951642964811483942844141179419879420034496477674), None);
   ((27215038401011591581445710949356024528179443277027264789788851462490617541707, 14251880915835427697766869803379009532939168624556764764353949073026194127862, 100162880934077285480762140674755732796127963438870571676543478338144465092873), None);
   ((97931930753372012623905785108281504006404003694382638955159849693857197519436, 32534398297957946459342966520297208470347337796428999145405064981080332818178, 93375988659519502101297881598702986261577313397742111270351286980747017561406), None);
   ((73884528376409366267646647463842018490240389261483742533465931733446219347154, 56105378686583278507238700611107002856266873186470983858437432547777027201084, 37366697116618718433273358675167840734788578452620556627271881480591208486870), None);
   ((109603222342132410965836947344251937815674799617771029731212689987222840715824, 23300698343115661059444426552017600241539439961853291888091195149389891674401, 50083211759371781520702999395091337907307144242455014026896302751786615430334), None);
   ((42520729334441336218678899586773882263862684245414456435527325654534056475858, 69927363556713410538943460317634466239908047108588640932979388684776282271650, 98118237488728492027470234028124076741000118280733873301832054677267701074176), None);
   ((17138157296972409228263042430354028309202400396604124988004245739795133625778, 83824971582979094252931268089465044237608937021890550876294152670678847478240, 42607161672408351841339930788000956882156823951388111866865644644905209328870), None);
   ((56380154244773291844223486530106791284018472288913728916776191954446841917413, 38397588377585576105522640713910199985807345227130470492174507095356321906491, 85806133555020392480345687396802864433407086977682668821238927565728094145192), None);
   ((111457535930727784739020279004446226408390119038947828401690777218393310119230, 80151681116140308843499579161714250264474687037727922468079164511784635977485, 97315283587125234418472596060997984770610684757039233366975241046133926846924), None);
   ((68574764197065934538530914136464432150592503831814213669693593234783871564657, 30094360466840584286610605511320638377278159374541817331122669870676604951452, 28752730122036702582284732371152669742769766565018367925322877202997017972169), None);
   ((66500596499665839191219857141514501990863631039706758730972711037386859182990, 108195285849729608602886873105329011229870436394971600696745100912883448128478, 69608699923844262196578461781372273583713054859308959743638975353044016821393), None);
   ((35359289408348552609406435861575862945604833965903206735490613244410936014195, 30084286511366315492292648296481314641322265274908117167333347956558010760856, 81870992372357759218533369378849489366691675705110908599913207194065273739444), None);
   ((11048184732176857023823258477849811509255737341530973549218233462880723939221, 11787369435340038365124828160242442059434903481881239076693666873323396248575, 84559385031580091809180742149403143111648312665361177737578892197882703146734), None);
   ((97873124612531819729708152665331901412167268019816352008800463794412681981233, 95393666486643802678962467912798088696381811066289067440875983020123778510952, 47926612131122010946890073055663089651192287005492374865398554606225847072157), None);
   ((89973898621565422346657925072245336556984628527697317494941454336677517967614, 40356242957997893857839342926974240852015603500859834500104702322408220224148, 42852028103497940747630871422165598931031390848692368513563886757925315562535), None);
   ((84620527732451561541397716209517854899108660330133156083250975192128992638433, 66156630151338870321650096521427001788971801041228856621730835044602975872996, 94062333906228941433746617055668714462545858491103405478065089171696529436369), None);
   ((36555626918281252613736512701130291032209368934674599062482445249878220701564, 10415131665723951253382216468840622347368317405938704503708344902997343873722, 12612871599313202429565965298359871207367886917941229593628230823272644779211), None);
   ((79541796013613936936586552525570934792011792481889881037037510047170336918608, 42251123030693972669276729113057767119314146164970863728720227397124658071938, 36188930510743290618990701040830959280792112097089356040897115487615021814095), None);
   ((51599724579999418556871774714254261310890923859685148056938274105515388936294, 80879570644741103897516812047336377299093356816054407823984034289521553199774, 53601783145528859090279005331396410983436934895238506643116710867595993696353), None);
   ((88730450888231807097905207344302031813752038705567585803354897054410229533811, 91695284532744193596449649577075195558910002081985131836397482761062829498530, 68907360966408368960700238281963689857139790885358076659827473525847513547008), None);
   ((105786420530896140087122626337876418508359740771330271408147930677386254562185, 44206550027697052114759009487129814607250230414939271580174896523465086591270, 115706260070806387966055271192008746021608324565812244581723184283129999862908), None);
   ((81571797794400578781940272321433662362370955093126089697783444779334414533847, 20272265032883063069134204143915728096911975163284107908229705525649414110352, 63279162714096789723859608178440888025001504742293737314289505205025921434132), None);
   ((81838730572401728616781628462681164381757920067551571090623047181454689403507, 87900163161308635187635207813286108322241239977898493127321593388211995958578, 17443806256887823917465515186959144682040650756582972160934677044231849882877), None);
   ((67256899750104080244155858339087725201115601018303413820093321932548381253365, 114333659809062171686541627797836088649467494420327097030902487358780588422482, 30959498976417121407134892569268217540231524575951381001105189733659244108177), None);
   ((40925309742473099258720390256986963740235277807866756439768696555799331637324, 62057108483127557907889775029451802417828405648571782095201980351221775617532, 33773356115881631163644133069176943966753198787061825235972990338628511217506), None);
   ((107773119305943056818790738038001699159403215253297651309173032694382616041898, 98589244185940333734729025041608857719219933449293931732048931756450336005706, 30352523446653401877758577315674313466621741588768776828610891273910541532902), None);
   ((4189293390693817575469352479711778576757726928151553237161609671884726523788, 69576333425541277331230990591851262580083062993608701707782643175564267668855, 3105585043538127208987007988620111327646106220951105780023677904800769000385), None);
   ((28131141775135647575746876676325219338671864228335108683324734000039360521686, 112610337828493432272404721763430914346187091806650726999214551459982352460066, 2620868107189778616276552035372002468636033007048515287257316376111059545694), None);
   ((108746758560605695238785014989692407520076508868510637981925748286192350980559, 77763682932656960817995115903364051128214661429640273806860845216943139098095, 15314229896699263331749966266052661389835151325964069783748478339072458798494), None);
   ((109488983308954207155572376578744609612954602306161861703649059658739087410611, 90520906160299867596603253082393903933663665895931381596630645828475405938960, 14224202593391691912731444915293718088525536714797466975605879812295615473585), None);
   ((31105606209056879707615149553040394495118579545506676013726869780516141018996, 108020142997863614353995871626398627622926502287651818386575718913403381566146, 103252573470912937441147449308034960894868708793065133631311149077682807211204), None);
   ((75492119862629758699998674531166321533868507126060770526550996904824051534033, 90996794025003642123306195459998814461586968310091907450033499604715648704450, 86297237383487165196529655012798900789201355603541143895832209461801152725032), None);
   ((112933719121843981660255322578562028973658123013080924923378602847075263302859, 47853886016575940979107457515112958244916393799625881972518744685053803988209, 39754368134539482484488135385543558553500926677448414192625633853607658105586), None);
   ((102738251235203317156987233613982866078489567791678494240727990197087398393248, 9763221449817833845778243142487074367441858254993347434149218596563413411603, 92944103587504919375422794467113836314780497191466474185376272195230916420824), None);
   ((47870243527082887038288815605375323773670687503788881652029264123676209064334, 28880739533297646531983545857844361364676988414307358531811720113503818626708, 95932147963155392326684985472813993845457704549666063233683188270020206031725), None);
   ((26168031881577795892406979327172090184542102279431070055840667596176890059746, 72672289011099201363391705754135257545871026072106212051548762473445243775314, 93611768792642458963506718462950452634438731816941368322303382327760959347310), None);
   ((78856288028206100716226782810027218224262023646560512017240516946374593862602, 91548328545885586012586192840494172783366485177472223552238742721578325276918, 42357286064722664142991309172628009402231282466167351908330949023164107665256), None);
   ((29290164093627944000186000714393863823456042788086509858473354758218850701955, 105158721919601542908830043131626911673659176160384748018326270897062782424213, 48547358584140663334895487458989069156506521670687602556135592143602251517555), Some (false, (27930912095701679272229962827784932060136347113338183492956317659149124452243, 84540721884318391097328209609185814499290453391756855976846033042636534642839, 8692942028486909639795259955107683206543706427103248460536484267029055236090, 101147119640132393834817668818821916362659073425960983227447081061130101758489)));
   ((7298667190352265724755579281907036450737040525566619286109612039300200083476, 52854678152787926070324769505646226529225248963754772005067119451119200724976, 113465160636648423845485495893049711016386926303325136103721839190316115545948), None);
   ((35267099255219435295652966698161180944709491853267935054976464969338006321247, 102937105672151986431770564085764728972618646550542353433798135574935703886364, 37171465219408869133014208510156426244699347110160182834902971233096408353368), None);
   ((35529835340177141227683501491377432097867113625481879701826166134486281357245, 2493105484676168577437542346857009513731603878928229038188626631251065767830, 95701384817058792903433224993486507607071852431007617357258206809260244010626), None);
   ((19063612849929974914159989965593663486214656623813918014130738210285504728456, 46880465880370330251524516921118479333970230274503123905658187163149873671377, 29328490672579748857368503048505369850948106608081870980068823329847199716170), Some (false, (55519501400951082957666633511049945198477326259329559797958690318524625149370, 105927833855807923028071594550928211350087071521101870289054709019315477580133, 8256842308853141394356907681288304068600106815441961749101275815137136763245, 3496483209205559676755141792776693904006866278025730985164883360980153684372)));
   ((6924248213929967161758871992012463496428599570171789826029824963611746450559, 8094120435381743511260545235739069096739677296856656592220393454285260031800, 92409940540739447741143399882018420011129640170444839867893202741978773929171), None);
   ((63459667542457825301393774711927523173840884132292447500377990923301526905560, 60248012898046488456664439713695861600253495099800954041448288251867110776261, 9185923664204180065150608892986512260240569724069709649246988487935623791271), Some (true, (61880642405358663852076691338226945196212326424483974374199690805119762256960, 93750406028025278824266186745471959076834749913628472531039336960323730581331, 61984693973653997473576672930987877636697648219006374726641337348415946912698, 97170958232753969578550849067531036409990785925829377169347612975696838173967)));
   ((104113303964085560591684288148502348156849443848482309907948737474254644126345, 85450012409761284082439772089749345396408653940832482759500185919498176399471, 42074468317645630359954210025897130905661328067436353941361657832611728707017), None);
   ((94996072036859485113446484982288190166826896100723986722674642608851326042921, 112682663131478804768759077583900057284982175084077843302493272477400358385953, 92607014026136713356927506498577997759352236083337966154691524003653263697959), None);
   ((48562003906912014768636102008081873784610848587617888677912994762420217754694, 60043164149575550956724282418729687154740769322405284293289736234453573530684, 4668143429635015825819672300892049855310078041221672695047281935856080496670), Some (false, (47151599171361167997839207852624058495246335465342611868868841153569401264349, 108475113170908530953697849537622419224747280668131655042800620202975442045369, 81832621094204058481161128387497924301882237946695726724859535722715670226640, 99282878971020790971454500555644618995999949368479761680448858789936274994069)));
   ((15085183286138591666964950403008640243259192386060251012430597632439785584446, 60831964340421087602874130611248033575086929663449080980235820753067065536172, 22147667391966023512576386639944043288177606246092774589109879754355433134009), None);
   ((103935382359127647942387333301188665292745992320471953638193399405909113098975, 12713356662672985688133133446450922127840099734536443774118111277199442004844, 69394510476094454678253190385397426855536489220921224726589787579306221647109), Some (true, (44982267714724171810878527664957943954369182514685946258018024709129876960259, 22246552938619508637768270628009026564636696452843048162429983619581764995012, 10970923681349626978250193485333527394893857534294237234705171254555182109161, 29463797921224466427734846300431546286356468249198346646404390122996909603946)));
   ((74638405411897781664904478217937050076971278772084910948520401552467011965256, 82969071856179406694211922367383129900200490539520352137377810586190121835607, 32772179496610699414663358468726447809197053536283581295578238555168298994851), None);
   ((28571819058746754290603967063219701982540698874425189866806996987415842484984, 114435037028362446850891577747828584726249450081595744651205977382687950107158, 92626772961687506966079389295759857851275558675883578257574008541775220268625), None);
   ((29305361199899584247940535329974136896380753006791287119253046723644378592144, 53614934508227307531005810849854154944022807256234954112506908443106796910332, 28130335140306374966670421973755483382416330618581978965144334862485268769251), Some (false, (67189835822912822985050553981216837830504724628220338270242383200307749679364, 88396866725478407677482125352215415010702208380606710935315961231503258180935, 88092141690351318349287720405605412374337899043656062677208373126686563671225, 106490953947276776282525869425854687339019363451466822865198228468990962583359)));
   ((92527054126644171748591592993475152238251268202492023146308678714631822016075, 20086029177293448981746230397225956199339724389468684056938019675505997940876, 58710590051812137873200923518442125923155315379679918611357908334838803595796), None);
   ((42943243963795767623213790854041359143507599351509198571794583453353818358919, 80678892173509125205593192592568091570333464386627516186371196913302095720569, 19183656244567429572756776987035315632605371164232985573897221579245698136804), None);
   ((92158558494479478023166125538497017183467176403655434072617660613161652964269, 107880286545249326406874882996016976990941377577788859063371161637173186479491, 22114477345310141274753929580172062662813922154388378098485996439842859300431), None);
   ((111260673806374646975908875309102740382305038887601175283753428878872948038134, 2737972642353223814378916367386671677245229582963769449352262587258088658645, 104503772172217810133507786611438398307835027559750651795789115158430354420447), None);
   ((49919012581893173767865165234354901395608969668444097083769752516023692301579, 36690137735097654441867550722867585676644882019647564047026615632999904410884, 48201004972063665301070395421520413598039050526939899270662489192080736653033), None);
   ((92893110427192788343328417511739795623193758753502705884350695318314600406970, 52523723156378808400804292134689400203506878201845605404958035756964672799112, 81626310059709781593984164962073720191250086248499178319537941042319030561961), Some (false, (60677489924443194750170814664583994123363016852293015750392606746299669183969, 54019148192193689188978539050502311758864454990924165233982033700055933237504, 72863736102675388141077403738063966740517475309471833157882938207237892518632, 34253425500064834834847510171245172075676018994192420938922993705198670891708)));
   ((80429747498150988990125270742436378586285294539470514220479640515746359211774, 113811826700424947720862276609078563371526042670938435532812261572697753021656, 63847765583362871486938390453601749560937562987586083671411173589793318176769), None);
   ((102998481953323746618286606977940481771033131206763135028220208816641607613088, 105319103752810545601174707180803722298339685030604251538162722688610796513647, 53212518645442361387853201607036258108003896671856500145087957721969021841868), Some (false, (66513024479073397361988387118067100677893816475254028922121559637190188546570, 75801950689779989756841099803733845678339469181013138139993458230015157449134, 114721748464802479813120753128641140148694450300419089161790000878263555499934, 75891549807807939262342696756461328139437264400722443179734624641445636825603)));
   ((28184447600966902912571834958248096156255516112543704279896446295270720005290, 90923877147280893629698234063589021002869497182199649402140305982063305912869, 25031780544466784248052458327959961651790630340541638377536177517597715783672), None);
   ((31122148179933889973377790730249885934801449023376493857508294150255964270894, 76795984999828799047134005425061549616559482765198580233621078137004742915507, 102500854561575994017689314365870462670223012272312862297776024818265686253614), Some (false, (89658927612807646249457616080189354273740644733518752657208573949494554390350, 75224033409035131191201222323343012673364565308731478235247006562005846825487, 18661254322946472380135970742806199712268062864541975134051879026473113772496, 106885979206350642892343209065298170352712438973158646673370667691020800030231)));
   ((87296830991708877192122316548205497378575414991539186262710474387140524724335, 55178840559475971378591086581165062503912361918815173046338561963334512018473, 98280744710842131955229597152137423263221884637161147705248135609753845572849), None);
   ((92668351522304150056555545883299382198959585921096521284858594040033003505676, 10371573421103178903812710811797648877390281087841627168275951674030773775735, 107613164262256634761042409042227952897358342591933749438834545229430335067018), Some (false, (3106736640436883290977493848272905150468229626367259724308462305449159827229, 114639000857014544231026106861787332448599915450175048290025240147019735167453, 24069878324728644930884100951068836643614418301613644861831019593116483292835, 26196750650486571259051872218706069633457988015429657997270502312548032533889)));
   ((10202853027617640210139065119305708743097992670217127449713771129203421042554, 30751408156837071589816747445423642697572970730890268601030005317089754642232, 26159922533022984987062924165682404562710521915887755327648222712704191461125), None);
   ((61806315163232462505995852492374777848683550735746193870088242183818392132806, 92756437607730183043711996814198841810751398593957561278532523237728979244814, 90555673322107992496426809739220768247048567867072210237819849039788283811000), None);
   ((9621840530688651213384515767032826506468280354472016578818917673918586687739, 66080990554532365895361664337302043556616815511754792081103250354280106823437, 87637444552747329832129596603249566755749717314636705560156405264171498307793), Some (false, (16208398380403664601973165929415134019747566069812562412619143285977388017118, 14423585925754915083213742171365542769489346600790780159815183564246146914055, 19547633408197202504936811409254617375947676318517890585366674483194458759784, 71523472081889570166601813359346948527385129375651092672141319793430595311495)));
   ((100563253197753481582662284404849646569899826817150064922997135242519535774182, 92252339653786218604263127475367553780777814330265174696236149523064003367222, 100417639859399202145720877868116528610885245411916977030957542771767441012456), None);
   ((89315774853947373640327895332101466857466590513684600694287828064233544681569, 80570875088133247593447320669681917762296983042944094317960797728387801486370, 14986639529451441338101023103756465634421094494260414257240306923040654511442), Some (false, (104566066587442522547885331810808161957458175656386876296564088894011221368934, 80858528457043400824317480240086113654488034216088855326900398379518979964406, 80076070805277846035478823330333828700126266143882506031779104625098420737537, 97925972107107786937852155969549545942301428656049250634261457692352173147768)));
   ((53019601288190491434617666422679860909651404940528569006089500998615903618501, 1651363382134059618025445698847413691555021368525662942775331678951095744744, 74229824909045582520285380132953224005853185029066226597100355214492254445129), None);
   ((73091644156325768746491002346182762673161715582333980144064659741670878459578, 38629164915158532618830321537768115880934457426806671559743895138988797897354, 84757046108184722641845145754864180196949429692376528080483234854572690287322), Some (true, (90137070020757948624610860287678536592261645608639858352887897336019759551020, 22429562125299311100523634069830895853346787536686192030969814350792942422620, 43108861831269048963617938415137677218373728145718866951602113010156895656633, 85109422098894460608941939840648150576398111632099966077746264595422851072347)));
   ((59766448166281930406255161803724166505133795627609203222666388457974437784139, 66614488342935981352509642462966371391799810631148049510268979873603451632492, 57845996017250962561525425320231374567155230059857693325725977484901257219304), None);
   ((33522875355210242489836046925331170270706266847999122907148137106660100593680, 3414427986666129704236763498899139129232612032732998188277823819840426400338, 111078925516795531894099495252332646945453329094610923034705066134840568588857), Some (true, (35715245877311496728221861387402264092239759986966443015866055728642687891396, 75333844381716227849483340430850424775267330511612159075072123155269733546726, 59817380492640150236437114858850828896823772233693155825005234151267066435242, 26674250615605713898406765435284072057857513923687295901438527219952278306962)));
   ((90299800873574714855038417580082481328012024669831064814562267298407421763649, 48481649038521714086844289138239951179128020552741142318574583704214751276012, 21168682952640500244532367866352013007474103684932910077367414930375782298113), None);
   ((57082944229067438306337940778225922197666658328172963506371370504819188649843, 87785258144131189180106735988014020933429268799223540290837552979647041039936, 51852954835041301773377926766264592339011903404506523989883857521375880550967), None);
   ((52722485334812908972219821119172030374940474665832006964561713000155482924649, 3208852636295002524874318134674281564059489323337922797613158652208233550162, 50441482875891713061035757901315731661169036129700973369027730664899742778385), Some (false, (39651090001918016661506400862743581787432939361856865630033835018436656759885, 3153070778918838596454694020178478956667750993948048290021591439665558529039, 72563033886929719600243818522955490616209770559340836155121181811734201394378, 36032132168547200334831330791058255867660908708351019145659464021173478506463)));
   ((56894297743950507988138313642437387322794941005118864045313996681597462240616, 52966563098387415738787560141589979955751250566683314530385285699052129566392, 20283928920546825874029283822885345629525779988003281899220712524215378541209), None);
   ((10728849226751794091509740610121249409097111654825273403955886497419269298101, 19373498040361602287595812831543352625070761787817642442726010253713186448007, 70541083611423669558871807820776456115239085120997572827832405526555631775908), None);
   ((33747301757885503820441793683052609759375347455483247067017509330058716169660, 49054243419180143645218347251018302778321628635922831417335814534314302800725, 88116272139940338684769490490111929840660098853844213445949047797081975234431), Some (true, (40606732545956187839138723754616829343120095937642803991955366870926036785237, 91829591520157659935752425853911140764571570332494478628174181846335094450575, 46335643041761633616745968541869150455899868602966927721023123520311240823050, 59693669815926590663400749359869014186200261390126262895302994356625388773940)));
   ((42955974141098114689661854820520391164853794851131357850655565676057250568435, 87643175341843639425570414652202719530962663766747029842661907422070662587226, 45078550070198518076489371919712001799311181951745623657793137736523544098925), None);
   ((11178330263012067520842883822295693115834368825407110697445066070866815051710, 46665871468610335207625823777690280859311454809450299764880802666615911260323, 59183622366895865414948406232547388619460683902121126020929417764182256673881), Some (false, (110213048421742210526369241005943619066129333226819463048183727333505249474782, 102349682360294669601651472376194357214029859040066757079135693611019682271242, 13216880695378510098486365862702872029770031646899967208611374274612086550293, 50228383492856714351088793401041495266297997267602073633451147009193842766468)));
   ((19908628078684271198480754270544040337153800799458745584651125658784346668141, 14620045259772486833802238778059204227248531160389693526288619649021937841798, 103304820308421892450382816491083880379702159434977200683737315991728908701490), None);
   ((71459314501066630733271473549358858572776033183884651447110439211936064647956, 45172070603814859881312495191505409375863045122493984594113940248346527949336, 73512774772048497814443525751926569991148574054937914796432300549623667457391), None);
   ((3664442914973956587901239149577392195084654904606781838867154164201355082709, 59243045016207600572649329947258542523084164652160811036795631292868284274097, 106631491662103393425972331722627922233784809784039325808054380810146852259427), None);
   ((22847553175970063343034576086820078655649149257971148271055206688983692941336, 106748294864366360160770256213181138552804475952642296094470510083306421011331, 78870127412397710852912972358751586148016433694394089580886718126013198286386), Some (false, (114678420118343354701078130684957686197736940570605852272174620700003956683102, 93462194570487989099108604301552702855618741480187113792141298159036892524651, 90800751147250782186413307076328879790617345624620836254347324901578863657345, 31708225344600597090423917579105858371337117952104508086190541632243928733038)));
   ((50315224714792912133633509734822866387883071498808978437399368344901837290606, 12578419054778702867581352506953954663960269036619341492667429647115845254447, 38374576774748279819618586162221756013520636485545844494766487682749195165209), None);
   ((80509398741496809473096971245414325209341411173183296303371433826808696503661, 45508297232634864056578646667975344961173096086612127724463059342883006767742, 112072475240245655162675905487920719341918438731142593548208947465023456046813), Some (true, (62711736218437302226635433967171725620406217002149939602202710455942001654310, 105145253457109616090005920186485312533958361076293651712489681058544611980530, 13205049148738123323259792396970875574539723789295307607399733966464180479395, 79592754350983077756949232314653412016719029772926678639264213038308168415832)));
   ((9320731366054158498958020791737405169821228829987947759014990328370154875722, 8697762998425027240475738850311003753723289810749044607148809650208418590237, 33955083145983367372917817266220618794572550925046420221124926739471106466607), None);
   ((110327142279129359822191468105423207757981934452952588120482314588430954676889, 93139201487474185553607206912211449150081230095383946138686875128871226377208, 62498565915566051047471216106906391840251841277953228753828367248727811575898), None);
   ((52219659281973889598261338197770106492094789566679296328731427444756742584798, 13745889567594611979881900054981412996148839685509525217980759547947508086821, 81171715781764284071556691526835614507213551021524821435591443108592087455080), None);
   ((84558492217194649953042281731573737895471559766764644226607511612847590513021, 49604756151680456225628182979652056642085607193035876183798512009246972141080, 86428905789146922159246314250892638252984733942652516319980337688277761547364), Some (false, (23108214267831037149474105931532479788773550339301450099335663379967726113714, 105277767889416550333188456496214876975264740073236581862423670802831544617070, 32942000313351662378733409662165176060810119204920017092693935554816315883070, 91989476763507304846059785137491237535713292440746395480876205431495096625961)));
   ((41174503422112777269224071579184428833320151902337038327402096835238716062921, 66161613939690408684840150123991886563240847377500632660608570764964539668068, 114184639700223595363040278323428519328293150545528872466173458397576895188572), None);
   ((81091457551373523893822072639508648622542896525292767497172195114763546844555, 92083312393921768135049458002723931136627933801246825700678521383704045154505, 101956900722605166093035255730912290201834053398316320824053703290034443684660), Some (true, (42178626606407929831189635156848328685032734342662615021393718029210864345644, 46750484213880163468966706074588800914109086063503178711291245954710260045193, 8363958635281196613133578356306333125996262000805266642553668466078880953025, 51919015854307846793048785519632391563906633185293195114069402468512128322438)));
   ((61622405767563916210800324087440928060453496009926877731101684971080196131413, 33628128980838379303490475661533871035418736117348064330131844162361232642682, 38159603389122709294697988460935845313931053576224433852576633426010166611175), None);
   ((82737897970572396012218063234898679177681164788142110922708036533433149932333, 35634569326574043342745651338596963679397539481516920450072359289081946992594, 8364386421337820782234918637328569046088659113742037214461645401873575972106), None);
   ((109739879378941027437389194520846135841377179453842736921946069693606990220837, 34400729316303180783649871512508058263626639998677161391076721071516775017257, 109568560339620538742468009457488825730109505266435181280081524818905810613379), None);
   ((65334447287432281134349563279167203921419768304175826091318058380018069438754, 37179943445441521671881033827840723059573662081827501644557741998277010405080, 113571526993340305966138325633539462922850784666633427716233132204336246573133), None);
   ((23453943795056298277590773642217100385673037024117108369842433900922728073080, 65643839308244797239925141663747789673372672646059652342719711127364678825282, 40772739687221256883737202406588623359692905197302732516161317191219051288620), Some (true, (70775508338288247794195533267976713386570021998329608535488182277411644845282, 34597137466906818047685263075539490436721286252403322124579364688298365400082, 69596877141036651777526053256224134547177999154345683739776313037055227805633, 112987121123686351941484977499678257862926193564410658332599136367942893654872)));
   ((65002109630630874125874678175397989810744368849087174844199943585828227928920, 83352882108828569156425637685500639210938360402840697315264328656543761724364, 84164854363488248696304118286143731720565245460456818970169690708877226912726), None);
   ((60874717281513295321067908122704528986571801440880200962628208253596910578491, 13609294238976555649719382721604921172483481032597907259572092464426997807691, 58837306006694361899760200389136392822965925195621805933476731253261798523369), Some (true, (38602856607609523722744278699445761976495049285006247100644742180270106379587, 38604340696571515865488657201968939335510255178006217467438123086145437696054, 58800736877535445693973595788339215031578066421175660310022805295926405868422, 55712801179654287296779665098894004805504470093964132029554348574936400512684)));
   ((47184613721018362043619525540429823737072637168335432032157237294894550909055, 44566032903645045220942628168203630465546648242230239708855569180924384501564, 17358827307690153840492760301829832595888779029732316937887497804147492791475), None);
   ((101213240454217250763355183786518553012381456640110650332214732766983592568426, 8728030168192847997447057222087494495485572860482050779560339640207555094940, 61180764696875501565833893978868460302777116128068301019433104912637310839683), None);
   ((29804410271051723640669011952240076399151918192613996672495618402040897534582, 67951935704693102397501741488284779753159120346350391386950357964161737907442, 31726602131278013209811525670352125878802292824871135694564802542117493051504), None);
   ((12831137186808922041830248015211394721997113328781622776504314595194519926770, 23711014507570897033681445860588183022122873518671935149749567517750022987445, 8645602150187634398503984977350974287597380381575714397692167410889122182399), Some (false, (104651583523657018927165575265516214114547050871589698344195505958041496628305, 27764005747087112089405601696249950896512318941138457973888602699812959875319, 5912103521263095204073698729110373596725772700904803435961731332103889280246, 23625453360732251867557601870869315266923757738305116905498885725662218268691)));
   ((19441806028878641135926698117081015820516592897914749676557266163736705710578, 102381592931493238221294679848062246956442347724865364446274080497109179252836, 83104075111609144198820029414774125570297511809651584091296103330052857488602), None);
   ((76114585989625475713899965830240270423620277453027318741428043854809819663910, 3304719966409735038059985746138480878459434226785271628485060090437303176801, 72627065730628953297837951585135616375519122321566766481241262874768129602296), Some (true, (41417195132983394162052433286101277367664103790687781735938518962376625358100, 71041369057864060689532322717307099070978636384057496210847015678779238957527, 56621855647343002064790570094543823780789758986741351640961392388913586275213, 50553007086672609965472917131480335371356311036509226765131011543439968794490)));
   ((91992084469007274765763128845298112167069753358373987312094400691781134084525, 52859140327483983450075741802717776358750996413900538728991532003474573854918, 115147555273123310452668601768891429923869950972156780794577207773762922536003), None);
   ((70955290396100808467437646575005296450908342268005722918663121449048562237618, 64671450128907172696994135202561427585793254860262588644296517085563621247457, 90097707746840523455865354759146444824133846378307740714351422043224450771098), None);
   ((386843853654271580644901135162333875738429337176201657023657178718838181810, 17520196012216837981563840505225072393524331645576791573399365868189647939782, 24899303716807294555703004409464000488005296028489691029341184972938270155240), None);
   ((37179219598044519750959378419175359595328339520151322399760016481576240137089, 39860739140003269823145228201188676598202262507901151094367322485494777534117, 87828357371676948636612738296887468791208119893618737408696150192032937866322), Some (false, (101715765963808954128233460926222761240788089471732420791456610596204370982822, 91096086344456460314390262979804626022788407385293868618248664326991309554034, 29651370708445006398811320035810578578452177178729139061987225370312035616602, 51967261124345261068317925734008627139915144120346935400424447537548975438058)));
   ((101118438085188603793427177591202140063757664029868128383331069975516321862766, 43030155153301538940500673935963108387838072010850778829097423484328132263243, 4665099823184647400184959879032023675193138057054803733867611787535851163166), None);
   ((12190627909440481101230604043742630373511446435492676912189692373979726286843, 66300206193449392966487185128789919610083912275370291574571458680689170297328, 35852768676325527824782948258050812230449795823033209945393320554983915575875), None);
   ((74283160601258712843320523614237042782450485671127073437698971306256156583878, 99848915906420438419870117661312954698413267495158803795533411555520465336575, 24640415326721478389497320659756506178959000671875826692201030076693883820426), Some (false, (112728955825464045973502149955599431048822537180092204004003548482399170837967, 110571748220982180278591276368606877813855305097703921335675742756018692218745, 82803732559113991789964762436488911750678951818629254533521905314938695606946, 106612418352833912638741884502394249263576593701546742260453740789526149047171)));
   ((57218276435479104574879599216524852917540805663372737886415950847598046022665, 34207126030615515340486723368259586550494400159307888956157576932320776522053, 36980824090449255433384319098989655382584748979465684829025898652673069855969), None);
   ((35746789320320592267260234871574189479488198359854841548294691337510634022334, 32251862220311017472421697949625163869067319649646553061157174822531722860482, 76828243611618870569481486438851116611327290960219860966713485963088044979135), Some (true, (108626250777160713543462885040121745527925900526732110202385391319078783855755, 88195947756367067326226589093051757646334052795272364659270514322381417573420, 30441438895055367936899572706259220128876205367436363574810456785832335472722, 82285582184693134355741934918548065066165296966914499355626440978133542191796)));
   ((49877615626735674586932790673969416388263788627020516294911882855059421412432, 22133042662635416556116034898465243350590797098069264677901185018835830746976, 41401755858253850998996783217671704845815768600384276999102197165944863444528), None);
   ((2570775955133222188177032840864933735727878371591128983773037521593770575545, 9699354469794543222245378451832953397273967463611630737402099470933882523556, 39311962693337586255460916967977360443129298149477367081555477316418243907868), None);
   ((65264874743961616424478671043090574855084261814992842197809932270117370296231, 96436551198929172879030155869394566874955955374086110438543010805387391196343, 76953538151209456702515146459917273431135031370185034472268634415720935935786), Some (false, (44896424870041092010525837267021771390093870415624648048619439665281426694646, 54560120832597314737905996658848643742469925413987459684089945117355236096567, 95072748404878076224978709981991733406761853880831206804904258318386031975571, 94757180355594897443820403642867712470498996848849923037034169501645102876143)));
   ((28615132581508260184773892557816020904196764128295688975885341643024634298690, 43139995353276307521462661413515402818103170966320051623052052123439968248218, 98552618404688253099705848478856505913569453984408755334568490236805649824875), None);
   ((49854376662100768947352586449960207658832637423474954485920481539362003197478, 65661227253500485315255831167792159035130662115904011864464560684644495987794, 73978619721696250336128886326647046795167173660931004902615330109786017695337), Some (true, (13648871769898904069311964675817632193881949123601896493972081852076080127123, 103011538719724523417823138020390764132751339243608494727665803210185373558247, 80790314319869943829825116507195343474381900943902570566118107126468376267587, 112938121349031605483790979852012181554425024727912258331589064336166190932814)));
   ((70100836409649600552529362152194911236052701224901786065228325815879476427082, 27745616264804212569950299301281540592464165419705389244514346397714493860141, 24756756264910477707506137969001009236716677258496190628211043098097122381763), None);
   ((59434424764839295822719765132826133304590141300276508026247635945607090498575, 5895104441288727047578646138350545771664592801072547941911862617923350452544, 76765679929955043450879574246806982855285465059718993466709554439459240503945), Some (false, (108323255222137061246345420232365921093514724918084503593666933539899524789274, 25146724047220237044564342208475485361670000511608705245957578808072185047937, 96893149976095131985417004831361011766581139233352710531723633180744436094371, 41154463236402084711802244239900895583752169093344165637093444479689546899574)));
   ((11544625341416999313533669254950418810624637114552427693779065084123668320463, 79423822698094695114434932844913489577486246977022169923285347855241555897827, 71315878458320295016735388668262752403126224598345418179246845614542262724473), None);
   ((15415560843876238952725189248645155979899573836793633696458914003350150875301, 72209673212853945698692665763934126637582090401310252751380717420636653944143, 27667589502150915582115540373631626498972526688555145436847460994598801236043), Some (false, (27029484460049147090061331152228594368591384338225444752987583764344553160775, 9182286919755985055707987933192230211926140383307212769094849680283208241668, 59710598521750872587734152898329583859232791921576397255796996345889319799467, 104673300992251615673000434249313820260416122487405327580547107766584650956415)));
   ((71337751680980622487795638127066046006818723659581962978492137141224019699670, 39096271670782956816969556903816323576841347996903678997113679106249677958117, 83376903683940472584102500558859141923982553657097142598903662266386178329976), None);
   ((33110901265619490408043097960715409496248557051444674358952300849832419605097, 51265747232286652398393534238044313873433450947957977396326845989036498886174, 81606410977755946651915348960596800718311433342675940195289278035210041003187), Some (false, (55181941204836171114778169412999119077909274448753843113001788203961793855779, 102310105136174859597940392973499646527929663602033856959527140888942082626365, 13477652626163564694127237188868459913642821584460094640032213529750941262135, 47445673946029633033625357789033412178005570286479613340136142159662554724308)));
   ((80549609116652866281761905300557750280096330408846710870940177713218573341334, 47890664189434247282501623121206120729715889358324225013756004705217782186124, 57471183393819162752993878705711823832697012404520140944032470215332145312509), None);
   ((35317433380827427041075500825592265794860962079445779644835614189611392121203, 106232494509892794345233421583074690147527410449175965209456875465290721901867, 25811921597581187942009108017811670294874455514222734029869510887477687498959), None);
   ((93592731529481610365959235989218413892905342997782069142897733158402675151029, 103669632204580345039068634807976423767398726185752156274922853427048924201233, 28644820987293795233579087595007297201046360424594666008600357053647083577003), None);
   ((6701093857353313305809705917447723669758083018152650612743835590835589854415, 96413774607943370839689299792237868037577709066089038564566097902083433052670, 15857475522747830470513315337405895755836832247426236410671113818393234813900), Some (true, (97648811560332105162697349227179276245347239361025990455891668797493004320484, 44613646941090325348581597391201705408366285287202701240827958464516661493236, 77921166511202912307027941225001103236555695786412126374160797308577958340291, 50066922410918538365265475097398531114904248396499032295972448391264355037397)));
   ((32467637799175026201532089262509932399598459552682334798073392286182845969054, 96128956000200557825341760167810328553514795959515843481814605541347748932134, 26618956032939359939403920176008278612492526390198057361292939852724375479590), None);
   ((97109443728506555006436788875206642060395874289594708185492880530586475016512, 61852705055088854964581080460489072353556217983753923480352484286818936226390, 75218430451336698163905025070539686111300100922222982634696755108827586799022), Some (false, (57946734794016448489429696440367590773994692462592389034360749222746074680441, 69337894638345906366982950699606407682441808893856225771335529191914343007983, 98836604689576180617250013668474067071021020314830728826737654249241327601830, 100826799882898003913001862251124469990577079745859105480642412264174459953114)));
   ((78157074741949472787201231451401592353551611465026046793605363157931107551726, 111410865558975848481697909092997902649413132222597292637551642672381804551476, 69539736950309405503141409701254511997774561279654771277700073494059496473751), None);
   ((102629017737332882774248622287349721227320744006618526898242234259988145561526, 115320803244131656626974901637867025513743088204439799385071472787016124668870, 88692502816575678057758538020499721097271771499129388140728829778744578201206), None);
   ((41111546631607893451729900039292846243887376231817493530269972011864359369335, 58461792321070958439623061210020919541572376972275854494227971894336250669941, 30819604810379083162825227608197498874060709086039156296553728210726455050831), None);
   ((30473234469139732679728760724344797851433861164526396364871205028912172229090, 76294501646166015900365122544277663680170110350649454715245228009762550689680, 105731741385062580214066353461651993958799031512629372137163621074109029716011), None);
   ((72636853491513382113302944624945274910729199288149433703267487051143196769470, 64490199242965619711171239732914986100047787194861100886067650266943099649598, 48782659817211287887988900813419133180075595671948197055220182368762058113435), None);
   ((70471915156918280688090397607976497375597165256883881522338377622541300610710, 17367459335005247238210841663107910125034506077417556327435547592903571105988, 96687821540176154650824507801290438038764926958090553254877690353867964971641), Some (false, (33638056710754170501389719378380247730101242754129711134657038615129192637653, 100886106132320990185640289656010963519278044318069263285776402474280366761541, 43913820053108503142408751560536791001330986666597133617142611065125848637206, 107537430405782834229755544479763281209734049186625638883723167732568357799649)));
   ((65997490244470924651995223476606267633055315250022526216004292790126129950980, 52568421937311696067651746251135568283781550435563013535711560964075354965205, 41610731135579137707910772391290114814832612875890532723402693153888675082606), None);
   ((49499526446670687647394021930571110202238464759623299853170778888116547514546, 65548161576085811366184886515990167148958063702892461293031622506898509645461, 28397113190870954953655822564940792766781000675712275527265014527659064184729), None);
   ((41823270207982518970167153573376812318008358245431499006697546324219895586080, 61086545995460502574319240852308755587437595653270226951487787022522427652722, 47858438459204476395759528558099875264273815733956975381826528828895025371425), Some (true, (21500729734644158355876132220923020322489798890919083063789579757786922098297, 111679306691497138590333459060078940013475280879448158130055245877967737031847, 24032997145285505569512977388491998769520595844317233126473631150891984804876, 108200817032289703529736577115412558292573520734897041172502833248581729234499)));
   ((45070653657169531936934138862912406705057522638430708005673314153940153325467, 44418022048518438077786178976497957191979033701879390535835051826562307172842, 7432069620412758019173420652255149779652388983719732238155035561393346470146), None);
   ((78065509330485247799418939148156698721743550718555641782315778903575783017249, 40979547023631174162149705833140694082391042089496046520810496671962943500054, 44271176085154350197659758464012622675883296752383242670692247529822312623629), Some (false, (88266753441988329729193182019615617329126154130906065150682743282262710010629, 26879799997573909836033351472126005247873248944296007095824626976104215960554, 10477573811528447419051321817751628990875094727110934303442949652077603395210, 5251538403430098441926136792212724532779916743320258090807377158804444922928)));
   ((101291304437961368718480116920689663045203773435071760881740801971218613801203, 75866797359128507397750507443661575616798862124357235916239884091499632474294, 101518883493288293153702873119294914399685752730626005090825111797556477746348), None);
   ((14102637198996383232157048038941231436551927544155829760312446786906118722314, 30386490438156626313673420120128094183302379654121362153560658675201260938414, 93652681937712456733120202692958324315125859434786104333650444727031144296832), None);
   ((110202624375128251438686698061968352243750937253979068429359901000279832967098, 101990261091804891726826041916561400601208350704501684327633080399773108785626, 52413453002299545172356094782503266373787462645033664493624753991608023558063), Some (true, (9074443389083575475938925149307067066480299465101433600246346377029507059197, 24755589345249341696690804193704812245508389249639611302966414908716489879962, 105366816562907498435794328058666037919649055128577549429762766073240881170133, 93598681469514114032884506272234376398240877131918425793765768302778352417032)));
   ((13701809441185140099079346051210596409740012082690848476607154745412502782056, 6385223299686171362801954763945222364412494685083553715697514290678690563096, 79640798386084398189433916641745614342956756505770855406911905030779028787874), None);
   ((21207240038657577917696109287736879315716084985234974845849799208100454506333, 99394923661043117568378362090480970568547327031657549317114937534603835025651, 24948304677253623638187442583957298966675538551044946896497246410363875749807), Some (false, (93556754467544468115286117681576575714846995545849462150202223608329283379400, 16528074162526283059202564063648259481903096775378432664927095126134704938963, 54879330826769504813513751939631580835911730314357853785920820821001972873261, 97166547833999534681522999440965080272315918994209115299716002795806032433252)));
   ((114883599702286605574883669608975942867220995022502404386954077332898729367740, 96734979758561659547984931759629641069653961946751366974572521638708257797743, 91598309580797148310565402021028280194668096505541370158983944805267179045385), None);
   ((18098212917252317588206153082866436082194198473463116494966979127481010795317, 62359138104612602141993683067088432973786005631150661902748499906013366315821, 97696415553057708619247020257727063496509592783216820954204501246124087605291), None);
   ((58709709197656101304499766585538819126070251045825590138760564504754098161427, 30709316675728570168362900963515398979597727015626642891343168030733170240150, 98800211076819088617143673456470073487281378258668907642292218428511040622820), Some (true, (6965797905380123363259221485333735378351117304628992326648315256405170572983, 102627127917606275896603574905390466757458101302588281444410530221336380055746, 105302380940145569991685993711590642849809361635427325769130219334931087345378, 22897531437540752094464179663976140124868131575966987684813265638057836185283)));
   ((112428946264750953380906414590745312557019586077788241735364041977452762732518, 91997879095759614193686064396698139040953826444216154962466005506895665190069, 106483275922148886089919389515869324720876797653376142491698229730652226278084), None);
   ((76894366693710635233616234611445090399779681750293789101354507999967874350884, 13612414584501911583548736030779756921521235068697358039212932166489408859425, 83373914002970777905460226823787120844647710078055534017522565936125789036541), None);
   ((6937655267715108793915472544681432685058728564892296177414483328755710784047, 86620817630128092633732967216665874931019711662765438819423973791889909890504, 13922982407208537924162223843471069627884255073355300158927106144622311958079), Some (true, (33552225276249159981169063894690033089150004566138018407326410306099315258713, 84113272295422894401576346607968804493424413572848083756867020248401622168577, 50224102243004196407869666063601721639895722245428363345082999887058603874582, 107986016852014763582212906931680838507042176705427734275576860139260059378218)));
   ((105793434474034906696384726750662705745426188150406944161034568490032887357877, 46483755740990189081318120601065299512648209023510732908074087631075761329923, 87181042315776186168534819644437972162984641191247026597113765837935428386069), None);
   ((70671466612973339946999013854986568160638838132189267543116238888234550888478, 48212453532103284065766529633164876720947428690078483214452640790107159958741, 112997915986829868898811921515185529962730313328445084022165814440229006805313), Some (true, (78680363833892358094094380373197377826767147018643197108967057257716043365787, 23727160003757642317631533814976268843042518215294814481285718527066683366359, 99464550505893911975050025807240336205545373256956556916602779200730062504656, 86959200130133261088127885055670524171705123506234949254621302676784318955102)));
   ((9449913377700203871036668390729044434332768730412111470170981687292589652718, 58308411524688041400486300470705732613044395639004849368829481973915618871127, 76293280972618470278332048462238380382347697665374938300182147498856908943635), None);
   ((56035499997397800057995171015812875150372895707700769489915525426968447654288, 84923624092869840953987618809180134584341027196646908005010108542673927968114, 32282521878219672235142334843625066898206564584122672933702441636100245423038), Some (true, (86382478750822746446741001736328989907146976821348434321378289643290045490075, 11076845156262818209747333902779030986869902098027440094038159579726197013821, 82180161018592835358993195308173366036767783159561679873875733954598542431551, 33200331141377386026600789058757009034987543405044474444118731527188612895158)));
   ((35998941484570228596147605217562477597095614254987087553227635285730048572034, 57178825456515099174426276931325768251496683735055727300793218648469640264082, 112273656689606150109722480199859559371400496327699370347336841925416827293523), None);
   ((44592924826209021422473105570690284740894327923438392642299467278922314480384, 19905200029941589139123439385095065482545133028805885261765409514771717679848, 24288971026132701513537230015821342626496746449143684610334909981815573622447), Some (true, (26283299749432346643284886309779081597644917728499595037496131603886715276321, 28660787001285924814492909926273224606616764586859119810615122321382843356169, 62287898464968011965334006494346972161390141091320715711977671117952750429205, 70014789912193113672073848345841270947544462532966269250703285153756934119334)));
   ((88154969415322401097768997036906832740249421909487871362684453452628037372443, 35243627411843012452973793427380316351943167306907288585337748751465676986181, 107664407692265967017680116097284086803051247560278115895249790890067754684111), None);
   ((75237588226408487605869071327117791821301134684268546647909652089806105337132, 111448497135690629494493928243477984527581431459386541893511368036414304249766, 97936374888913372767378827768406694010713125865140878474018425285738415270922), None);
   ((954197790953689127976810753382259293598412874849261369514205114211651808499, 115153203802336141476758968389610001478607500079677961711818136921681443711887, 26387214656061289145548446652814947111172855539137488166388863009029212839364), None);
   ((68298141163312113676534135563507513861104641617669723597082699303642628554348, 65301720174470609617457816499085411049742691023367221516051484572483595811864, 64230021079464458623648687651140084874622841922203186832251572558178883859834), None)].
Lemma generator_256_ok : generator_ok generator_256.
Proof.
  pose proof (mean_lift _ _ prime_p256 _ arith_p256_ok) as L.
  assert (mean (c_p (g_curve generator_256)) (64 ^ Z.of_nat 44) na256 = fp (c_p (g_curve generator_256)) (- c_a (g_curve generator_256))) as Ea by (rewrite <- L; unfold mean; f_equal; apply fp_eq; vm_compute; reflexivity).
  assert (curve_ok (g_curve generator_256)) as C.
  { split; [exact prime_p256|]. split; [reflexivity|].
    apply (cardano_ok _ (64 ^ Z.of_nat 44) prime_p256 arith_p256 arith_p256_ok _ _ (1) 104365044870446813599959508293411955044557453795746568337280127806261069026255 86160769825113541796109255825355923606500392018840334498951878497433659280356); [reflexivity|vm_compute; reflexivity]. }
  assert (good (g_curve generator_256) (gen_point generator_256)) as Gd by (split; [split; [discriminate|reflexivity]|vm_compute; reflexivity]).
  split; [exact C|]. split; [exact prime_n256|]. split; [reflexivity|]. split; [exact Gd|]. split; [reflexivity|].
  pose proof (good_on _ C _ Gd) as On. cbn [gen_point eabs] in *. revert On. rewrite <- !L. intro On.
  apply (order_check_ok _ C (64 ^ Z.of_nat 44) arith_p256 arith_p256_ok na256) with (l := chain256);
    [exact Ea|exact On|vm_compute; reflexivity].
Qed.
