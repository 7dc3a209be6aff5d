(** The parameters of generator_192 (ecdsa.py) are what they should be.  Generated
    from certificates; nothing here models /repo. *)
From Coq Require Import ZArith Znumtheory List Lia.
From Verif Require Import PyBase ZpTheory DigArith EcGroup GrpMul EcModel EcProofs EcCheck EcOrder.
Import ListNotations.
Open Scope Z_scope.

Lemma p192_0 : prime 907.
Proof. apply trial_prime. vm_compute. reflexivity. Qed.

Lemma p192_1 : prime 275729.
Proof.
  apply (pocklington 275729 [(907, 2)]).
  - cbn. repeat (apply NoDup_cons; [cbn; lia|]). apply NoDup_nil.
  - cbn [map fst]. apply Forall_cons; [exact p192_0|]. apply Forall_nil.
  - vm_compute. reflexivity.
Qed.

Lemma p192_2 : prime 31.
Proof. apply trial_prime. vm_compute. reflexivity. Qed.

Lemma p192_3 : prime 7.
Proof. apply trial_prime. vm_compute. reflexivity. Qed.

Lemma p192_4 : prime 5.
Proof. apply trial_prime. vm_compute. reflexivity. Qed.

Lemma p192_5 : prime 54251.
Proof.
  apply (pocklington 54251 [(31, 2); (7, 2); (5, 2)]).
  - cbn. repeat (apply NoDup_cons; [cbn; lia|]). apply NoDup_nil.
  - cbn [map fst]. apply Forall_cons; [exact p192_2|]. apply Forall_cons; [exact p192_3|]. apply Forall_cons; [exact p192_4|]. apply Forall_nil.
  - vm_compute. reflexivity.
Qed.

Lemma p192_6 : prime 108341181769254293.
Proof.
  apply (hpocklington (mont_mul [] mf_21 108341181769254293 11) (64 ^ Z.of_nat 11) 108341181769254293 2 [275729; 54251]).
  - apply mont_ok; [reflexivity|vm_compute; reflexivity|vm_compute; reflexivity].
  - repeat (apply NoDup_cons; [cbn; lia|]). apply NoDup_nil.
  - apply Forall_cons; [exact p192_1|]. apply Forall_cons; [exact p192_5|]. apply Forall_nil.
  - vm_compute. reflexivity.
Qed.

Lemma p192_7 : prime 283.
Proof. apply trial_prime. vm_compute. reflexivity. Qed.

Lemma p192_8 : prime 61.
Proof. apply trial_prime. vm_compute. reflexivity. Qed.

Lemma p192_9 : prime 379787.
Proof.
  apply (pocklington 379787 [(283, 2); (61, 2)]).
  - cbn. repeat (apply NoDup_cons; [cbn; lia|]). apply NoDup_nil.
  - cbn [map fst]. apply Forall_cons; [exact p192_7|]. apply Forall_cons; [exact p192_8|]. apply Forall_nil.
  - vm_compute. reflexivity.
Qed.

Lemma p192_10 : prime 11393611.
Proof.
  apply (pocklington 11393611 [(379787, 2)]).
  - cbn. repeat (apply NoDup_cons; [cbn; lia|]). apply NoDup_nil.
  - cbn [map fst]. apply Forall_cons; [exact p192_9|]. apply Forall_nil.
  - vm_compute. reflexivity.
Qed.

Lemma p192_11 : prime 229.
Proof. apply trial_prime. vm_compute. reflexivity. Qed.

Lemma p192_12 : prime 163.
Proof. apply trial_prime. vm_compute. reflexivity. Qed.

Lemma p192_13 : prime 149309.
Proof.
  apply (pocklington 149309 [(229, 2); (163, 2)]).
  - cbn. repeat (apply NoDup_cons; [cbn; lia|]). apply NoDup_nil.
  - cbn [map fst]. apply Forall_cons; [exact p192_11|]. apply Forall_cons; [exact p192_12|]. apply Forall_nil.
  - vm_compute. reflexivity.
Qed.

Lemma prime_p192 : prime 6277101735386680763835789423207666416083908700390324961279.
Proof.
  apply (hpocklington (pm_mul [] 32 (NC x1 (NC x0 (NC x0 (NC x0 (NC x0 (NC x0 (NC x0 (NC x0 (NC x0 (NC x0 (NC x16 NE)))))))))))) 1 6277101735386680763835789423207666416083908700390324961279 2 [108341181769254293; 11393611; 149309]).
  - apply pm_ok; [vm_compute; reflexivity|discriminate].
  - repeat (apply NoDup_cons; [cbn; lia|]). apply NoDup_nil.
  - apply Forall_cons; [exact p192_6|]. apply Forall_cons; [exact p192_10|]. apply Forall_cons; [exact p192_13|]. apply Forall_nil.
  - vm_compute. reflexivity.
Qed.

Lemma n192_0 : prime 569.
Proof. apply trial_prime. vm_compute. reflexivity. Qed.

Lemma n192_1 : prime 6829.
Proof.
  apply (pocklington 6829 [(569, 2)]).
  - cbn. repeat (apply NoDup_cons; [cbn; lia|]). apply NoDup_nil.
  - cbn [map fst]. apply Forall_cons; [exact n192_0|]. apply Forall_nil.
  - vm_compute. reflexivity.
Qed.

Lemma n192_2 : prime 46245989.
Proof.
  apply (pocklington 46245989 [(6829, 2)]).
  - cbn. repeat (apply NoDup_cons; [cbn; lia|]). apply NoDup_nil.
  - cbn [map fst]. apply Forall_cons; [exact n192_1|]. apply Forall_nil.
  - vm_compute. reflexivity.
Qed.

Lemma n192_3 : prime 881.
Proof. apply trial_prime. vm_compute. reflexivity. Qed.

Lemma n192_4 : prime 54623.
Proof.
  apply (pocklington 54623 [(881, 2)]).
  - cbn. repeat (apply NoDup_cons; [cbn; lia|]). apply NoDup_nil.
  - cbn [map fst]. apply Forall_cons; [exact n192_3|]. apply Forall_nil.
  - vm_compute. reflexivity.
Qed.

Lemma n192_5 : prime 7244839476697597.
Proof.
  apply (hpocklington (mont_mul [] mf_61 7244839476697597 11) (64 ^ Z.of_nat 11) 7244839476697597 2 [46245989; 54623]).
  - apply mont_ok; [reflexivity|vm_compute; reflexivity|vm_compute; reflexivity].
  - repeat (apply NoDup_cons; [cbn; lia|]). apply NoDup_nil.
  - apply Forall_cons; [exact n192_2|]. apply Forall_cons; [exact n192_4|]. apply Forall_nil.
  - vm_compute. reflexivity.
Qed.

Lemma n192_6 : prime 9564682313913860059195669.
Proof.
  apply (hpocklington (mont_mul [] mf_21 9564682313913860059195669 16) (64 ^ Z.of_nat 16) 9564682313913860059195669 2 [7244839476697597]).
  - apply mont_ok; [reflexivity|vm_compute; reflexivity|vm_compute; reflexivity].
  - repeat (apply NoDup_cons; [cbn; lia|]). apply NoDup_nil.
  - apply Forall_cons; [exact n192_5|]. apply Forall_nil.
  - vm_compute. reflexivity.
Qed.

Lemma n192_7 : prime 199.
Proof. apply trial_prime. vm_compute. reflexivity. Qed.

Lemma n192_8 : prime 2389.
Proof.
  apply (pocklington 2389 [(199, 2)]).
  - cbn. repeat (apply NoDup_cons; [cbn; lia|]). apply NoDup_nil.
  - cbn [map fst]. apply Forall_cons; [exact n192_7|]. apply Forall_nil.
  - vm_compute. reflexivity.
Qed.

Lemma n192_9 : prime 5.
Proof. apply trial_prime. vm_compute. reflexivity. Qed.

Lemma prime_n192 : prime 6277101735386680763835789423176059013767194773182842284081.
Proof.
  apply (hpocklington (pm_mul [] 32 (NC x15 (NC x31 (NC x29 (NC x11 (NC x11 (NC x57 (NC x36 (NC x13 (NC x20 (NC x46 (NC x30 (NC x50 (NC x7 (NC x4 (NC x34 (NC x25 NE))))))))))))))))) 1 6277101735386680763835789423176059013767194773182842284081 2 [9564682313913860059195669; 2389; 5]).
  - apply pm_ok; [vm_compute; reflexivity|discriminate].
  - repeat (apply NoDup_cons; [cbn; lia|]). apply NoDup_nil.
  - apply Forall_cons; [exact n192_6|]. apply Forall_cons; [exact n192_8|]. apply Forall_cons; [exact n192_9|]. apply Forall_nil.
  - vm_compute. reflexivity.
Qed.

Definition arith_p192 : arith :=
  mk_arith (pm_mul [] 32 (NC x1 (NC x0 (NC x0 (NC x0 (NC x0 (NC x0 (NC x0 (NC x0 (NC x0 (NC x0 (NC x16 NE)))))))))))) (NC x0 (NC x63 (NC x63 (NC x63 (NC x63 (NC x63 (NC x63 (NC x63 (NC x63 (NC x63 (NC x63 (NC x47 (NC x63 (NC x63 (NC x63 (NC x63 (NC x63 (NC x63 (NC x63 (NC x63 (NC x63 (NC x63 (NC x63 (NC x63 (NC x63 (NC x63 (NC x63 (NC x63 (NC x63 (NC x63 (NC x63 (NC x63 (NC x63 NE))))))))))))))))))))))))))))))))) (NC x62 (NC x63 (NC x63 (NC x63 (NC x63 (NC x63 (NC x63 (NC x63 (NC x63 (NC x63 (NC x47 (NC x63 (NC x63 (NC x63 (NC x63 (NC x63 (NC x63 (NC x63 (NC x63 (NC x63 (NC x63 (NC x63 (NC x63 (NC x63 (NC x63 (NC x63 (NC x63 (NC x63 (NC x63 (NC x63 (NC x63 (NC x63 NE)))))))))))))))))))))))))))))))) (map zdigs [0; 6277101735386680763835789423207666416083908700390324961279; 12554203470773361527671578846415332832167817400780649922558; 18831305206160042291507368269622999248251726101170974883837; 25108406941546723055343157692830665664335634801561299845116; 31385508676933403819178947116038332080419543501951624806395; 37662610412320084583014736539245998496503452202341949767674; 43939712147706765346850525962453664912587360902732274728953; 50216813883093446110686315385661331328671269603122599690232; 56493915618480126874522104808868997744755178303512924651511; 62771017353866807638357894232076664160839087003903249612790; 69048119089253488402193683655284330576922995704293574574069; 75325220824640169166029473078491996993006904404683899535348; 81602322560026849929865262501699663409090813105074224496627; 87879424295413530693701051924907329825174721805464549457906; 94156526030800211457536841348114996241258630505854874419185]).
Lemma arith_p192_ok : arith_ok (c_p (g_curve generator_192)) 1 arith_p192.
Proof. split; [apply pm_ok; [vm_compute; reflexivity|discriminate]|]. split; [apply Zmod_divide; [discriminate|vm_compute; reflexivity]|]. split; [apply Zmod_divide; [discriminate|vm_compute; reflexivity]|].
  apply mults_ok; [discriminate|vm_compute; reflexivity]. Qed.
Definition na192 : num := (NC x3 NE).
(** The multiples of the generator on the way to n - 1. *)
Definition chain192 : list step :=
  [((442996917288222317913198944605928971379981873759372028722, 5369744403678710563432458361254544170966096384586764429448, 5429234379789071039750654906915254128254326554272718558123), None);
   ((4333624757194722362394144531760267785726910312793230723770, 1305994880430903997305943738697779408316929565234787837114, 3981863977451150342116987835776121688410789618551673306674), None);
   ((4831461257031901618814035489977740864619606542042938691512, 1167950611014894512313033362696697441497340081390841490910, 4002177906111215127148483369584652296488769677804145538752), None);
   ((3702385772554927724900520287243506705125695276478522331091, 4491844428098114987877237248488969616993129065513340153823, 6267780533505741098894309136881239254479487913874120712848), None);
   ((1952308795494980677473608744827569262647915669617105740594, 4846286367540049329045830417450465795037597807595347280034, 2359370971217583453241904872996492391585374006786924252245), None);
   ((3010108232706499520529156387603787479710336356671113604101, 5669775388764385150847656822782701506014929631693194110004, 2275383963336697726105458751295549807615890129465538313109), None);
   ((3924242243290131869803988695870125905481598788645699065638, 4240136334922736908516286923967158772084935042907086745808, 4720074130537055668721622961122351146320450714194589714929), None);
   ((744482805509042012280186867730603270020010124529501514660, 3922147944637352912813995885548994957255571641391295180458, 4135506261817228425771620505205542891559964144303496848630), None);
   ((4409801740911226682888158621412595573982284058029889090142, 1216354262458783639790490752833956220828665050923136234102, 6062372425143501169939077052295935574018981744421470704810), None);
   ((6108201661893830321287070970785824464974050074588063800223, 4564244031730776647324960383420891614368766861591984136863, 218895141483333630788982102300481520993911725528568180342), None);
   ((972847542666609929685765960197162690474219097588677581332, 2961047398511545580879482214221959954302578258803440325617, 5214278250688962574097260672694272370170686068985201035625), None);
   ((4506507954549142372002042736089804747082953841144259277910, 5840854809272506659745357775685293471230494844386507820470, 1947964127265730533190425164045825352651239048854786723802), None);
   ((5377088943475658136492423909280492575054811305935994926584, 2492044191712170190507256130277514843594657662099022711099, 135917314035787948527202518496168885697409777533548236823), None);
   ((743835131633870317854383302161407471927100322932492550852, 1592656604588825039611132875506591705737541740015307534082, 996956415664998268260023998335894974987456720494242691697), None);
   ((6051865208181742731988097643481219416963155188603364493826, 3170429102329348652409487854240278954157042675473508790703, 5863609177189562289726097114307616134957939445812212128644), None);
   ((1042982032564944187707018556830475265775289925571844080191, 3068432215904909916651194081524094132356505312958025565869, 3420824073189051485067298108297243406315877394670744132964), None);
   ((6141886633472378527725152277016640730630751615888720232507, 5142140307437877506004933668340227107850375535872126340063, 5699071413529742325833083804730198322508266334584883440166), None);
   ((1016608331610800891962065236049169242366069647610905259653, 2034760506281107742031081985327973189392948819637863111944, 4096138380312439831542266833896628971019048776390007318821), None);
   ((1064030169568152610041281003702363499798505377861392012654, 4480540786540198043023328503471545955934344466341192094615, 5626791364673202453792292280488841729623281718438299430295), None);
   ((1021320686553139198115436703288315593318403510891888560406, 4887897524674866363194533124021322288295159321757058107707, 664013565756582747845837150211932730680367395868059727224), None);
   ((3991454472766016216165885762489089355602441869369547742026, 2331700764577679086425222277234137640965369027846910320621, 2596277128086268816381055682802137929236443817320866479236), None);
   ((4394323163144742161759002816313332577146199400654740684689, 5712552332842349555978928931729244673236831347216783407856, 4449482899931370381544620890357344358242947753989375592316), None);
   ((4366436442981201499043490354013299808450547568282609940553, 3065478472639468986072958716218621325118027825943316840620, 289197809176694244673951628695891625167366741838154045123), None);
   ((5135276037374340533700219254224202077654794212912576637834, 238434597665502788882039093165072247766180964513109712951, 3077330796123240432124369692506049720697175846603098692301), None);
   ((5365670075160763049362613301678146803069307604984723743138, 4863358735254978988431098377896342327283405448449728665731, 1717704159397188233495362135086057110459409414516665464179), None);
   ((2471258992963149304017633095287120812538386438952507327202, 1085969452482553782001394172751645895323702521718303975154, 340911518825062265169140341431612723982512176157628622030), None);
   ((3158181700286674002964676518083939668017021407383317771681, 1431989690361039880228342631644069756952864219853236444297, 5307073643045563830546976066765051731668874211186459826935), None);
   ((2520305484070735429598803219159216638548902863139035362927, 5924009003696559532186899563039637016263372559033964247137, 4869722317360464505564618735329888701414200165057296095098), None);
   ((1301229507406449456164747693742681379455747145960116040753, 1876163039770835425771006295175988733528990777711348528166, 329591311710357032822737771886543984246942141980822391138), None);
   ((4826082102374760470304733526895409485885791081745763365264, 1634024988928220136093009734319462104326365006617125323529, 2147553749002715197530585960201599104278779599751633131332), None);
   ((4401771128170634673409557846570611789589598650061122766779, 5999090315216524285773987224806383453483397309953479435937, 281859625439620061645463631679579309243496727485382267106), None);
   ((835447758136072992611959296648721472050410461386044291380, 5733593881717378209400943151462347052501454192048700539535, 1156320742539632422665780218857263342047779363825647219184), None);
   ((2424824427649038316035699376668732372530082386090859479383, 2814922866848250405316877201692403692744228568885036690037, 1966459591071981660534162579736926195211313327035838296236), None);
   ((5819787860095535412177810609430659382239480779445083948987, 6192715731538310576871242074833122578852544912701111427819, 6154181676085225630840805886063056710703047214456892276286), None);
   ((286265477338203591758532127134587253891293178419163544334, 3883155809046179363835100780631063540480444590343077874423, 3037582812864938743400104628857421783270799812106151648334), None);
   ((1664687948633274178453457137003697449561958162345348682600, 5338054226673872587905449893394856314881021455605805188798, 1532007010319027803480564177265049353395804107661114463252), None);
   ((186621676354093507168469644356202582997251828791284791755, 4110886963215082883187885574214360864164438923132239170029, 2011511053588683914656816846249844326023082237825611895366), None);
   ((2290903146022344199979454057354194633182257488166546949168, 4522474474262023225228254660251097376177258117898980221118, 636496168517470767122196315074765408799352561893015220863), None);
   ((4959086066887300782733630065006822396807164134103906018777, 5275724513236019928301397120379346078587203977650717634991, 323608969821081061879902853460406271624663676562327032266), None);
   ((2848326927516610287653192887267469113094674363535871297460, 1607777734227284753678322324972593292685308019602913589673, 5848798145770578500130446720728900911741716231017380815251), None);
   ((3886482949856671960318286967337701412770223462308168999762, 4930445717935266368052001606978284326916835117595093543437, 5746896750224381267544418393163552333112384084353082712444), None);
   ((3792240802831465495822749488758933262931380151490654065391, 616124893114760089953223980803494818221192736819402981872, 1369985320088546145242519276885668357657351235531752021805), None);
   ((3517320612985066363699864293212662841725577204106128985041, 5016806091594698983648741533715002846090374876342621506383, 1409097588595322851781712894823389191271561243539996530602), None);
   ((3593281684444887618214618439276692353452910899045213349285, 5088064396477482697112884521692395281389531406490452957986, 4882596295863708343129566319933001991611511287215604313398), None);
   ((5124364376522538059939661715179952799197837293795987937669, 1272961956146585696246893888318669132840671553199356724240, 3956637859752332159138774246213918683236772690255392763701), None);
   ((4281608321296756329768642178182768864277059895480273064730, 5821278771167039279648977097341510154485610768893290846478, 37515804773957596671283562957411768174253745934458061061), None);
   ((2296431460337215992139438003277881332407507935207557821883, 793004254579465504389942920799122728539788683119944966443, 4848985071320314056464062296766523019036710215165438450778), None);
   ((4672529683262451128217027287593680757954044545788255065822, 2547299698952495952418912681194195963150468882469333256408, 4148971933480170495509863748743884238391237674530829745789), None);
   ((4969953847013254764391366679768576138563156006954011295968, 1064765888211356687076392295618954704138938053173213261853, 5502203670429715659943787566937177025154763875321905510326), None);
   ((5576985302348667674424548498918856402463307390645816275519, 4761090861902175363728955408176069284834796612083264868836, 1813252103589610681592602426858997521147064635272441718386), None);
   ((5054524299614241008991393021244689216599824101480485255263, 4792649976299461990227972178453542493858729967001046955501, 1892349434258015365370534847399166316395872005410002011273), None);
   ((3181705907360707175602050250838583562293378776709973642114, 3135495847614409248703877380407682546281728458672003726672, 2405174489483582427061332073150600849059256084523915095457), None);
   ((1125780919813693194974759952004358655760516313257586660125, 5785431820274360626295083195807450635193911307076716124121, 5979873881439632367785080912184257851984084118621949756829), None);
   ((4963985612463362052270455537012896831512767302961174304246, 299237459310979699848808543371576588945555850897263663109, 1374693062909032599138901919825874553961490926139123892344), None);
   ((5490985868117264031037464000951734327744941478537199631890, 4877250743162391442490052800344554745867898193298144084345, 2780862552684968799530857117649256948780467201424886864766), None);
   ((5136239092015118155993442008265107932541346113091203177254, 2697467910965719385400990242185473718337964186784677146713, 4989837754616823466143959176349836131193346204250393588027), None);
   ((2516364357035874588051205186192974584032228137679011857279, 3660536975736582579545161145940202715246671855950899733414, 4915609830128701344845107339807860453840400193464039924103), None);
   ((5409132414146273210962046514272354111013969177265618904653, 2947101096460415577435605502045929493128499432713824672725, 2242911494639814402145519476196632748590920370442684429336), None);
   ((4133150563083078804806097928070902901180359507578318959639, 2944535075043466746150742600293353081706542370987173069669, 976168783669630049138034536374231247472606347133114677611), None);
   ((4591619546759409195597550934013277197565465059648918292598, 6119718556299963855731628230367539438272946713048484725531, 50847843386692862322293297591229865898831810185508355941), None);
   ((4177643183741008109795028754349973611943649405722586101439, 4801062513455255680873105007649595695608116097634950999428, 3269190270796117442838387180807864326066448279568233981645), None);
   ((3063725402478426131747561233113603018623095373856606949688, 5832630941310859981937655982760048161449699249510389333072, 6108248887410632279885497582013730906499018827112525677131), None);
   ((4756694706312237090465606508806335210323521664430424953744, 769327842178674301645080766519052381907555145308415419708, 943954404136211553529314298861175537068902144040507993201), None);
   ((3012717792804660117962522391356625926894188443829150634762, 2312935199459693154621066008097251618325524364226279826137, 6128039818921042695822478047413783760839527656861824985899), None);
   ((1662177034742740061153373783402286999507753080149182453352, 2083496507509905075254944029307165403347009849800301067378, 3642979261030561171414229751331213625984779025490509603318), None);
   ((4521552548385480867009071957954005950827631010846086594733, 5117404630140825238136767540948939033613837936326430925530, 722102178771830758371565438535386807111133289631877111631), None);
   ((4046226489405148890629439997527464305460153315197046801752, 1940666537544457667764490780033521422020952648745152493036, 2016045093037321887350241491463167825517852776815275228021), None);
   ((5889509105781839697152690886165195506408726074322125208202, 2839222106866237601401281937878717834171638889316109167046, 217002188745043741331711628994568995678430352662023571784), None);
   ((5942887180720417724664080608706086422346926025446711896226, 5377305023225986012046759888913394941277445862029746245850, 3108844298293735968830320381898277038764071411334858825598), None);
   ((3581007501927311379373288858171584661257475839045195826774, 3372922650713455459363402498991566527055098895302430960022, 1815440591234886956051067213401922792647111862604781269153), None);
   ((3103780096055142530898738925615663438158508069807886464360, 260865023941526993673868339966029496707393120339877826248, 4650001525552688187688368326666465891136812231648455915024), None);
   ((235525985529025202500575298030637169170060041399634176571, 4636078802699157279999233813479267422045036002872720391139, 4221626958255668545997064792404457381875208463767146107265), None);
   ((2924922146078506143065859418503178459183368107287855201945, 5605354617189678480611190289935702752844539988422797192343, 3902575446861892924678263181199559249240244451964074133978), None);
   ((5068116868499573449533455342659096553030251811220288426498, 5677273055794442878655989345434362838174536408328684050471, 2567533729935672331372617947080836757936122027293959383510), None);
   ((173834632024226311969263401569034393215615382704631425335, 6109291517040974381139048204454849083746258029437548216407, 2748526196737663982376029468428883875112152936407123988138), None);
   ((5241804645273114280757530287873481698769391184346783899170, 5514019118113684872620533013766405209629138683839880521168, 5446449221195105601426071588613124601137842739757081021227), None);
   ((4538088505957918672672786224310398008419389292300650586994, 2198858184187182909020430070714201558802831590524513266218, 514093749331022110360292340547973515135377128158566460615), None);
   ((3866778543847813566933651961819850277367465179880129764111, 1125446700644773189192587301813186858054120684334212547767, 3838000795047722708384675418633067412859392979392000577511), None);
   ((390164979951066103102876190116384532758054589447797910819, 1209389572547603032446224222174458061188543500056525759845, 80658359005070061085603601078910987448296182535651939641), None);
   ((5709505978810448991031905294643014551530473535267811584455, 5984495774770623580834431538811153931979438658274168403289, 1438500339079503748255061639515334156142651242987014652162), None);
   ((4847283578043057087198904923461929931580561935969104075700, 3462319026352154421266692689777687436507051800399184382536, 4854436350507283418050328056069302689958781707756598949289), None);
   ((6088052873280943856604695007480703775444433643037939846783, 5847532565351943435999771041284085386593578144043074133285, 3311972168356806236396782358955350261285205481051694723032), None);
   ((1093789463571068772176317252211267896461029373035700816382, 316871303835586210651951906401472416688677649375592288347, 3975342623482222905644499691448997847280490524311907524344), None);
   ((5604543825987308366304334743970004457713503121985467832786, 3365140631118805039758917390042071486975487733708845219828, 3756325090842732741479707852259605023509532746701977967640), None);
   ((2896783575614960664484318534298603787681350866873350372943, 2413431244272718149009801143894055865792129139195035166008, 5380570618566937790641256132937038219127710796958462437692), None);
   ((307527537398485814014774874140236982978507825494668617735, 5390755573876785839233014697909977407167464427715048767978, 1246961191542287152270770766283182851977816962752603346120), None);
   ((466197460841924761247166718364299082144140449289908092321, 4017504203610839918597485888355250555895587324071302762527, 2455451924900813655926706600029615987107638933701371198453), None);
   ((4927260040407723941323876475420363124663860002979516671808, 1353185174744571731301937582248802959105343339571735229870, 1997998091287290006793218333837583487636441801886080516263), None);
   ((659194801414961126888723686107223045431077315333686294065, 216939315386631288399592749906442463922328546490334264940, 4042182589896075274134175173878021034120238846343806890937), None);
   ((3852129685681350989931157345216327627751150354373361871544, 2482080183866747675727583034725802512585799614000814040159, 913578506286396196234679118519240832623847010902704434994), None);
   ((2567003624400130137825701582075239858422124164172771050645, 4218872844210953500114673375945751264543180013961785441596, 3413319448155883326201111644855422740296163956545360827718), None);
   ((3812725118376536942184764343938140045830725147408600032958, 2046706386400040067369878697529152585118916949829365814384, 1904290252286202059991188396349927157027527660651921146757), None);
   ((3245751285960189814070517957943484341232357394654580808795, 1186289591530679118670545774925465806944039706341768590012, 4931545830994068229644908852410469546322881908363128414250), None);
   ((3698457386528445411882713951687908738662329648567044426994, 5913445279195441169553279598184633342236659045522164418696, 881580440172110060526062256194988295445617799152861501790), None);
   ((4815747213094090890880516317633820437880065561968632053715, 1727331287826924923394824766298165250887538840867605272957, 4793329374613563105470600006641904720535496825936855589816), None);
   ((1701205050952209886025171084767715759729501980225404459484, 2001966663141981343627664962418892968058151998268677153600, 2252013753217366475943237410412145013382707956397681218213), None);
   ((604804072067966812455051113869403706326113439607808850893, 1849617868133858230661649957510620799458415068726979561893, 3254014649950058165986060508590279957201191876671756767646), Some (false, (1597209717992364669727425931035897650941389053264101571029, 145911250907227322199122388168868028635574845932605638926, 4177941662323929653862726292412505410137812107932202427735, 388147607281358619305153772051035245238008051747234765508)));
   ((619307730287757173005754411664908649508212629212682369401, 2008708652240348649024590618013511701109586922252755797808, 5138474317453941437734592579532349638915133062500370423493), None);
   ((60834651824814852983904907202134712807289973760113257735, 2060772442011944297577610656519504927856086470878873277118, 1752040279125169746139477923114505306278198766942650404015), Some (true, (5548431871318621078698877615360831256667366558719708127472, 938363163761420583085184353390590091486290797994560814323, 2037571568109581925056131737431676984931525208560505120311, 4919942037402563994721996461286229628381592332379728578571)));
   ((4084731710448279160028187887881398802450029684865641078437, 4464149786052376167931534213227863466873752445652677353118, 5213713002753479933578544479833162419026907089460786219483), None);
   ((2099437000085048002127456631581514306125088736915028376158, 1989314772494443976174986095710490740742679500100930896431, 5713189247359235920905194730469240187778523005744222427878), Some (false, (2703830820812073387222098794151734246754059571677500150201, 856323778799904272567073766184639112246386129272340030378, 3770192211337678444853674432224101736881341347962750954012, 143150472224156710523242027971657508045964379431331294944)));
   ((3167687268502774092244059652554476623084155402288981318080, 3430301274213441758079848913130445255346498236312922189336, 3459430870809096629369627947590734131535199673183894514295), None);
   ((4957969057809759189783664428762085787125549594330280983835, 1024660154641948417410142098307520925937304207886376303192, 724241832710303718956872739368455916888379171527148449440), Some (true, (4150340947763438877807894733064251636052520955947863989210, 3941146899805478647137250305921724403888471121770087608925, 4206661638242700661599361264519488031569147149618119493812, 5402194973516835407707889492308041593141560611270410258505)));
   ((2298795993388520366629480519450682928365937698030784946349, 2027166862519011513704963541127351562289719232144109625064, 865470952716034791267810380581823281254682450448095211366), None);
   ((3663195468724534911763611431279916555250328797318413310599, 24719416210052108432894361218657997597685942059909747032, 1368823181942116548741296400080168133543510786936214743705), None);
   ((1401463915016433047026491118336088610837975581373417670149, 4461895281846579316827286360805426478816144287244311565117, 1744806158942228330881082202770110128890281089331664994552), None);
   ((2978669555145256724443692732258613226556238562355239261556, 3197051760159321877117050129400884618543986569581708849583, 5640353111910616151963717510778119955823205699685768044168), Some (false, (2966312470174178728599726331742049845674988845552305263735, 87907933868991121800829007742444829688970984653166248402, 4128845510174410701339577169417022167378932230090221421731, 920473059140873722563301183023484938487987258505344691026)));
   ((4913065277121596598845808070599956821088828104518389515312, 497389217257443481204035308450006782518992037407198012678, 1361844424907906390415403683494384566025076692278375723022), None);
   ((5280578113448606085284961968792734446680874886411239912508, 4642104345860122995685370542143955193956067067432604850940, 3218608663253188251981057397329437478777724588949003040835), None);
   ((4898636657841502009816551416667380222223053906281961108967, 5797207856342670407117843260863402166895862854964901280302, 2386372817271024592646420094792367876668062463239810152387), None);
   ((1738316312195023918504913733036260823811399464869900339698, 341830276250540227813360740264617540365287986532579259398, 253334302538287090863068611928930481055518561922870824207), None);
   ((3556197489789565026517598841260702737645376913962658362473, 4375324674286511679052007410412787640963936865470045966332, 2613172206060939862062915424958045583691097823255467834454), Some (false, (5069248041995966525185128456293495069997026117398280536987, 4636613418175600855745603000362411464159257971297625839383, 1722483229926459539621279150150066473429085196573517809222, 4847827996423307453189715963725362910288688664714732660604)));
   ((3505154895103904450548245750757190239656576103316226471102, 5882674436909265215738664228367720776490293384384425311624, 5355393896965143346546980054886914178182738118439629524793), None);
   ((1112713568716336153686621964860530501006620429071956415202, 5974279442997533387592335744415576229380534241752274176934, 569410222821274251413209977529681730751199243211677696056), None);
   ((2676473074563127257533517724379250480596339036560628635528, 1685277702011041933860407567736904042691298685222156443090, 5635897632008147431889928518876624270343127126125685612522), None);
   ((4039103715271257640655630266502276276131425224731840676578, 2200774135303514298652334786990524116036170681797813760318, 5282674723826425006391702190571527445597488191702004061760), None);
   ((2994854513577396814433574566199132945347707410464181955540, 3091589457857813358242858459306211694428184605771736068974, 4561616109611824194591431261160469729809126836720573303988), Some (false, (4044962369120024544705818916997386057889940409186547037797, 2255841421110349677094661908601810204964377152619540033420, 2596485906380067074150617228402156040062068779380094644585, 3753799110716763046248545844859802972840279752809847604758)));
   ((2914249358883868077022799995793480426360571636090210756560, 5974084216672815154836706288657594126307238513458949853524, 1753003367621232851569005247553129037822107795513251786979), None);
   ((4924674144426856056450582252362335352784660822536771705346, 292542207406115909754802703757280796581219926981645889532, 5963216177917810828960982508122105788265632292637512130877), None);
   ((5666223519820083803112186391453117763241554394577839971643, 1431884718505023537294013015956888661167545571683769347560, 333224893491091312460387536902637767271257364673918736437), None);
   ((337619100707007057873884337182791853119727584618589501639, 5335926043350935185353738813953793210507698557480191507903, 2589852827740202282552775122946922785145317381651407276260), None);
   ((1716520996514224698935322689721600692414758508321653503952, 1455074123524584919916552102081752873915800776135469220791, 4750054497277256979545465231374907314749805158068398959637), Some (true, (53681320948301261821095976504184310235177949032746506481, 527952057010709534043009993734779294540074712289898628904, 2248775457063570727075169339098478621942400719438355941467, 2861791433824256046699348066690461453390983120642177308971)));
   ((900630046129095129456889811349973888373936741929514529908, 3110854384418233999066791409984586766820658446428001952675, 5056883869826771130097411083356364509739226538435441235984), None);
   ((3974545795920139072244820546680376539012160088808721128500, 2284478597486573939818512267508240586158944009005170223850, 2242722994883138461137667136322101811619949598180244210569), None);
   ((3680374553122689713664103604396808706302920317325595099628, 1611443075324390183516691703182018773418498778150037101146, 5946768263619097664754346330732731836012630741592247401981), Some (false, (1668271020680711727100551094223414736263455121714050335661, 2146239610912260819821294252619004380567620645115634267793, 5504848734279527428397789617809785111652974671242289051371, 969466861776389817831311377616869326778409231702172406751)));
   ((4674980981781832437653422718179086400860054608713454826673, 996683406529562620799984438535085215944802295405359730675, 925004613159873305420665522881540919641877011352837074313), None);
   ((3514595778811292551128497217506506008705046260849394770019, 1891458462198665687166357109908429030969937633276027886606, 111945755821835714992137568513755120220030278407536469361), Some (false, (1177562423656184444044816879793786879782662145635857898476, 4544305818508537183235692878146438207304271456703248007873, 4642043935306871440192746557550972909786016205014872727338, 446827682143758896274791697202734250070677498723222017604)));
   ((3421873691087304339245161146726094078681059862917648247166, 1195290314340842614170698079778150346867801852197061392027, 111009007785346187814863254379867392486931157290691369952), None);
   ((257548025899641436913316748946689470785438476174147308544, 3227921779042453684996851690918640005788887572990765474699, 586436746007311738816167895684435129401195016686068649473), None);
   ((3728237418138127222033526034469356202142132889357791652746, 4738874384718828932407605286822831294136215549690137185742, 4752025308514888745836734145966170783351262904806337646865), None);
   ((3929324795847953536774872578546012239827003841702774187553, 5853287058605915022485727329893388196588096192457062060046, 1276359697581072508318297798878219842509169240944517517262), None);
   ((556226560418267885745205390688340377135998690181674986941, 1439449715263012766192149374860071277076456539643482893572, 1129951003707987025988140983836850371506283190744346934946), Some (true, (1351377859580081965094045832502336358528698012649721381937, 5607914965049214929263609910485880257145287736149074362610, 4070297912838262642343097015743499956211878139914983601690, 5487590900323243743017759654393443145833611804174022801707)));
   ((4952202762320345171630970348635847556401316261908858520090, 4789465264799402007809602660376427912380690503878687644804, 4922880896375647470561229056306866296229910387820852454463), None);
   ((2852117325204089528721393941645041739199228385667595875931, 1766661033521986184077142434424620636474556452321518177484, 2716498173021560828550864393590325688936626223586869681220), Some (true, (812407308267621976938974319266510136756891972010090531469, 5805037498947634465913098674882166355993765078384201282477, 2628717147631654234045246027915103795942407250825197112613, 4819189197182945118806439492430426390515114543912857799808)));
   ((4827106923111607857744623030750299866122763844750697645693, 3605702702981394874933344508841053137799975377752712666559, 4561396606321626544800465373239888934258122079620030816933), None);
   ((2141658871691925622662899787053021754520208032125872661396, 6026701362414381180212661737414496523266294729138152507553, 1969251814145578759883436249949415588950430863856683677465), None);
   ((273697334034853890482304481259471392631522206050465482668, 5796471056590592071930203517439899204743317555445111510828, 4689072104870074825203387044347419881885095980482243001912), Some (true, (3047249663040199428188438100665873831590766058630551592878, 2187371792270490432616193327571901611115229522530043840827, 4744881722632001305597911866714501130866332651068440309113, 3284922491529848365846916961050228389935578149490002408038)));
   ((4277736552915282242967666888251604749419854806953276067077, 2439874185133131004331573652206674062846019887812797698477, 3547243866794837437872908647154680608315421300407054225636), None);
   ((1226032590780377139432370268109972778951648018118463514605, 5528845372937873239044883066711546541513993292166826379987, 3631549564796457471150711960476991176494658988401110393027), None);
   ((4052729906435995340422486478582243916229662443894815902449, 598126034590516305734517008483971132737864564111880317534, 1212008772614066811233321994831218612474003578449064880105), Some (false, (5719816244724460508071188811735250190402404510697541870535, 4766654200356328736874675038484002726951072452863786844435, 2488214548560729528797727115095907506624054952473126696414, 15324968843546969721018621053212101103541643003325245994)));
   ((445343464507656122112666555540637283583084618509671637200, 5662687036539137396350541989522948981021261289684691097172, 3119388789931599491668174873996010146220882185966939732057), None);
   ((2817294761428488961847092768377137133632562861138489632028, 179854495749480238462311160051728993231141856641051525453, 1748391020832110113689206837425287835343770233401289613249), Some (false, (6227741752421746581969810685970234975983369362033126704375, 1235104316095042675936165868702876804755641842112289230672, 5186311474013471200225125459826607803655813714414885056292, 2703950561878673185678540530317023156126155941117989136716)));
   ((4481464066741996236717136810607539675477243770976892549850, 5107058418199237848729678241635774643446833369268996183859, 599493006216500610750026199304520875569313827494237603601), None);
   ((4322513741971148435573777487714422903905343656657564110608, 5026241943852504688250102722581702671847884713807898714976, 224160364734034654097832500301365948548808944774699440187), None);
   ((5220594354487631648054832548864668082910414726457169095938, 6099174971595009592548422319149372611834948636670906935990, 3449701016002722139526697207004856767985261616235258974727), None);
   ((20126811125919151481757180640199183365139821399515082690, 293954059643863269127177848637273024178110052668701274177, 5613106347064012414599881062810450771351568372524003237523), Some (false, (1963855761364889188762724105386735186937114473535801822680, 3362799044904792384361754515441825888833017552067375207708, 4693254131524251080149062265851297112434094174115828025426, 4461670026077474565196481078009769666264989827533327311608)));
   ((2986937530548401979153625656737876983399182604815109275973, 4598394331198904941851504285525350459263370626950346177804, 3265332531699611022361621943624727309655034478342658843959), None);
   ((1854018417659198135949017513879348204094174576729890536146, 4845305731824378704696410515673810901565799998440718470182, 496912065010780676936862504385453522108060996033200811016), None);
   ((726005519246660552478036125419526942177270660721061158931, 6103498427896563821320670616168827064295477968756259651587, 2512422101155156914629441241808158757600236715973994145909), Some (true, (4219725236536084015229382212225268335061464519466677979253, 2602571206006412809064253444320741589370244309194351494415, 1321949534987160123505488800486771199833466714795865583481, 2103061210152708975247569544854331506708233341449002081795)));
   ((4240365316847867619398366846041228521253061231712608216680, 3460202369577933897697643930245972525754860218886768797519, 1973226047715045461028695631291737769899155724352759488069), None);
   ((4181671141510951407170457607477946713473093032411221627745, 4403444699986245597877386386493254582121579537932079295774, 2922477133049228387140563693244646635030273965267247758409), Some (true, (1639440861666172405501979068859524034123084019122511627361, 275741515238484296447253465385632426507609054009587250467, 5598920940045862944934953846749728733496307935808619410777, 3678081998810588630873032468603035832103143429205581983257)));
   ((3826514654380277521417264883837517321188466032055025312326, 3537101872237595314948256086209133502155762534721552660427, 5988777633770476652701226018124782307946971446573945496103), None);
   ((2627419831900985780457542227424508722330774045757636767036, 557271269461662566478785598200486776135738759792315096463, 4199567485993675171118489087234101671258436280006832878838), None);
   ((690341934461903410319840648892869401832666414385621505226, 435255641827769752287554514806206643388171905967637413170, 856157375664236770314090702838980622933506088401673004136), Some (false, (33718502991551944875161067655852590077178038170617127347, 1582549750194199509346982907081999916242811477448562989153, 4248688632823380436864290034334700898087044782873552212774, 2147385263698469641361009302364053743955115424590313315263)));
   ((2299856484339800797991027714872033889922288845429173155474, 2466877954593879422858402424442792960726600129364160037822, 1747576850288186306584242438115196127874994068760110763599), None);
   ((3233687608211723325431437166666982538315580168940909621726, 3509826735402949827323568068413146350898994940214579080726, 1218188108941019254167166267539331750713850943733867456982), Some (false, (4089895882745674134881518217808649349963461727142287610964, 2596107662335207673885329721295254444933570298531402593788, 1927103559290446491809015499872297779265597549205812441593, 2197440983144594551286233349573635149267494184701850873711)));
   ((676449850680857106874800608026274983533361657760147932927, 1655429055042316437353309798252698174783398317930089051837, 3767523140772418953015484212177814022444116210417028733954), None);
   ((1684791307130498941600165607742356017280664671286482591438, 2950856136940713832735427494222795967184440778404709359121, 553112923775664925370365739380078273203197756329343968531), None);
   ((4719120342661442528309839231060479031990400552047583108775, 3937576827205541849095595930734844090406097221847416487806, 4025761422699524062975355681230496177035316947933270336870), Some (true, (703840766986253317398773012479870568010337719042774456935, 2094015832403051279013633529808003182134182914067824127868, 969743294861471800412187326974946099848518270713529833743, 122004008867378325418269308781207925065268015647130836842)));
   ((5806136888250840411797039108891008960849637578969078990462, 3589497175010820275301166012051223953897684856196982234504, 3439090667412458670889200851603205687127411718394318537048), None);
   ((4017612005863429989156076629644991367161066717562964044312, 1822201555792983678008385951003428522073337770501883499823, 3146436087498658090950620614226918032764421426432010928715), None);
   ((4384325030872611580775655994928764225504966860290249075660, 3510149811154434152198600417943748232106027532859171581600, 1275494795538819481835515934615316985562784812112599394154), Some (false, (19637327125310716055548727403998135347121230040299877501, 4471449158379119464594374225102048003683222812363533466362, 5432862029905559106911935554874431344848379208457729844000, 1255805576064882959951991292122292495071584439481252595679)));
   ((3821378238733639986092027374021009065322023704684850235285, 3565190841312103473069086420258338940947706643508289837036, 404440716243289584128382718954171779193342305971968526567), None);
   ((5381561457702162741461524893592638616794090295707951647981, 2304724788083606406447036578629751225853022154054407522123, 1981253360452423781952798589139867532677600812098850096250), Some (false, (3018815768752384079128232874792451067366503489697707140345, 4505822481930846358359019536222558399177917714139760701528, 3943440220222454662031730069607649294851332423908535224612, 915383300246596641481687366905982337978816926962707903800)));
   ((4196863314517893727818513970953605086427301961194262291723, 88559134792216245055804637131554303799276857718885234700, 5004487700248286101687143672417896403327848454031919086292), None);
   ((2852214952197404044480284534889378835520065736517875880308, 1816936039808803167380447058050227213573769685582080791243, 3979969333957235132214363691796859321811231494937301192484), Some (true, (3212103738245360226844903298070131894150556769619590226012, 2925856560598882414667805053127965256116103009273535345393, 2486389033163147903240571297815698326270086970462724914779, 4311762870171668820876849009091353633463052854436774423535)));
   ((382071783272350601348231000970838358624700056766457595876, 4456918671089610564179848133801230987920526785808032389715, 4990277471895958303568060682118478192868953339521754542626), None);
   ((523126564670835323598798745979972729829860357752258312457, 4252256812142844892039103694068820815763770076687008923876, 3004271159959927267833197998096143711301891860311816487740), Some (true, (3259470804187355131033997678835320781292190265709523697502, 6262433970938783500102354761271420424297301043013850526665, 535201517506638088514900234758806332910950398371287356777, 510878770461534125595265282124049189201869662352736240577)));
   ((3673707728602583009658123260923915879402889831524427086450, 5645603978577936285248431845161405316886150482610834712249, 4079697745407544401510638491635570497499469067191931504767), None);
   ((3419908005392410358374984038483535745022640985261768657707, 4747418665329173883319711908217806402364240569330268002020, 2908225318194048432635003200738975369943651063790195692269), Some (false, (2569262677942795286165779654499488142659383434762466535344, 174851796999747405651177705296824056027016816119552036289, 3772030652051576516507047339634167641213492689708778486355, 2717813901768852829908273357984618317630259831673017300773)));
   ((6126050303077849101186493750390974696432852183613461785799, 3671639115300796452736961137520642105713320956610374368712, 537879518595533713272657496806654897446341296481998851464), None);
   ((4788049516764907539185614225476522108352730586571340141347, 1257030143562462737792250489944105885836578256634696329091, 5691274522727853425483100992250363200991892931828233210422), Some (true, (4545454272378358130904244036953249963951710483890865064972, 6025596994301110962621770374955395712851911139857287899940, 1565461300826696782387724813165640087549352005155194369606, 1883866144372977648764067790383374058227736099072321091318)));
   ((2375473148046627225736627991439490323523855626733722070626, 2289962079411801799009572524898975103562412404840269583029, 214147504345304295483027562470324852224780555990435551861), None);
   ((2325294929800916931868926881644079311758847207278772722505, 1365774997685983732886205540045055799407229883396460429818, 4191559493792409648389387189872273965549465228748241576959), None);
   ((5488165575969894702677134572792869051318760944857692692745, 3204486577230123384504123325296492959004023031596699994247, 2323894580622562466841955346754268545702873529505959345488), Some (true, (4509542324745059110480622543134463915354847892124435119581, 3402185163146112562660870983133612087140896957614632398998, 4726566842039342976065774951385007610391007093688666202163, 4911907616335346705272867397432435308748392038275627070623)));
   ((5895509279531754874243789073631629790479349708518379872792, 5884594416276431649916505179009147760338501816873706365993, 2394989259117798699169572109538010709547035378657841003215), None);
   ((1302924597756128207579844134043178247422838326892281863111, 348166576757084298329618969852900690793460744614950962942, 3185882218954174935822436293854868701057281721475105905662), None);
   ((4502452388584301955847708730057181796149704075356708885638, 3856190108021948903222820693275618693077136156627845203417, 268087619125291303069130880646284382883720416493013273928), None);
   ((5283122603123444757552352122202902841583975353719564520263, 4336163696535777812544210561865982021428137919632867438735, 1292165616401009795305055157496725238727050505367930207296), Some (true, (5732346698114115558910588542923456979677416413470662269799, 5730823784428396419307800865319421085448797089428914229439, 4229902609368741676648895102420385836269593354925114249997, 699531393073901328987986412765536655709281135895145990829)));
   ((2964228626273092171899367881059713110460832997495513510955, 1917750091662382869898711495955107004887867579584877501404, 795998343346227278450299831039125545596522738478502990856), None);
   ((3003373210781647968531484086109851790436118165753467778541, 1133364669432569851146686755630246850729843819973828719129, 142388300314861705286920957861272524234994233243647695653), Some (true, (3809339793046423473888829189248403771977967186849451791442, 4142553780839242872317759192205850925787659143274419243273, 2767813588971442381430058483041711096627823932502047030889, 2787882855719286774156642515212011093636715141268943189475)));
   ((1151518764010499589723271470328370907330548254483686735850, 6070687720729481373409584512535840703185992014936487793675, 2527837127138298339065123263876937634768084069345295620738), None);
   ((4807422892438779859201555168124496696616184477697202343319, 1440310153929587794241359740491362502016568944009387017071, 126532495782031363453036504998477326324247363365453555348), None);
   ((3733896230021290343728609802646038288903147891371153932859, 5024748338495312922236444725467100404952261542289703757346, 2938912932665829907986418483011353142623060873201070989284), None);
   ((813445554452651111003355461063982691091708626708285444268, 964545095734998070584907763011447340731639692343970793690, 3118641218564685190993029913944782107314047743602211615622), None);
   ((799458973417522056525315319731810878115149325366064255592, 919055328861543132588790441944575974594248404185433235405, 5671797760801062224217668633951679703305464242588546537915), Some (true, (4972097603763658332646335372903411187658295617986340238762, 998879353643301968521829074100558275109510218396162906493, 3615618022921772138889516515087801346689604319942394807789, 2949564845667482340251066701438885344880464976790342006453)));
   ((4291892144837823751814037458572108282202686726731998248066, 1894718225463800475680925579641902526148814446010264728115, 5411980231974040598717183969887589882123702289505274266424), None);
   ((2609969360047247915750302315494422434689791527469912687768, 5317904384429135934728864578910412028456593041776147208994, 2393485932469228129814756155672502726279406754847564610128), Some (false, (2736318750103291616517945917671257667065923106672854225766, 1840059426098420500550105181353855219702337124416638300881, 513034918144425795703139686785062265590201042686767259246, 6134190331911991305501834026038152891181525489085822974091)));
   ((3520650170880725900435474838097137618083080707500473516423, 4637435224290427531719717229327025396597033066914309073829, 1694507226191000701321882818501611906358150613655886237286), None);
   ((1013977248367276508503480211564367417372751399756342859845, 6085831610390801098600341935113179944839441543064570373606, 5219003678586271812538771278747533742404850363801444270732), None);
   ((5289953167970819518271569680844679677067559827049722896729, 3022657313421880686711133267553559097318421761892165120655, 2956185786156632890349845888560140386197623242483507049890), None);
   ((4281156582118311840315815082567350820267519445059388453786, 602046282375688656758213480587526111916698976636884684818, 6103051403093058732430931870927447005719885211462938310638), None)].
Lemma generator_192_ok : generator_ok generator_192.
Proof.
  pose proof (mean_lift _ _ prime_p192 _ arith_p192_ok) as L.
  assert (mean (c_p (g_curve generator_192)) 1 na192 = fp (c_p (g_curve generator_192)) (- c_a (g_curve generator_192))) as Ea by (rewrite <- L; unfold mean; f_equal; apply fp_eq; vm_compute; reflexivity).
  assert (curve_ok (g_curve generator_192)) as C.
  { split; [exact prime_p192|]. split; [reflexivity|].
    apply (dickson_ok _ 1 prime_p192 arith_p192 arith_p192_ok); [reflexivity|vm_compute; reflexivity]. }
  assert (good (g_curve generator_192) (gen_point generator_192)) as Gd by (split; [split; [discriminate|reflexivity]|vm_compute; reflexivity]).
  split; [exact C|]. split; [exact prime_n192|]. split; [reflexivity|]. split; [exact Gd|]. split; [reflexivity|].
  pose proof (good_on _ C _ Gd) as On. cbn [gen_point eabs] in *. revert On. rewrite <- !L. intro On.
  apply (order_check_ok _ C 1 arith_p192 arith_p192_ok na192) with (l := chain192);
    [exact Ea|exact On|vm_compute; reflexivity].
Qed.
