(** The parameters of generator_384 (ecdsa.py) are what they should be.  Generated
    from certificates; nothing here models /repo. *)
From Coq Require Import ZArith Znumtheory List Lia.
From Verif Require Import PyBase ZpTheory DigArith EcGroup GrpMul EcModel EcProofs EcCheck EcOrder.
Import ListNotations.
Open Scope Z_scope.

Lemma p384_0 : prime 881.
Proof. apply trial_prime. vm_compute. reflexivity. Qed.

Lemma p384_1 : prime 211.
Proof. apply trial_prime. vm_compute. reflexivity. Qed.

Lemma p384_2 : prime 105957871.
Proof.
  apply (pocklington 105957871 [(881, 2); (211, 2)]).
  - cbn. repeat (apply NoDup_cons; [cbn; lia|]). apply NoDup_nil.
  - cbn [map fst]. apply Forall_cons; [exact p384_0|]. apply Forall_cons; [exact p384_1|]. apply Forall_nil.
  - vm_compute. reflexivity.
Qed.

Lemma p384_3 : prime 181.
Proof. apply trial_prime. vm_compute. reflexivity. Qed.

Lemma p384_4 : prime 7.
Proof. apply trial_prime. vm_compute. reflexivity. Qed.

Lemma p384_5 : prime 529709925838459440593.
Proof.
  apply (hpocklington (mont_mul [] mf_17 529709925838459440593 13) (64 ^ Z.of_nat 13) 529709925838459440593 2 [105957871; 181; 7]).
  - apply mont_ok; [reflexivity|vm_compute; reflexivity|vm_compute; reflexivity].
  - repeat (apply NoDup_cons; [cbn; lia|]). apply NoDup_nil.
  - apply Forall_cons; [exact p384_2|]. apply Forall_cons; [exact p384_3|]. apply Forall_cons; [exact p384_4|]. apply Forall_nil.
  - vm_compute. reflexivity.
Qed.

Lemma p384_6 : prime 661.
Proof. apply trial_prime. vm_compute. reflexivity. Qed.

Lemma p384_7 : prime 599.
Proof. apply trial_prime. vm_compute. reflexivity. Qed.

Lemma p384_8 : prime 513928823.
Proof.
  apply (hpocklington (mont_mul [] mf_55 513928823 7) (64 ^ Z.of_nat 7) 513928823 2 [661; 599]).
  - apply mont_ok; [reflexivity|vm_compute; reflexivity|vm_compute; reflexivity].
  - repeat (apply NoDup_cons; [cbn; lia|]). apply NoDup_nil.
  - apply Forall_cons; [exact p384_6|]. apply Forall_cons; [exact p384_7|]. apply Forall_nil.
  - vm_compute. reflexivity.
Qed.

Lemma p384_9 : prime 53448597593.
Proof.
  apply (hpocklington (mont_mul [] mf_25 53448597593 8) (64 ^ Z.of_nat 8) 53448597593 2 [513928823]).
  - apply mont_ok; [reflexivity|vm_compute; reflexivity|vm_compute; reflexivity].
  - repeat (apply NoDup_cons; [cbn; lia|]). apply NoDup_nil.
  - apply Forall_cons; [exact p384_8|]. apply Forall_nil.
  - vm_compute. reflexivity.
Qed.

Lemma p384_10 : prime 1357291859799823621.
Proof.
  apply (hpocklington (mont_mul [] mf_5 1357291859799823621 12) (64 ^ Z.of_nat 12) 1357291859799823621 2 [53448597593]).
  - apply mont_ok; [reflexivity|vm_compute; reflexivity|vm_compute; reflexivity].
  - repeat (apply NoDup_cons; [cbn; lia|]). apply NoDup_nil.
  - apply Forall_cons; [exact p384_9|]. apply Forall_nil.
  - vm_compute. reflexivity.
Qed.

Lemma p384_11 : prime 271.
Proof. apply trial_prime. vm_compute. reflexivity. Qed.

Lemma p384_12 : prime 3253.
Proof.
  apply (pocklington 3253 [(271, 2)]).
  - cbn. repeat (apply NoDup_cons; [cbn; lia|]). apply NoDup_nil.
  - cbn [map fst]. apply Forall_cons; [exact p384_11|]. apply Forall_nil.
  - vm_compute. reflexivity.
Qed.

Lemma p384_13 : prime 312289.
Proof.
  apply (pocklington 312289 [(3253, 2)]).
  - cbn. repeat (apply NoDup_cons; [cbn; lia|]). apply NoDup_nil.
  - cbn [map fst]. apply Forall_cons; [exact p384_12|]. apply Forall_nil.
  - vm_compute. reflexivity.
Qed.

Lemma p384_14 : prime 17.
Proof. apply trial_prime. vm_compute. reflexivity. Qed.

Lemma p384_15 : prime 3.
Proof. apply trial_prime. vm_compute. reflexivity. Qed.

Lemma p384_16 : prime 38557.
Proof.
  apply (pocklington 38557 [(17, 2); (7, 2); (3, 2)]).
  - cbn. repeat (apply NoDup_cons; [cbn; lia|]). apply NoDup_nil.
  - cbn [map fst]. apply Forall_cons; [exact p384_14|]. apply Forall_cons; [exact p384_4|]. apply Forall_cons; [exact p384_15|]. apply Forall_nil.
  - vm_compute. reflexivity.
Qed.

Lemma p384_17 : prime 233.
Proof. apply trial_prime. vm_compute. reflexivity. Qed.

Lemma p384_18 : prime 8389.
Proof.
  apply (pocklington 8389 [(233, 2)]).
  - cbn. repeat (apply NoDup_cons; [cbn; lia|]). apply NoDup_nil.
  - cbn [map fst]. apply Forall_cons; [exact p384_17|]. apply Forall_nil.
  - vm_compute. reflexivity.
Qed.

Lemma p384_19 : prime 19173790298027098165721053155794528970226934547887232785722672956982046098136719667167519737147526097.
Proof.
  apply (hpocklington (mont_mul [] mf_17 19173790298027098165721053155794528970226934547887232785722672956982046098136719667167519737147526097 57) (64 ^ Z.of_nat 57) 19173790298027098165721053155794528970226934547887232785722672956982046098136719667167519737147526097 2 [529709925838459440593; 1357291859799823621; 312289; 38557; 8389]).
  - apply mont_ok; [reflexivity|vm_compute; reflexivity|vm_compute; reflexivity].
  - repeat (apply NoDup_cons; [cbn; lia|]). apply NoDup_nil.
  - apply Forall_cons; [exact p384_5|]. apply Forall_cons; [exact p384_10|]. apply Forall_cons; [exact p384_13|]. apply Forall_cons; [exact p384_16|]. apply Forall_cons; [exact p384_18|]. apply Forall_nil.
  - vm_compute. reflexivity.
Qed.

Lemma prime_p384 : prime 39402006196394479212279040100143613805079739270465446667948293404245721771496870329047266088258938001861606973112319.
Proof.
  apply (hpocklington (pm_mul [32%nat; 16%nat] 64 (NC x1 (NC x0 (NC x0 (NC x0 (NC x0 (NC x60 (NC x63 (NC x63 (NC x63 (NC x63 (NC x63 (NC x63 (NC x63 (NC x63 (NC x63 (NC x63 (NC x0 (NC x0 (NC x0 (NC x0 (NC x0 (NC x4 NE))))))))))))))))))))))) 1 39402006196394479212279040100143613805079739270465446667948293404245721771496870329047266088258938001861606973112319 2 [19173790298027098165721053155794528970226934547887232785722672956982046098136719667167519737147526097]).
  - apply pm_ok; [vm_compute; reflexivity|discriminate].
  - repeat (apply NoDup_cons; [cbn; lia|]). apply NoDup_nil.
  - apply Forall_cons; [exact p384_19|]. apply Forall_nil.
  - vm_compute. reflexivity.
Qed.

Lemma n384_0 : prime 881.
Proof. apply trial_prime. vm_compute. reflexivity. Qed.

Lemma n384_1 : prime 311.
Proof. apply trial_prime. vm_compute. reflexivity. Qed.

Lemma n384_2 : prime 9863677.
Proof.
  apply (pocklington 9863677 [(881, 2); (311, 2)]).
  - cbn. repeat (apply NoDup_cons; [cbn; lia|]). apply NoDup_nil.
  - cbn [map fst]. apply Forall_cons; [exact n384_0|]. apply Forall_cons; [exact n384_1|]. apply Forall_nil.
  - vm_compute. reflexivity.
Qed.

Lemma n384_3 : prime 37344768852931.
Proof.
  apply (hpocklington (mont_mul [] mf_3 37344768852931 9) (64 ^ Z.of_nat 9) 37344768852931 2 [9863677]).
  - apply mont_ok; [reflexivity|vm_compute; reflexivity|vm_compute; reflexivity].
  - repeat (apply NoDup_cons; [cbn; lia|]). apply NoDup_nil.
  - apply Forall_cons; [exact n384_2|]. apply Forall_nil.
  - vm_compute. reflexivity.
Qed.

Lemma n384_4 : prime 55942463741690639.
Proof.
  apply (hpocklington (mont_mul [] mf_15 55942463741690639 11) (64 ^ Z.of_nat 11) 55942463741690639 2 [37344768852931]).
  - apply mont_ok; [reflexivity|vm_compute; reflexivity|vm_compute; reflexivity].
  - repeat (apply NoDup_cons; [cbn; lia|]). apply NoDup_nil.
  - apply Forall_cons; [exact n384_3|]. apply Forall_nil.
  - vm_compute. reflexivity.
Qed.

Lemma n384_5 : prime 79.
Proof. apply trial_prime. vm_compute. reflexivity. Qed.

Lemma n384_6 : prime 3.
Proof. apply trial_prime. vm_compute. reflexivity. Qed.

Lemma n384_7 : prime 37447.
Proof.
  apply (pocklington 37447 [(79, 2); (3, 3)]).
  - cbn. repeat (apply NoDup_cons; [cbn; lia|]). apply NoDup_nil.
  - cbn [map fst]. apply Forall_cons; [exact n384_5|]. apply Forall_cons; [exact n384_6|]. apply Forall_nil.
  - vm_compute. reflexivity.
Qed.

Lemma n384_8 : prime 8463023.
Proof.
  apply (pocklington 8463023 [(37447, 2)]).
  - cbn. repeat (apply NoDup_cons; [cbn; lia|]). apply NoDup_nil.
  - cbn [map fst]. apply Forall_cons; [exact n384_7|]. apply Forall_nil.
  - vm_compute. reflexivity.
Qed.

Lemma n384_9 : prime 13.
Proof. apply trial_prime. vm_compute. reflexivity. Qed.

Lemma n384_10 : prime 7.
Proof. apply trial_prime. vm_compute. reflexivity. Qed.

Lemma n384_11 : prime 5.
Proof. apply trial_prime. vm_compute. reflexivity. Qed.

Lemma n384_12 : prime 248431.
Proof.
  apply (pocklington 248431 [(13, 2); (7, 2); (5, 2); (3, 2)]).
  - cbn. repeat (apply NoDup_cons; [cbn; lia|]). apply NoDup_nil.
  - cbn [map fst]. apply Forall_cons; [exact n384_9|]. apply Forall_cons; [exact n384_10|]. apply Forall_cons; [exact n384_11|]. apply Forall_cons; [exact n384_6|]. apply Forall_nil.
  - vm_compute. reflexivity.
Qed.

Lemma n384_13 : prime 251.
Proof. apply trial_prime. vm_compute. reflexivity. Qed.

Lemma n384_14 : prime 1059392654943455286185473617842338478315215895509773412096307.
Proof.
  apply (hpocklington (mont_mul [] mf_51 1059392654943455286185473617842338478315215895509773412096307 35) (64 ^ Z.of_nat 35) 1059392654943455286185473617842338478315215895509773412096307 2 [55942463741690639; 8463023; 248431; 251]).
  - apply mont_ok; [reflexivity|vm_compute; reflexivity|vm_compute; reflexivity].
  - repeat (apply NoDup_cons; [cbn; lia|]). apply NoDup_nil.
  - apply Forall_cons; [exact n384_4|]. apply Forall_cons; [exact n384_8|]. apply Forall_cons; [exact n384_12|]. apply Forall_cons; [exact n384_13|]. apply Forall_nil.
  - vm_compute. reflexivity.
Qed.

Lemma n384_15 : prime 3055465788140352002733946906144561090641249606160407884365391979704929268480326390471.
Proof.
  apply (hpocklington (mont_mul [] mf_7 3055465788140352002733946906144561090641249606160407884365391979704929268480326390471 49) (64 ^ Z.of_nat 49) 3055465788140352002733946906144561090641249606160407884365391979704929268480326390471 2 [1059392654943455286185473617842338478315215895509773412096307]).
  - apply mont_ok; [reflexivity|vm_compute; reflexivity|vm_compute; reflexivity].
  - repeat (apply NoDup_cons; [cbn; lia|]). apply NoDup_nil.
  - apply Forall_cons; [exact n384_14|]. apply Forall_nil.
  - vm_compute. reflexivity.
Qed.

Lemma prime_n384 : prime 39402006196394479212279040100143613805079739270465446667946905279627659399113263569398956308152294913554433653942643.
Proof.
  apply (hpocklington (pm_mul [32%nat; 16%nat] 64 (NC x13 (NC x26 (NC x45 (NC x14 (NC x51 (NC x20 (NC x41 (NC x57 (NC x19 (NC x12 (NC x17 (NC x33 (NC x24 (NC x61 (NC x52 (NC x45 (NC x13 (NC x9 (NC x31 (NC x57 (NC x39 (NC x2 (NC x34 (NC x52 (NC x8 (NC x47 (NC x32 (NC x31 (NC x50 (NC x50 (NC x9 (NC x14 NE))))))))))))))))))))))))))))))))) 1 39402006196394479212279040100143613805079739270465446667946905279627659399113263569398956308152294913554433653942643 2 [3055465788140352002733946906144561090641249606160407884365391979704929268480326390471]).
  - apply pm_ok; [vm_compute; reflexivity|discriminate].
  - repeat (apply NoDup_cons; [cbn; lia|]). apply NoDup_nil.
  - apply Forall_cons; [exact n384_15|]. apply Forall_nil.
  - vm_compute. reflexivity.
Qed.

Definition arith_p384 : arith :=
  mk_arith (pm_mul [32%nat; 16%nat] 64 (NC x1 (NC x0 (NC x0 (NC x0 (NC x0 (NC x60 (NC x63 (NC x63 (NC x63 (NC x63 (NC x63 (NC x63 (NC x63 (NC x63 (NC x63 (NC x63 (NC x0 (NC x0 (NC x0 (NC x0 (NC x0 (NC x4 NE))))))))))))))))))))))) (NC x0 (NC x63 (NC x63 (NC x63 (NC x63 (NC x63 (NC x3 (NC x0 (NC x0 (NC x0 (NC x0 (NC x0 (NC x0 (NC x0 (NC x0 (NC x0 (NC x0 (NC x63 (NC x63 (NC x63 (NC x63 (NC x63 (NC x59 (NC x63 (NC x63 (NC x63 (NC x63 (NC x63 (NC x63 (NC x63 (NC x63 (NC x63 (NC x63 (NC x63 (NC x63 (NC x63 (NC x63 (NC x63 (NC x63 (NC x63 (NC x63 (NC x63 (NC x63 (NC x63 (NC x63 (NC x63 (NC x63 (NC x63 (NC x63 (NC x63 (NC x63 (NC x63 (NC x63 (NC x63 (NC x63 (NC x63 (NC x63 (NC x63 (NC x63 (NC x63 (NC x63 (NC x63 (NC x63 (NC x63 (NC x63 NE))))))))))))))))))))))))))))))))))))))))))))))))))))))))))))))))) (NC x62 (NC x63 (NC x63 (NC x63 (NC x63 (NC x3 (NC x0 (NC x0 (NC x0 (NC x0 (NC x0 (NC x0 (NC x0 (NC x0 (NC x0 (NC x0 (NC x63 (NC x63 (NC x63 (NC x63 (NC x63 (NC x59 (NC x63 (NC x63 (NC x63 (NC x63 (NC x63 (NC x63 (NC x63 (NC x63 (NC x63 (NC x63 (NC x63 (NC x63 (NC x63 (NC x63 (NC x63 (NC x63 (NC x63 (NC x63 (NC x63 (NC x63 (NC x63 (NC x63 (NC x63 (NC x63 (NC x63 (NC x63 (NC x63 (NC x63 (NC x63 (NC x63 (NC x63 (NC x63 (NC x63 (NC x63 (NC x63 (NC x63 (NC x63 (NC x63 (NC x63 (NC x63 (NC x63 (NC x63 NE)))))))))))))))))))))))))))))))))))))))))))))))))))))))))))))))) (map zdigs [0; 39402006196394479212279040100143613805079739270465446667948293404245721771496870329047266088258938001861606973112319; 78804012392788958424558080200287227610159478540930893335896586808491443542993740658094532176517876003723213946224638; 118206018589183437636837120300430841415239217811396340003844880212737165314490610987141798264776814005584820919336957; 157608024785577916849116160400574455220318957081861786671793173616982887085987481316189064353035752007446427892449276; 197010030981972396061395200500718069025398696352327233339741467021228608857484351645236330441294690009308034865561595; 236412037178366875273674240600861682830478435622792680007689760425474330628981221974283596529553628011169641838673914; 275814043374761354485953280701005296635558174893258126675638053829720052400478092303330862617812566013031248811786233; 315216049571155833698232320801148910440637914163723573343586347233965774171974962632378128706071504014892855784898552; 354618055767550312910511360901292524245717653434189020011534640638211495943471832961425394794330442016754462758010871; 394020061963944792122790401001436138050797392704654466679482934042457217714968703290472660882589380018616069731123190; 433422068160339271335069441101579751855877131975119913347431227446702939486465573619519926970848318020477676704235509; 472824074356733750547348481201723365660956871245585360015379520850948661257962443948567193059107256022339283677347828; 512226080553128229759627521301866979466036610516050806683327814255194383029459314277614459147366194024200890650460147; 551628086749522708971906561402010593271116349786516253351276107659440104800956184606661725235625132026062497623572466; 591030092945917188184185601502154207076196089056981700019224401063685826572453054935708991323884070027924104596684785]).
Lemma arith_p384_ok : arith_ok (c_p (g_curve generator_384)) 1 arith_p384.
Proof. split; [apply pm_ok; [vm_compute; reflexivity|discriminate]|]. split; [apply Zmod_divide; [discriminate|vm_compute; reflexivity]|]. split; [apply Zmod_divide; [discriminate|vm_compute; reflexivity]|].
  apply mults_ok; [discriminate|vm_compute; reflexivity]. Qed.
Definition na384 : num := (NC x3 NE).
(** The multiples of the generator on the way to n - 1. *)
Definition chain384 : list step :=
  [((8858842858471144062331262387151666203918307921945614219585344917679900808170212843923625889334734133933313673772511, 1362138308511466522361153706999924933599454966107597910086607881313301390679204654798639248640660900363360053616481, 21933325650940841369538204578070064804451893403314136885642470114978241170633179043576249504748352841115137159204480), None);
   ((19988580871385095682551271587926360042696871665467301661812877529232875908220365402435364905725305147402370001818871, 3002719260124138234864644293005553694107074621611323149430212532410635475904301642043243286192603916432052661917749, 31212625517239818344942812004487160470862995565736342725949902243255222118943617085729083408956085866876436550315367), None);
   ((35321441733882790437548812872919470741696864805099242184214275154529350579789305991920855552571591364463399708612147, 3474169820285015935707784759505165025751354558980809204451847681969564642225728669274210426295040866239332835575933, 33987484343743100593269958688158316211807494280296367372570003270207970275375287587045962593543362932932356696902354), None);
   ((16586584338151121492263046246186287058950895233995193468378350325695417545140212783429526507127617990530169872497033, 32913932395616264895566414122765335444396157997049244607413007480094180059681244402128522915364132398797797514391503, 33258149791966603262610080790276393461897267120335577178701134853798651660398480161316647903923629160436268769425011), None);
   ((3957034184012170290075842448056959706217001248336428193109761916000207767788070688895626062054817043983993557616759, 19616433895130952913470644187706189275663672111625552851652659937224764286710743264709057308519168866467804289199830, 34478979765816518120361850814900334787921058224660800847229805158637179175329583918997466925002252854250095585101691), None);
   ((35199802575638039056538519114260687213562371160356246882734523607178001415826530206005395929105439736285950061629543, 29840980520843482126263809387597828107917154499716063964747144720333079624519431878211968389997427748543778313953375, 30092720251793505741879308407129188426403517755747512038434305935609662085051000919278211033573102967490655531536037), None);
   ((1475046002664199992858915693916552824740687497802771555292803254200695807852846627912284735316809815746227871193368, 18754743275811621356812366348447155036794152582973426574596694340222890660328256759016417708116066275791737346969746, 13492069884231805967150566425593616408403886574369817417579605777129408746025457363565213630285154171157504491559417), None);
   ((3083452021622907698679965840953217849691608564359183649385213526412847576830602322010916700937743121098685775178279, 5178343405462934513649902254738507070837372868852512197909016568236364157174914897330149829726609085359395571421924, 8698894191909421753117065743480001118105879137388117833920702419769460221632726933130667492553950814529821294069707), None);
   ((4001266379369843103628274463026220126813667989306975906786150268115060003850486120645849742105244051631703046725603, 26205673854732025764959132097887542694443417297068484952091055865663357187027345649627905474212980063953874060926539, 18707063102386880132691914366522467055830428677786240954899962693562385966606422250199250074847207848125061595418935), None);
   ((30056590366744743625679476240439910728714624156344766373354376091170437978484734787960747306306679686743148243627884, 6667889924121463509365763621317546584395452173557499696168433010288799579535440228036456561778803806339978279642882, 11311647045925719544791145396681790423573026735291601699784467694406711568041912224275436960114803366635820192715088), None);
   ((31227726975911295005653983715657038235612571018146890019837404277992450479356388141278883223834312659405006195274121, 6394352166426874329851979361559938636536469338909382433096894907646528895732365361617812443444883235499288872356046, 38934398376239311865113748723159790818894969432809558937739925383521071029098527157063140488758968525696055429492759), None);
   ((33829932199211726392340141743285136743861766364696736955582671404366806085285600010912908108079253639971121700155177, 27445710302564855089726035807463957830078175625577595820526776300613451347574885644983742539473416970415775557732844, 25953607205987723584484356215494748723251532030518032127298726542743301166605503523978619058388746843467546506683600), None);
   ((28347016845808180633840556235464132044998333927131950853987864848493129335020819057542731209163660016827965962510880, 24825780202764295862006455797491570010817577015444852888006299580623015546920023942002859606324916135345528640869729, 21622704935449833302715235720744889056596988802979514855595307974001226114905194088660999069743676964740983911508905), None);
   ((11610132200671638532311102036120496022117451329490102415481969158691694433131079569476288170843987636627078103829453, 26710506688117527868094912774000573087125639865482205929999560643574877130296285742505150864706037109801256693957827, 30228356259437602148985874335661985571174132176308089414851205507376328452895056069848395934734216838049860298870732), None);
   ((9107550127962940409244836633170687332838150123049825742287410831690779648256673716272586758061245785365843943321703, 16366285387527804356691052888508265926510407271186958447807268993305421691202755931209374119879379591063654907626672, 39178360782362950570156040138950681698279969097145862292651061948228462110530963096435047888026048966849732431826877), None);
   ((18990858572733289685713327804105007368731903284174720699839602703173814062426477185243709231645319029091123728758488, 3067570587250135156236097063270069951423294268100571111247873123267819975125434095571130891217584919693801563213220, 11710267177555934043440652660812996700091371689768533151541553691890485271937183004069333293037170014869574054462648), None);
   ((25901465885700484871301788773830286814944821936975653971535425986765946899363974001930094048292645507415449340218750, 18041605691883320880925331796113764271964362462325896573663688447502882439392860891167099215220828809022449879934783, 23435266145806899666255471558720002627052097511111893626573198011922517687442809136869826784538423530647707260200394), None);
   ((7712781599550427807721562927820738823050016900838511959429218089915593758063782086119859383520890246368024024930925, 7465891408454598582671205985701312571034942239136547578044765938142323836471715046710950990231997094608545595809483, 2118357895366338393705363950677308252576600980199996970810036362253418958148220164400510598292929994193444903589096), None);
   ((1847548007505191428572441434372320743293296272739191572756582234484749766050529855019234628997187339600710233466029, 30884484941255805936659863849244968447496834637260229894366208312671598778030849108323183046175405526304214377335101, 4813977532425966289145198844350580657946760517709392213254713605109071283596985837001437901293037735442524057607997), None);
   ((5530491884550812654293637978565158631706322460407110532445690569446949193444553253781357881044830353947472059134964, 38334781436512086881914983872952143881482483798933968550385173260225109518260710923470110762604153721631672125812456, 30502746512291564118050807668720412989628848190895555760732954393786905710273241820314325918202145419634310564234818), None);
   ((36896760700454777164737503255002091993090881749452761059993446273521594305156052779231025367395623888118453344090725, 37155459481598447185989959361805707996584511383920617351131709139738409721340689292217680240683275533128972564260684, 37575490752036286938000920586447244852976230782430204977523423098758748753887594471859676016660106635128468083723617), None);
   ((36000814435274545093142484652199015603611508286235679648824922248399988273185522998339863507314475967634426329773695, 1932032497846784940661616403677662271933991367459387471360881064945468205172802534950596819071517484650941095531480, 4179270247488928055369516634549220437104053447496096240887787259056931875181968323412218301195894176235124983068713), None);
   ((35881308773829011084544292977698607575153776195766900709208462353785160762508705964146551326974583904659485077433115, 6723293829920431251862731550708950133448243108144688346409928858347754497084851760382112898888171364264925551612109, 21203638968277147395369477563605353322820348117681854578165505273685595687943823306943796325853723794181521946199903), None);
   ((3243928783319376037976755435916344700466799169514103189249916683253771712379779244476455291665944486590953896443509, 9636572387781177453499860611504857568320947739540211646322768149944710525432015938813054753706747072709336338725030, 21886594304841156047118025248002566442107252187126863254703921044336494334089483657682871441560919074961393812956183), None);
   ((9384190699860070754559563042532177578717274774033203750845820765959584294504364620109232104889411632007560168548388, 3135247249972575671623663440027408513281334821711296093040496937781894503117569147938510094896797991111924798988619, 32487065833272251803905714239618792278535696404660023107735334615481552611518076351868667475029134272570216990588169), None);
   ((31711923980602502210362365079023761076313906905916834918282332243435358317577736664661421613573132332882790730505501, 14963035180812571449605485398510149275861914767125340320673970396719665432035668965975842020039762684591597216967188, 10631135461287981641257838047457127735026473584552098897784822642330654471306318510961682373680573122028019545648839), None);
   ((26755179180219993438596853243314576416592517891902669255787135107563320190116584526841396861660272283834807668040805, 4047283331192211134943527179135350471791782481193195641607645055825900819511696567420621025060822107009566754058111, 10650857817074955349664609725114527273214659553658309894643425276631789935719663521419140407153649178197117763133544), None);
   ((33045201105892451742250755412667726237978179896001062307804006480224011073408900315604855452328197705664356375740733, 23603781018282859172320039985016178822061467345029167318677809711807110996311827716156870473629722514689091001581474, 6448567888326139813269887433406478640097206955803246069214757000299189844489843492411310732686561484101985994617656), None);
   ((37779045115406474644203160132449266039404735404870312642404407079344822385928957828916908045425257619014001530098245, 35272542760224509252621685251425493284733305183835901587355521965247181997107880712637710578426899356557553143180899, 38069644508486911362803083688805037442616881913727532648023852074273711907314204588117208805113251786777314229421275), None);
   ((12422655665498890273991101107669911772977744701755533914466531260584658986779488652276312511107283374749367399986567, 25424917954215181859233412055335545574974629725974847171561856985276895888332300335355173200800604791587417184031262, 3239450304239053738090012804521590440573237237733827996022531013148223452899325076941320277059014515012330244571173), None);
   ((19774180060184794923253276030065513954674596045232942963798184653781468814341199405806218998478693033829589011845744, 32341572538742916292709039928388851013246708201079211403679374123743921077757663269343954257501607264791318443203644, 30665828886213483731226032862941072262330458357519486710831762845399824789733813101741999022840697618496357558121305), None);
   ((4982390078228839958366162888647655734346227258620827035637473018343860071428343509261029389865159828066397007469751, 28648508295855731093526125128238047856250612339977645328962233878650262811929201611940289628705116663770508205981390, 26010112005654627761494915821506193843830425925001456863189144118348547084737583845792613224071633406572594901550235), None);
   ((37866899187736666096884521179886244212295621731245987905192712561379130954286276291924715597492667859858668829090910, 4144135366885873850981601826280407203297944112714881971766045797875845412215942786441396909505926007268048235750539, 34037055093662066034344408731608122150238939508650110415506207826656906500073379583414293979572736054150374872504600), None);
   ((5949588944944677265958259710643024741424763803936751488351407948679720835978834415575377315544378526356308377012055, 25324769390227958483911535526368251758728482771223858415485684407065489536477339407694605630976084975984461386161411, 29254838840513591795913538694322437321493428912109708779624058254135439761585342916456059272711275475335479449099214), None);
   ((25950270178404700450003324371861425753724649270644457772175411594528125096145679294380686579379555540679186036134101, 11583964192762669086281864620938574565013373284567786238242827160835660550886579007346858819754522655067589534790956, 29485455047587185100515576471356447738257607931569743612441878204583163009561037627185505487121684016747503201472764), None);
   ((28788318295099201000880866539389644280415875617696860588793269573642753979165322820097113213670189272202168851368697, 19997843807060513089606967670084971864085703827363916604054181698402218373372902970148485180419594114985583334492116, 30286225196026343007413667512901915178126501431431700572126916808628182130419790968631900496248144383757505657198959), None);
   ((3312091898650625046775352475238457616835030990531120183560416918715318677203869824142305641159590702515922399572563, 26167746809787616146459802975044717276107157651664533119091817883372919833778507812060135492838888847995670408240328, 32454509221911587822146878985785956451150292134966816628836037185616100224211681980497599174153566028244255714175866), None);
   ((26561723263999077074211964537773557898956773719789151544077973283631783633756893348532242277195830980198860005804520, 29477350932004913808345913689087599450313868103992606773132231309581429476608203488492189337422739352972895847905022, 17312376728746889885597803527571104316124059827857601640272046131749412201895991446588266504553385922179744125999906), None);
   ((29978041018447002084987978359550573287168606815920491278419271620252912479102862707331788198154573856242449384270692, 4734361579531871959616348311628940523350715055836667597097388626263269875552213209374285272702076354423767503076367, 19044469906538739195815405975725393648186803542284161568259021222064714221105410638059945639627069279370029574561224), None);
   ((34688828057172107344319174279520267070591588379436317914328680599382207854162710830012282995990529008813650788563105, 38371500114723604423608120377327038939697060934173650431959210398361390446897936964361786693127965899647300959306976, 3806362067861916500166971525803647761741157336398157036639882119526240405941840155544490889627442939881194586925968), None);
   ((36252154920029890697032778951298171005827776485252302193744583265378746891282262220990430246214308556615369633172347, 17125780061913396207683012313229335363184799082882623603450783768230334345789061535875376131496622541571046529252707, 23497463771696798236544995356857875073367549904677977070388584465013540561671406299340621704843251360040184243474476), None);
   ((32670859590705109620645512863043601367587811928100246912680186836319277337738065123370024318709151701596925130079461, 8797494402975261987366216869186656098892345439778449314887244246393964604572327077074160767511642755495466135692594, 25641143697659982792813118208155489854952279998299408454213538146917871858145312295811911502678737826875619450766854), None);
   ((11398914075348022642008167541671420176808167634860583651348982869395245863195979003008136780028925811245300981106525, 446963459504627877571094813290804159494146696276034526165506508822740212336461053234032668805202754458531126107931, 12901278251659637470808853953826338561590349328259348344971965056043239215100103907555718142169686119794178220674433), None);
   ((14237423159828550346802994182622294579013348371266045082185648777483384903349238474213442613306478620439366230977122, 545876733738052500285275751694952520393523553465442255063385232049272149325471508895005733068564808792305404701165, 21415120097790770012758565951716516430577161747413017127315069154461616378409309288096981409758300169897112113913068), None);
   ((27163492938336926037279283494227846531754048767785009068497211300470061826118412303409955382106798494621220230276441, 13972387283727881709173927031101419671605302893823325097576207987734721587935130811848439214098519938160924016906145, 12004804791557983355443922240749133104499016090399078585481497255536801067444032307935316869229687121224054495822313), None);
   ((6017122124451774623995315422392107032792359231831276089533704756651970068865398286759913462062371951430221045888469, 35869991224434151011527668456425942367826117082976696698754615668894696319735392909132174486293108765784602281760469, 29761170505703847994989742723227292736743024483730818175817863758191127478833361126483844803542142315198502007378406), None);
   ((12894715330016938654206453476228147942293794968447070142404300506428078852957988348724296953440709777702728469564889, 20985174468941278585840583193766108595129430977272010816552675018939082282496129009833627743773205110258164359589861, 2077003719525729025183233105747071367422466229058995445655841325212545390689701688160603459472004004250478919025461), None);
   ((707974677873933945570998485218968783164196564660247232585798852262218695872620627104910327561210563132426406580176, 37187235674971787908695775350721576685516924331533939701911870839527781139409142879294397361061565970872423008004268, 26839749256862393428491296778595193126409722279662416812975680470192796382809810909965979038803268190298951058674239), None);
   ((9364688518860490807994988417540792867460839748988894480566362489680579179409022499082513727142511599953666729266449, 25305809053826242154750952742430632551436523916101667317940579930958403257278340595442533500154635469894339361689967, 7334469898303752259128261608016797902256923383470745798321073925376331436022344006953010549895382870614857184743147), None);
   ((1065782384721038872245550292967836940953242406173332736146576390455189602257429500755337048393994078675786581192824, 35521861286767460105264418884658887924458471741707486660270217328696859730666664899807526373054211154197015509019633, 38733377715958054752775487301014135285016143634496896391442858122364685709232029438964741715665588233861089491510742), None);
   ((15736420537062340821037472410810340181737351137131158349338888838710605927316816578873576371527886912678264353561845, 25720012105087290965926139326964634684204508238245367240152274934496200822102935822633535366763168859695211604191011, 8834500404759747892488043473499761274847263367657879716894576331402378514702465438655247566246298403755690837429858), None);
   ((8708589978083973123049436684134777683103085726925579307452014927811339472563800621755097071931582924281308377085352, 33693635996130606694404567282213846550494750333639325304892765574138295674746693614808529394748670332257897085920718, 17904532863748440536152062328179169437036618618387672676451678215563000647701615377167924512951274726491466944578781), None);
   ((26068423699396278470254683397644099896217938882574461552519681317139507465624926853122159199385707498289460436621607, 36876598876495363590181187624890779300578194016697260301643091663863544211122362774884365640314047267723904890467654, 24286165084594763252468697982143031562457109161013463986438417902489982591717891261723535981700249078515809288281232), None);
   ((20979443508714065314270267537787414241583836356641381876146775748279817839195515109599956278278921054376423747388889, 14955242867841779328843312785595223117086430171599232836497095748460034142865793414872477302966800112230907284194521, 12016275749668500031502420401501459961542811914418276437519763220390383890026169284865472133983660407092273848856407), None);
   ((1097022499022879030364882642951884750712440667764430395220427474589588375589070098825104250663155726422136319159751, 25689898201323620069314875854133834508207414534304816686895763935494246953118202002171866392501079774956559379069861, 29848647803512465099055475281963649149468865719766281764458993296554593478786847693029542232067969818217446225280278), None);
   ((27797462932734970484290889156794097462301321428997311088713971575661334642551018231033414460820369953296437110129157, 4400080263237102007966962512771086472526332291448351956775021052187666469730536990569448064240923835602010224203282, 18407441473000028040936113737540758793125426573119403214171145140216811542381042934041754454234487886788232362183326), None);
   ((2260903848878445343497165442138191141000906859242285184732103316073751794442877518489930436315764234604406605881401, 38807510528165518070091197509992892923645572007566745556118186642004259148690231174522611054010512912809995800381025, 16987807970271866345371509094581413183701975433509547110340018953255038779385329931705443562438514540364699554703395), None);
   ((35659973601565751103942705794943465580107124120681135162369064751725682283027348612381644737379385758781517973525684, 5712719920213806221379391658968183268179040832699781397312990503224797611576313437076749645158817940286203539160400, 16790829086925057332957575830203887288154674006953139471689024243141364186115345046672296641731008008896762765108635), None);
   ((37611215090528144606619759769537980479405705628938626113677870487364516862729100791845082302614308890804699366122750, 32181215905005832814306732775244133088566400607374924854138335977740780582727285451465755439256444458857994209082534, 31014326180725085517825090072866680004664588177645876591874839326588366324690341264947038525949703636733000165322510), None);
   ((19107129512132361159358877424835992177447010087727012624958318492243475330684962813626440826303395004456461056410707, 13337649707188416498050395394442268195506463767889169769402367509588345762757931352051604683146633449192681974029596, 12262480019923692034177313765807419560119129362876549277273576112046882217599893157616591292612965899126782724258820), None);
   ((15523947697816250251522825939421451075472200164193745813215536966733876271975066867241116306951698759340346979301517, 17727481797425652657173156946868829975328708866417147001577987373459429772235437328484229497336959319670274845685040, 3640845388087989447624448745180842306601837286095129379398497661405343787186757859475500013959875305604691230197154), None);
   ((34655611141109706058414554007673027769015019557114227095523761603824856644509775226400746412071771318676293762074390, 31884096171899608390715661396145676900436492292475532554113592637784766964406701711619698723492270996298074800717482, 14704959630898259744414830503060804465346885997233188032505122516045161241348367054620773888366891702112175873225893), None);
   ((21410659470546675889681408628456848008944630419210907990485140093407759157771251888024214155410693991837344221664742, 26440247163217858048549833512665900404088493316528966118257487391851107294187296021402144101890317473200816138306282, 17928614825537531312171163981024682659864077581451891625948676662291587620348300352385897395814077922545800986720139), None);
   ((21048215081999020449514869128547110662740371480551574141464499746422693316138202982403271141876175562858938994281652, 1172254831960247078686829812284028714925469901288786496306807988558319750534218393700545425493779987129107884119618, 25596410047327546279467129016436993446296483413354506558721990274188777837699731201130217474787318236093459634828579), None);
   ((24365178560437618019387069604531824833852946358546742344713177616540678010437546682027684764876842095770581611538614, 30296107061539281279659546015932458619282728712749681642487759180067657919984843206206251688744805705676193733889167, 32444583605232495608164436693683672604640501541420170947658489050200346364626532146560968286929803160494074057210691), None);
   ((17233594564908515957363654642339856864543399704097083665843005034354805016144787809579316636761970931721038996778425, 16025718241424720667489871879701801100645750006511283648774860380404497311587304882611526286948039122152383805321815, 17780768125570035437096586827855029572700095912790277841940673336007226941642716176021336595083355562260829747954788), None);
   ((29410173055360990431219382688486516796097330547158459663656836357036568459986025157592195297606960830280932423906283, 30069102268475957850372868854551928770896391041352787127533582251763670757383629657824446478627115284721273975707711, 36188287253408336982214521593194188895871076734510925605864696969111431674627117410434444579484654935637312788840812), None);
   ((28399290122745795713644797429217239214963237860121972489764537450341084139778185416034935747291078651848774795625777, 21189867340174969007619961323147067482751404254533789292792500087695302447017751994168284829499754125481598796453928, 7548220981226917137297430495269350663933976313776830669033412677826089360169645727316808717082795329970477054251155), None);
   ((13100916767196724926200414349202949868547984924888588436022994344673129800907116144351889287807878078319410147494585, 31625822264803196418079576358459852552441168670348883324053825068429399168491508966912264265150057960414280627593364, 30836377781876588877534590623964865442045951161764435617260879712996976803267117442428358585459174841760990303264255), None);
   ((29872382407443075057029153185677097934639852982267037857038806564604225083685983191948337067616767367873906801874244, 29844638882423056836137357026912162923670247678010930035431292061141282087602931069038046307674016149355000123959368, 9633985520295833167549747192862724078909417312085259856627503006160452308128019133660654584138320412644876228758423), None);
   ((24287223840900036281856053281335686525540084019298690524296123389641710749902428251524373613158937589421577133601637, 18391416258900961610044018820467240295114679235097135553323878910716908224838037705616965532983715682400267683558144, 22737543723563458580933699492571547566353907832519215926208701847598061394971334764222573836816401598060465353391926), None);
   ((7712005206805261570458742194011446664414410204703184326369702160190748880946502026276135749469081683771875294235636, 13832038254610010174195032180393609625077031204195729814281561268560694236755371053819733619627666508317366024272499, 10021932468612289319371251896857049353433939339669676274336856471609199622216186939541630724542637566747173833252405), None);
   ((3342193846862394124224101681973904799713762629167300555421027191415239438895528219167729707582088243798629884456576, 27527568721330998535122439107868478031628167200463064082235632856719836109698328576345015168177907393109597004467344, 35830928570560463001881529453776807637912806750789435266781034628742519417276601784668621139532913677069328325592800), None);
   ((34752293597466913990011180504842854868621158483828142834631681664223404033887444144183258121126089174604874446989206, 23580616887992378477870024176553187184653755200652735979142765647680322196127907736180547555787033921466467294950965, 14772779784996725518905042906590532922939291269189173019658473697461987976912325037012542896046765496460324527830710), None);
   ((29117579035593964153563513102417485233607436032159445258121515465488968941789596732632623381166696375563278652141051, 39208499303116614977925502575696498848624218974355805949854552486971132526269285557892727566637083826376628207918726, 16002502314042103423751414609083825708082181178977521851709113121460831074127496630934849141556297389861861393739505), None);
   ((11952215954517507682871907444583951625014920978237288287496485120640544106504799092181954340837394245727366838614718, 12121442347661641832823498681186075528382711812886267954965426600798614754911755422067436050835440033807476743202602, 14384144090109452987250313370730949881229488734292888529206834727508090890359140680118699725044438828214869634438042), None);
   ((38150244000780357447919575221975332110613117598107862098331233330568277868463010526711364612285028666564125111263590, 39093796319636426863165457318835467895385737313931024333763225880274125699855230736145079793801412574838769962331514, 11957642746670512520184152133621785892544694179235693239141421948780989146454564117886245991700170395019776921316113), None);
   ((16180873964628633392130152293391820789155748152017004812921778662260917049621370176397426726546526590692232454118248, 18750205650304226914189402780472732988657339056659340387205541934710457020723517086389032927306179672668259690041425, 23648544108088698001344923105452862078987323864007671074708752096391742568361233609254459471424453758005072672797248), None);
   ((3285240631609714351776207993464724910887488036806112328023259534513210319297833016042480653408177078965742143915740, 4339021401222874318363741336990655486084951594949390543060362444609528939322939528949910016098210149932177531907805, 25223571081355657129566152577068204264310293701298138337141695187109927803887877619900219546937719120097626294469328), None);
   ((28604670019647694642010371815783133401383448684187515544044283354591896784441236780646221089978046383583788487950833, 27565928916764255413566321295122800351789130957681018040234299027936153763167022952541248940874282737791103095269423, 34333213787996620742275257897293412270491256535717634749770505441548655024242859544215710433204500509597446386617508), None);
   ((20661187348523435830612404061839462289273583791944841075579955399983893186278620869443478237973237784904287288878573, 34262361548660536953683520052275315221104037038322422689957850669156597548650266013304390801453216623804700169028831, 35080613376797517487489726984397062015375785430238277478445004193572959194523181507093374191845548714091199307682135), None);
   ((22278292155914480419114840121097445206856296085123446067197494604522265212809733063575724469478135793906510863920077, 10936285925955837678203596087484028358224932625269715325799346485993586145076914734825182208852003027188067877096623, 34998342790764452650960262468150020819095189965824267971235817081481075629252334109428036468831975266992580138905714), None);
   ((3089386181028372683431466530288929990515621394171493421168208439271255970965183995770159180710729261100428355996623, 5282064902547791401997581852818777303818132819621133872914611514410115346092994807185926371953114752639233830904719, 18275560116241868136963625163575391827705116812422629543272891500876205392478591962223258540677647113105905736935365), None);
   ((35862829117783240125573565347821377574028543414621501010474820173719130854176500161716390314091158794415851623281019, 38217685890214092260501597910093706101057873687885700430312394181132014157554359565954286998539085909298448161029595, 8816976354420056867071744351998613282631984628574624129772695003915305049275408542282000498704473740769437051497874), None);
   ((10310362590572617007788278904497261623859097445863036347676413178998050659441254268908376371182541699443121982548478, 9499550730812265807954687805408565539002265663505783492934075299913236797566709077558562139762422284636686935283954, 8676101992636408618017656612298914557075351777221248453922803493314093519923423465518326025769705065509651277271714), None);
   ((24936762636262725892315531256065584404432154358441057123948759639220168729268160135548970194169374253903334401319219, 13941762623023600286654665820181664388507264062286122183415029738866977469279174019710502420012195860287798282612523, 8840095059824358183263888335096148258696577434108391103543691021908367183501273252068633927247890591930057907757980), None);
   ((16313865510431583137168814710454476338379184739378392247086617103140377675699666950673422403781077207801557910140351, 21179836254093970267250007635827520306958953974181238389917747884935153632269269327965499334708664441467355975716022, 17636403299298243705906690789541601733360201198190844056346763107557351982260389883545116159691469281561109506595269), None);
   ((35471181094305166729013801345181240889725157514032138164481927784879268683990198278461660190238713188214347048061008, 37560662942264144940064270364725563065021476909146825171895462003884987809652153321196122258549039018945321955059428, 29464186609866805772440363400410431348549273474442056718312310808404828936398219193292079031799110108998156151582187), None);
   ((10754180342142594276463527391278046523706260617167698576626512737876709918341130336075747658099889726506349369266280, 36615342841881179983299806355881440684453374842661873191804797920609592073853369755587555449720008548336859885214900, 24046098651315067660935751623810043193870133403430214198618082372157418050471173559107558695590903922124162339651309), None);
   ((25251096867509749198364176946080484865630376054286415204220324074285518277617417022233864128437245088987881322030823, 5148816031426037093980100441872466469874686577336621222485524342503160535665812025986677173980012263470864938899681, 9178802708525142991129230229956863557961378534400813422653583492873687169154203317013412672170045033264707437080826), None);
   ((26784134635226115290075667828446713507047747961580121185572438322644446001632664445109826644297091477480886131388095, 3839277267174392294225620329141753265496507011740071535252355767997860971318266974005053407851205211984456515266573, 16478413345363691670778457252598848007608455134058961193427646482596812019366238711153058376622806407596623808956718), None);
   ((18648691467602206896560844611496233185451352567848100524855980662752249242350600003684035012064714870383846139679318, 24235073750103184323287279805173318818471011681239237247865817614650017087485342521559472996585592616863663425541370, 30253936075435899047059157931995208586217740185252459617256444385367920963754771550695295550648404616986847070927848), None);
   ((31924424804040155373543714800933069340246137090603782462243822226587367586114975722711019966684211600749666853178604, 16255937441751444427811911527412287724267669229933334765780220882147714118243110222790410684975091797196747154804034, 33734102615252310043935993501332920820585964417627659912271387384488278911581101439652153725090597465830987702586379), None);
   ((13953188763496312200968323524694019397500579691362212021075424473564151923976504018166761660365718502553601111833673, 37496525429091693352911531037435613789215636696312856535759731182611287720770569574673707920742107184310569939460247, 30540981954897410671248333512523587424074175467801165893827193036494254950428738074932978338214683828564160554461456), None);
   ((32986617228919929143505690005909984637430052118675179417939320841300866423662245475111147090205578856205530090599413, 10393864507488065261803427606853654974943578865887518016069497485821257813321604475723214820380229033775022436526736, 5854163766033183353042705198617782568958685290641128637678723710180797285196228811818694684634580752370376670927930), None);
   ((15511708105613357821935048004271173737242689443059685360818359104940436191938618258347488499155069428201329451351276, 37739145519099240494355485371491535018112934687023977470151353812347135992146430333503594293821927784598962344698313, 28600676456445523089155297581576458443203438601341183341889576836084152752135766383021735837334258070654236011032269), None);
   ((7317357431498528343086827227193012150693069590121249459336069722681846477242802531605710403973725469804974014538503, 25512566813458960492779264780999910546492804230909936656433730372843750737312470865185150466700621853852380839257448, 23996639790342702839143320141839289575411602765625128209018286920695755610147208942124395437490080074844767917005183), None);
   ((7620231418454194897760969135105086404103188885615979673882362894503498880746872002090045159910202679417562498265223, 35862665832050376379579848593590820864861856057191606731036122785548311811099628791776104543516344243819999063578990, 28979376261372938730938044632031199876279156985417584310515330663718285412489416406787832880791530077300077907406232), None);
   ((4557897406006068266960529620932311571867410850316168738366585509649301990119329653083026944047957971072412691284476, 25573442231600506648214890268318110362475225425251132975473436299794337885244479971114472765987356818583838465426711, 2909662641917457382418164006968464405470348377546167690259337341121449485819785837348374090405614487428659889007637), None);
   ((20015898529893164442526375678143530058070368293527318863743735594980663761869318103354546619501248741267158123907828, 25237972799533085230066773736718843797845437729301980782230816627057396364713502320017933645376746287178362649525659, 5317330933369908306401015065189805569399970724855032644528722854865678139085548664159104114610090262457484752333503), None);
   ((37760929529469022852341111302016581931250415133040983940105201501850849059603601358097073255892558757033927771716211, 12317860040757636345214427469639071444964594565498661386659153037081350900321081007380676650707281629097961348299126, 16158199955591633389421113626384871167656047268188881942429919590872798381815360187917454655059140237564089736675396), None);
   ((393005614953947162180594296658668638679982113069410551064570793797101691627860236719075936068996548655644554663255, 26905323830850281717758131577466453645379464913494535698258393025525516725133165698786899270744700294648711507698282, 20548407042858898467772922400245825124632904950045662029464740026086142803737477699397296063709921454375663621923828), None);
   ((15918637622403691094438320558066703034785205646384043234670841499235227920594765967075705253051859650106336545675732, 2762979033950842160055729846465505095911862396887544480437324334660294282210636282946565715021643520155164990611482, 884158300853793662521314779245858094119451695387090910350909036492299688910194493489565286155910723995348022545034), None);
   ((20790809765911864252875845282835906774409829809439660805112672245406465735570709335651222107022033968156101172105965, 4236262425557975487941217043324375472728250384943716900937386610934689352306603351543837077205538771851652705357920, 29147856524195061056486631723467744067587425651150160143860969221458623912746358612172177373617410923020698045292943), None);
   ((35008544959597564303666608060407491230253489243108354333862655158138840347013983817310544639274600042431849670993515, 966366352301202952101879294027139253229631864750326532913557986943862532474707394478242628785222817367245729728249, 22628041493577762494696381583459568667479437841604631727942628127109464663377316596451009000254816184103985475623060), None);
   ((28119236840892532788680489622324699822495395554519159980993038484428675296863569870746892155128293673947579692777260, 17620227302563499606992737873244776096717571127586568715808672635599759186660153471770993000768696591004440216405543, 28651070501321432687280242918714840531564218374525773800264956559306075580041080625425538323290338710221303315546375), None);
   ((1252953218616509748083389659001962840948892474798374263655040256482995009759675161241527602822467863432492513992040, 7586750703136671475092879324134545849284482644860470349878688605108877518861524687966874037446533575681312650388088, 14812250009421301293931421425665640403819428134316479881334720094545977776141898205679336615394775500611245476649805), None);
   ((10871231039643461866678568520569726805772190702598586730842504849325323229404706816002015898020927360143067718291613, 7127307401715098720377896754745480880994633062928591632620222521867785253577659846685323897262172318367734540946567, 36342346631956301904094825103248612730569337383747140183708939307349138368690028914852144380805973412893305230857277), None);
   ((18609448513077064732304902965135343741594918456186291386684518199352992512331975691142701289611053355472218916157341, 38007328930016563537646788137518111342408629916131672110269130134989803211820705803680722497917299971820668018684880, 26852185706972522695470608949813511037340196825696079032866651246993146529680020736164148896298914505246970294215361), None);
   ((20432856009582005723133417869522580777607495118822639572348274098784146770915800218245161145540353469164691588608100, 6888298413040694561800084019827686458697265051242325148129945216820017948240800928641124720224080502896029273327934, 8984226398179908825219959992799269393298815419005941884347351545336237840984909878450077629609769613606877565394760), None);
   ((8836582095988510422742518408641364814014173410261949246102606439238064706022250074660898730226117932776880255192789, 17186667926665480357630354997322139219595785273579948040533212256179692956709505832598647896071716186244261585367004, 33537051072434020900192303105654886913040952629266296619821330738025775617775307002389091285953122484473657096887712), None);
   ((7794126224151654802301487084894828738585306439359493062791294712283204974590479809996502379935242988432405110963410, 25855255476158668876997444562266117857225108203146212736375409137545021005359440557113325368813735676120315860158123, 8048530227764527088699411384133831372516078600208014545510263252125387077037797987638662905324424367806381857664434), None);
   ((13282001688143765154085524793616755249514271019828649759046109909377761287001546671444328471641552829086698341968125, 26847807099212506369231586316558468172603945828079475591840627244611958892691893774911404037149585112428890253516937, 8059028709718946216993351659704789941798667130604635507517656519504513273123150863782727979441253776965909721553812), None);
   ((18339592890504341172100080621037134586548874473216686890728718069367085176822145238427910200318724508968390301124557, 33612335290350254150149296155730935349632924840356543101049441271538197878101973739056527927486547730471146120833220, 34939335156254670745121578788250598654062752259443271029234343603505040323077014656016743101148859986101516029504043), None);
   ((23973881118003136401823523696661865861340233209471613497840421877314069861270393175746090025982126769425408296590691, 2283934493663356837836608648322517385789720064785045127687341868340965959709205765391943089602892986739824610264771, 10931423906329652473060212229279351842069224241930406138741394351047762621342723315338659634612538785156776423668328), None);
   ((19308957042879265460003521993718858682391702623949748573499817039450650790400962085379619691294815546490423504842232, 30696477958326248866210498986755097414266852482588636617227264053199226010871988266753972204886922373972636138535640, 11850651479933712107735599887762276770477704541913855599605890893954484199160050212310315780345997944852206603616168), None);
   ((38669783845421828166898269949728727119734962080553538118389292698626606571013667557406000300293883479959977566095128, 32780881479192779743920085451810145947341276647483515756076753287142166436858044992376929268871757041760699250958102, 28032977119077704426999525347570357871249616617358566034925166464831169937216375581492755433110929885746968764817715), None);
   ((29885002133710963945870275851588449449152710654022268242276027413596446242673838075485393091871656483962667445620338, 8069792446564008557071203017976363725248514651458729165748098233744530357543763377884152221299518188710722571156001, 27908589213691311095146227035388110615392361189972688531477836580358001890178852781493262327026836815439217368021648), None);
   ((2851137983658982077875108986073448159019108605450478751425483895103408772671382126864613593439699903107662696522391, 11326291359702403661333452915017036577695233826458091166236605876378235822440547209427812840765301278131069969237156, 23708656242031399838876713996950623622774680477425694790039234217832976052065613986639672702391093867234782557910234), None);
   ((19552583543839486938737776631939113446523025888341108859472299440103328553319390764523419915612224455004290022851251, 20812416102456067146450936379889230311855018441650859616235488886697593770020070205180459610138161371741050389057633, 12408212502625629569419536566103503956322986820141137400494539785677463665575920622682598973442619237034312905679593), None);
   ((22708064933190195088624028975742283993484210015582861230990996569937748980575154190492610117265595703393003089788098, 27348205585076568152240716890149611648528582911943621182527940236765026863432753452727848795248079863413158559921073, 31726127791231844491870167643120879458440190975064995870169248309967155092102922136496852988243243544615794966957659), None);
   ((17390354725039537186045147181331443981188082404843247472286742735314211435919188664887668757892858435499829691533852, 18171921773474539355156184709836277811239127002953037745310588897785887832360741199283276030968512691593329289526818, 20453832632040796632066014492338959146984996868152597718453663341809078968464716994030320900351518790008834600212428), None);
   ((6765270462151046284950391261215490480352153437196501806678713909727987772341707239966801514087520456516017018827646, 24689121123719880016431086776305107484779610597379956491847708901213613034730391569734273413888180679454468260930609, 29342130214679025098741429219296604229457678628519027305833289771635259156715501034808818971354525622609884921938554), None);
   ((30471986686506303159044861909670577718792411119614046590995553107766113971287796031243018608641411426333266421272817, 32767809278343454206899390657269595399119706459284020249543491038173452111102085086835428506032827719543265411847234, 23205511817543641786535219495185572002590894313315919299371517110836103834843476235640606858437493859069328874812623), None);
   ((32764596443122667127376367647201938592302504934332777126611021759073555988964800190898545310473207524184918927707754, 34711505366470971874173107772143242053505812894833090864368791228942151139061089762372005193361936255264704282152368, 6614153318529748195564109452548593335421262637068106058245473519291197801597410830893517079309038246544300649243130), None);
   ((19936905187825133157917597672507370938919783247071375238045831560462965339292395812792659646525081657494095180498482, 25094171533844913637999278636252746086159379906452748621187076790001521869222316913569252232019534708742574267307261, 24450176018929562155323412750623765077764750209891648244614783418025245263358054796759940771854520295172807554447417), None);
   ((39104714558033955228136497878100026847459545410619434441569749509026268297266212477416299351058387196853881799105924, 740676430418610128492752903180041800700939797586121416840445373102711763932487725362703208950052938489810842258788, 24911622607487678362768415733440339281787681828233813171217665048427619769367900550225903197540364899160685662677695), None);
   ((17647694901863025712980532633965635058083631986676547219882007607361854344945128409430564624597803642696385788407247, 34638305621089780828314138923281561169085574182558972209108409534941498585044589926629969464020501546271872999503406, 33230096050794551018562575770832013171942290731976732330752392414083874839461949348945532444408618160504635779641282), None);
   ((246390310245845744991673244919229317993210928839233993575032848920485426474885967890727781426875728096643376336435, 37061801428563261235683293242798308847324223657365366925513675858560136786911347190897780463844586336375505446753137, 28190239978876547985149954838382204719352188969250888770425630598280425214218414764560265459730958971013929259187083), None);
   ((38954988211855070324048907560641864714234882734436104726049559765577589564346097430785965118043342061179267531099728, 24411999312106608868334372984020627462074196680743054852887687267260726062538535424008598115323801331353592655309265, 37700148519131509693869799192961554036401478136557533334339030081129286252209172926206828191212830667022731946587288), None);
   ((29191798892557618726473808229910478022000476216804299949720959945328547562008942972661290861440379124425867649918211, 17629911904200193120545088501751278978779738478779838093836567987360651299332982044748737680358429546933460489376221, 30904744317370922470969776736891926385492907039412095120097208990747973893814377869828142096921382967509255067444389), None);
   ((26734201891152911002877389264552060906523710374992248313036010461148728567996258114262327396701388644193610201862378, 4060038484919858131857793420691149712489223185112314483876565090724812848383555075243198146608229028584247481584810, 20986387451586767112334437183144397713101732097043798133646288563193982786950495331427749181651561987046534473129686), None);
   ((26102946228913489479578420574721816963924025086218567662386959745284885162776751368290784950178459412453228073484785, 22421319833057936422324388725117540315819628797714657698688846096196348983691949111740822042007307142270961797089818, 26400955536456319957626738104187090894661955630842490382207849266234557858268405611964452951928052516233899449236922), None);
   ((306215594367733571297224041416512813672896452856121760094763703796031874242370384278953093244565205971620287750755, 37014751753220806805580624420481592029969084918707597033959021439456166334746277829228527628122168290186335977481289, 5315231524411288829252325543749277021885438985504009524897043834735549481171104912725529530799850650979584433481006), None);
   ((19923663269032608935106515424273412236794731300886416144204172810943411262326865517947028274764365722648644488956075, 6488716011073668798266269128698288208412277004268959284089093364451439813210775678472066915157628647911632880293459, 33089109324260637015979862379403047189300161723705368546716250265885125918842833580242157009360791748512659849026870), None);
   ((33384852671400155188790426706593181823146408448713489183545000934346834168781330150536146274898863682918227454399076, 522486025733498672508051401636004052271844980738481293434790330405156438801394228645805819987905838126181127206215, 19873042513043855252191306963499666585336215792006788933209148483373641380019895124207965469877261871469148932327810), None);
   ((26563335918045724140538959469035242256808562612999598820844510616429707197288178214508605896993964374537565673493765, 24169750896662282320863883964009849864817190175868826857411012324577542682052012444571756002998049711110707356238542, 3806125190044349785037345353871775622604000541855834624476464335076866490507026834138378898594135429891278040311759), None);
   ((24455113224222023819183402558072931338828287636798468115650016421977871931676450924592446141096963226616584685573692, 20295475313574610320093247900920708470562516161966012853485853289232688852452320424311426267547564456762717530336665, 37756748363360317576002837535802807506844275151353936668118161728641020363667471136717537380728774258703662514035177), None);
   ((23348302788578578937441981055117607962955649358542315444275937526638938714754916383664110759830086708978629541414182, 15970889512381428014005377378858206033542784421501061265314079207109204486963130527784527571340326944686175111102191, 19505545960927953327304405174058543929107242664069147899747519271679917867730551460147483283573006147935760780271726), None);
   ((21618165506252121162789801301733401954897739484269196412939524780466165439569137965143811960010870742696229576284456, 19255661184120789646807260325151210434679517393222246318114955076282187813067734138406867218802599241965764502317352, 38073893681750900388237907665509115391975434015632505068915997450846419793849534511900747055546116472785267790042946), None);
   ((7521014213326694143561362256026782830050679538194155550771875481674163568590412132177189080674786795250173599443393, 24594533801656704963172471571644992022885291145386389040222207405161654216431800037788763687643641308202213645644893, 830327719037875215799492586810872792338023193389418694991557032145596618440329692831988450793834865859125652892309), None);
   ((3289582112580238590452556187186104352074337419411580519256373945708623232101068754614902774658844660884067113105697, 28299987771706758673168092898495916388627158717527894876593530994336576405427525008822222931158155901586731138874193, 24181360125754294865736203770503468685432071658988882512647095990573910505022072449162362561456289317795637663089998), None);
   ((26849854649479069191448015890468313247815844461695683071364072702646141148251782402794666658124312321787931130692254, 33304933701791856555422445985874370574259087234199413592670155273559076220861411861148142126997498622217598917463978, 27710613783176853351868573334805157642474563370802900518854202328125809173913566407092513396565646110643837446479184), None);
   ((23799252398228323908505741797403242217346763261417358661902733313471541203360733070968439882428568781513491168026009, 12059780239277012467036050361446776005316809679588975294490851862862939260445731423276921562895860686687911436215702, 12687754779522248594352439089343809123937187030632784595472031610885545629990266410573982347986961626103235544694309), None);
   ((28911415629932789763749119070003087970986136075629704093048558847594286544566290832488835279662102129340527157224537, 16406504926823284280064976209459637251076985576501099357464398788809468242310687308557909683773333770266086887001871, 32104357621049497993988574713232919535850286661379595552298709961892888236104899963796138520419638440636435645478563), None);
   ((38831910644342812989577919233940102733659803738034984936544118222442105722282662522095002368504508258741457950536847, 37818488043016697828801627063939416481821396114177611691125137000962309548305084552534404245910262950454673869633112, 32107492593561747244994243850047459070998017163324024089749508837421033324998011586935696350900012052496720210013048), None);
   ((4337599546566061132319480056448107004816045486984881692211630099502925931047516912013412881466293233318452158111381, 30061267005220194816102398991670227314962935647098178562185513156841082755473773960919793099221974254321119541944898, 31823726275084704854272077743212363424458212277383123987624996490346140365304884472545196861276058877880556180729801), None);
   ((20193336569525777827929197230884390772142963869139999111491091850213336059483348644726742025875936682022200632989356, 12230524666579841921487057589310585335824873682799103656083726021584068797257579778156715705672256436073669238112695, 19425530819050605020848550022970396750736590435423595844533214617227381036192743175639680125538683843029744819394590), None);
   ((5609644212297625607475118276733275177563105594059202508575466078364766462227128309784017649169052616365109451119579, 26162446416460839837447422332804996569606012172402962889107220033488050504559761951144128868335172552125787929789265, 27705266958204629342622945620662650452816309680171406908786093844557374686030803489981058079797782263282642485942655), None);
   ((39020567509925207518828920201747832548411417337863993254489331323178139587753223782713708802809439229504670995228987, 27740885580978289669569896587151049063811727285835445806448196311801470582482359723968344236677174194079305785678998, 37825617406987987426275389883208784175368056859920636463761540915246237422333895879751708640635430366459039610813040), None);
   ((26256754225170053736346076075213822981727882623658398702200924986616434548020643638485676506473795564449357385367600, 21796360602353859537211572674132696301849140574514699269221751405635392985788773747894306069183894166852959433634167, 11720242093485787303941454773344977193652195831860751024161317564428470766419977268892755693747627754964919757590282), None);
   ((35260275942141303592426366037759235436387597887776125484284706954728518139928937603720859741797156299515086044350299, 21424014477216659112825764873711503484968974162226160325456005538714354426222990548320738547374996909841393545593238, 28970903485861741736709569699581407496057727536824064531869172192446025520508543106949522512561811914419146274747062), None);
   ((21354143010624690207490669987266092430227304008722409426420170425267425512837801957888342497489558444625111797276414, 12470177796544524519161651803093402699179546074652072097587557585844747019827979393226150505667309710693627773440088, 8995744654375794612995756714548852527233356550687137686546182569179320081868812319659551990951406755386103194118255), None);
   ((14066929634165902743961346073740847461927189370580572639141145358545063012649883012332809439421041093869373593501057, 6322400914822125246204523638544127746056354438067238149609105139499287356612516275263342988832549380512023396083906, 689927532213949442268370456100459964538925067278544468047175950345483419965586407885008410622073301902372441939120), None);
   ((22031546898394952073899355356791285889289582377350262245452135633883488361569483812721097586150372873853468344348904, 6972071995700959219884237134767671221743834722044452169301991794606733002364813743216914594244171858418685314021108, 7397357461030547874568287171459905012553558846407370564723122060927500342500480816128944925550503571033390279258964), None);
   ((20522982083841229483545647114380563200426571621360000999341349035005419191173643877645972223349715990643777382714988, 32225686061689526130644159954000005376179673070919913813798739027616079781079969682812840873157878344678940865604933, 4270305104221064263383282061048582163344627998474834287783638119719900670673011869439838503567846553016766915681958), None);
   ((5567003563451720741562965364631216855843616102337709596914651824414284476116546349623853261150811186612276404835836, 22394512782854356676482928595217041756841461982961984981285284906568391164683779339376283152477984568773949869321578, 15512239101134548596983927319421185667177531063939120007032805024630895914865940229188381846923824009643946674966492), None);
   ((16936561995559673583812464923765951132915256418929416552303269647549649765545974692286001312405042237750576779274225, 32375287810815725649152783704996375417790952674246293188954529315385412694066007070047687227061552313971060329014430, 29815426322054551735542110977259585787438801146458640786820900063427060434315186441098755311217847998593087167392355), None);
   ((11801266013444816097460099305224440403585996496361515421654351103821372387643131275719137763850705411016157271308105, 1596517760346692191053432043792960178377216876185506523404030519901498625339218669273593815925709082544875558277813, 8117897319432133157277239070873683081966256276429542494707039469879348681976954008980738018744982965058580344502818), None);
   ((36817320460284847856059081099716496561051795147732639159236444423043271480538911632703343328317713328006737245398218, 18399943828344686305069581562885880713926329838903219017981421097249674576551050397555022616172459824343431383528666, 29283292806091784858742428019450258772235340868996218663878534311790655657609081960186415014050176911166682432091647), None);
   ((846692279166626576068078046181608691656911817090339148306199078048417721862489140049655623516477911314621586629771, 4066988295409859864942394848481504832281267645631738952274375957336430709588310428728210756203999609687638005357744, 31014654318406409717116003395413917408968703596178824383734939234892068251163092807366639599340349809258615389525347), None);
   ((38477372613902332263341057234662843187676465229301840718191259776874972639311569232895581037370393330512183994818807, 19884252889388297963953464848535744620179635360349463964423963076236455288368833042614906097169710463809685918517316, 34463952859987739569726225806030939039260801274202969094734083623325233539430117096977932816471483469367084218147207), None);
   ((24735703043618817071463199562347847336078795782753653475344609568587203890433594944879462986123369411416839465186901, 18548807058843862779631933808454184655131798194477903758383226583810806523893484834319879994599409998641324152443811, 33476363752620578329706010092485661716263342020747955905361444503039015306932023968582383790949610980996198642876997), None);
   ((24444302519052905931988422922765236346213083818251788876736413359539401723826446061299205333095686720247764224472073, 2999540849051103587699425496358573287086758803820327044767794099938286141373789653530526507790956219924140375217751, 23014145076317245432072970000619755113300713543449243096373228627407620417064909569579821172351662307712425677364943), None);
   ((14597450047310184691802279767974112992212260558267197400177441867266218745241229512045609794656127977953453774034409, 8117137726798235439563265169874919901878645526467333291658595971470692645454000430711461416903384366918790697062253, 34430689001712647517134201956421380900571451140083341339440663668903576252201003670150485480137048021051519029140252), None);
   ((16260809869423473254917728550756932028075292574979451766421466134049548070237590106027837293983445897800886405920138, 31357539707505669057929101384871270611691741807396984402456015413531256993029922291709840013031522297332604095808341, 18112888549974165842989816656066395333004124567346497169206567951057127189953490891003061887222658812047751966286561), None);
   ((27797630105800999016553871565216133673012244386441161901985835248832932155963073119378330579684248365899346882199237, 22664551415698522943918775873361842041871351166952674054325395669417635188109698889992517813992037138161378463049852, 25499842406821870677231232325684572126802237750858768943760773698138944984727391893704180570025340770368799723233643), None);
   ((17248316785374197760816351568928048048515481940520527971887188677263346237515677889557592086223481852340982819658094, 27681458033825848608123052255359874345692449245835166220292328238102199392562351107185052184264329919340989069809282, 18118043378983960084947988858265825976434252773243237591113212073609425223385526593036884300364659198837161247707268), None);
   ((24538865277701686974513644591085191780602877757072199231678909822601241339182126759761627161151199752418914459393288, 24853324028896632445233642401059958943100313709472734090185531289409782125049030227313159755132323502276844717682624, 33649373323923893808975644167202517251416398744267800617632471898725183330736705373669900724853873773549468972774879), None);
   ((16270105156625834193515802541589265878705690086716232706096665511757132731858741245828691877089532091174631529792923, 17790318769677974147158337993597157553143779646862919657927015335944708612903631813484519100253926618368617291127516, 25349298804777813081049003678944547748798651615417885981423676639702469027096967102258847313358332578019273545990873), None);
   ((1938645022657162435726265016906460994792421960219838398143363598169151902452733056934242911375447854109236458785111, 34185369006537358844953907710764091576794881290764102901569854900596424013565488790726777585163721100380665427337898, 29969617665415198162466574883977869626044998541564790310491846065947483329439427091685511876740393587989353505192466), None);
   ((26533199970578332797904398343821770727120274208396478235242630531103882797138283629321030455664285396943805977529447, 13712176745259658062733013325745932597796056487573180476777919981551673691927761940469039425719456239331853754283085, 29558900930691759739771862044764188158984414044808194145723528992531008822690417810365109337448212350946642334141013), None);
   ((21981523214500046590704435357472341304659550413674971588613099776810050099091571642378158150556895077234516420590759, 30594185821152194533770134964161345835582785879401916516611800417265749615782924834689648173001942762831562243621585, 36915224555637899576419698208303277818375777568398199505884706668714512601179359274631832894160141895359061941344502), None);
   ((8536363602278925955215670935472035404236467224787970030276145262034887981725709988070134856372232303583343943780810, 15680137019657015986463134763933935713083163024194400692232274450109602219795722653185841969772799125022537373778665, 36157240083330549747262492543269573786908847843335247142011049845526903159880329838983553130295922928829114245113613), None);
   ((31799290295665065677651419303501896738910581762854142785377242989375735113181185836392214588562152415798186871879868, 12842674523515571433023393654534043660483317684211755780613525179694371723557832441392239742745926306046126768602860, 6875092212252721097118331015598763863643494610472187856028611114736925965917852247391831103102097803858679065498035), None);
   ((18046454749674854804027970057231643168699071745813561077740761418430897257743658413250392982279330507823043357364062, 26634758957896883818557387651487672735383376520486552228653787009506291714284268692493911237333438586371181626295484, 19768183307122233314818949332756616374401384731039119801084178354425867576053552724210244080778998364601183492998316), None);
   ((3782200160429056611601432666466291192490346063798515110737762791519853869009832703692000969788000922394464962020988, 17807839725720742947796634579409124836440389437941616703217345390402692669365660628192240230143235371085956890008265, 27446289506585277882094844577475604348557105412931950427593120266564979422801400411855843386583228444761611934208401), None);
   ((22256166393351087811489767181802117038417088318363601359885861386271205661515742551864200225052353942453178381524088, 6831458154139582838028010315118950922462180201941650309739237106725932584596311865254546808999892544670795906641815, 38710808756540868448546098973516909340448207810628629487500360593705161994095202924276006981722691509172709242786563), None);
   ((12617845395826023247705723537973085663696651794568367869348858554829905943605651143837208380683088035512980787478384, 18310311367926723590048951875997609255727520411038017916935076848279057924971898845248038848205648664874025835230068, 20309011082310764892037971095921422830829739336735195544912578510009309168622026950321850636224644762186796996106942), None);
   ((8934355137025864121277333271160775357807728922862073846036228391487306914974145630578425124107575829493728426608219, 34035849440262469044576104762762501277507547699922168201568147844237453538646765964539214435609531990416699397156931, 23572017014127298606168900488846726936982653627603890183551818480873720813819071510992269641622342451367101280995242), None);
   ((15607329720361269969320661357587140480473474386066003177029072447065593657410839398317579026572897588292029068829807, 34092183252863059571116904093962439224177494632424515429695805319126555053228352238010804202062996293936946404713927, 978307878307563988336973256038157505165164070741651087905535998914461922419021383155415615569188551290189067052030), None);
   ((22015613703549707372640112227357496107342410048990751448707897423268854792855433166688612220301254503915555236258962, 20859452466770270153241042691675193102788168306291377866734927321031486983972761428155229230553502885575086500052783, 23934131924479565363433655460518825119345307878923069451880795063385908442075777604080067611415044517054244074844911), None);
   ((31477284568632484328369690361213306701034363165111336075048316179215898454800182079618257917688142728601243550839651, 18283187518100185259314028555380227416662973312279838944958970813498884490541567134590535255632869005420332979641496, 32444113036833847972453779853269878193486704142750264735048604343039538588544852770768399172290771327694459786908144), None);
   ((12544148611330493863983208537870468402147814643952743585535757260378959048797717847036756411599431515401258994892490, 12261252662937322500084281171477239560338018561613871684152188240911355398294283165654003437165791276062324646259973, 7887414368698365282098458431959585999676741167554955060756956949152587270223444195105478739908602584250079907027837), None);
   ((25866551670105703600866021334189992428918315429393833347054024766279229632201954499572532031048947489952019854915940, 19457483308210025101612349208079579106987805543302034961674260407959462479688731909935227920046870005671410060091848, 25133177693988080211456597812437672090037067446570943158921470941075363511723576458105773337132337178607690964978793), None);
   ((17404535393343038251188429653013848982091121670793394411886806648033862180320702459248472752699264365225356454842667, 32961674476436086196716261760977583037734075884998442371505846908956214881823343140962197161658429273812721019036587, 5109327200004363816403485078686242376479154797768732036529059695122945519504949848411408844152526713183709787114568), None);
   ((1744133192440163427149555949390495367026429971255146640220575193753953800062806748503448206732900591632562461904450, 33686531912403509956750107135184620194301078859134761898245264203182469820848070822242546281219344821850259120433043, 31221467792910812792437495931686009954360494765405973044576654192457527233549774724783659145602452349861238286935086), None);
   ((3756862643251636251489001210644032839121111530743009329767842555600389919398079037836734411805420013459131343505890, 20488999812569614287086203557660433752949616686720632757692113456736763008690993154858193752976040593842621025484778, 14433613259647918616366370820762274862279739618003766613273945541530787577960376360589202085977565667754939435182420), None);
   ((7046157776822376395415047490689387887488961456998626503636663593707480253721631508287255906752624465850228470006125, 38482146569659695309206830240915709019950440143186937006426912876106352843598491223246417876521261600441421001070042, 30031778559702729103764711807829440965156363909644507363467393296976944237511750581331642829257612835236278738922040), None);
   ((11036745147802459452114229533290470652239225761695069867800910599332248887574005033590936674892320292909408459738256, 31610983299597510595628704182292173886237266991627593849714226971260678599945562598817195167479642856758486528497211, 23715905156892490255172893223089809787278703993169384828609450847197913920122619449100656154861451218241602093500175), None);
   ((24878203336057914820810600154723768080466317055387936630178844235275007667389814747234754695732818298756481985998825, 20068516636904695633223861636280109328178862671717801547692661654877474932244337845123305583401366562179414190533925, 15029598375712982960142656600041397652581673634491327724994767369536007249922120691698890979056924563828750445586806), None);
   ((6213722183097113588971811873779303484025890948150712973680509717376210284539696536784122786319274442242742021026388, 29800439120167702428720262112386561543222335631694676980504248111652014238609811792419866255442967720336350192581971, 3532803978117873830102656264949890445628401255995400571765748658786069872297730484192328444420680700225129231715393), None);
   ((19041989570970865747147665751344524610987357972587520087554208954925205567100605389095689799845820466161923821863076, 23929570351368993917053266764563177670677122095532843098315961066844847332889491697763726866716544554220417696823672, 27774464615905384642525365888193412232700125081826429222822225566506796733512777743435043001545378360254584592112237), None);
   ((19748060883006485075973682540927355253697047664483884972568236567437296173295007959966153104201391625704559983555110, 1286500035496250958230936191797882966681195577244947816895874263643326819300668782639620794505991557558312277840226, 5539049512799816073111743073620763279723020701627632869699504354877899826647506541699176425290869777757711676671465), Some (false, (16581487986484883271071262990772700682080167762051275302838326932108895796996988266812909926304322658247737307282019, 20354053170230311681750718965710619402381396533849857202904524947274725938370230572997555747694647920802134134010633, 17246515195299981445528414676600511511863407291978736313964647247143905894130961907553312642476913961330265140520057, 19384015826119350592041868365052404966358314347030526833231048004670485172152945251312214396216205005421061589121536)));
   ((20824816760701867577811802749588236959644600064595028370429907468775731631371332623327432606116721640913809871527499, 14451922429245033149213479632305868207660550981513546328909857426622425628479456005058642138478721525169581629287158, 5160724151343381218403542917212296358747522342406674296073405379222676233402228946538348478206687002825522813962423), None);
   ((15487283043645889307005867749654272357046709919354596661648318606536896936178407875380925400158180107843408483616196, 29492875021944141114915067397308949097845989866310732157087657925143689375833975078312275976883712050903498340518378, 16054162941752112974161483402498268086513769907484175538987584349954191385175925570602171901532079727626658410329372), None);
   ((20383633290015431617626193848348149895643228992335395310274615673219863973766188625073436929642994045494012684703454, 205586945366181588915404228963478755260286749555852089321731213380073978274818620128478544258007083265043434476537, 25345197529073757591543120352360131878173050445600028903825284207468561712623059705242332735899940977036798201158205), Some (true, (20504176087640145897256658300904752645978894535393425671439427505339073075307477697780338001497218756922069235780492, 26887368895380787395820015852965655976233181500294920661688417907991230490066544928965107574340174019307564935696039, 7100467054402260750373509166451295001597450466149357904781244940229671113020136633330316543170919133419294519396276, 3112668934346941194645086376189367842628198842585134883872990427973776628490409133312432643774387147975307618254446)));
   ((10410191514928000827076646080445644583162074480043482617704482632143516909254382124330325886634594371509042874343315, 30937322795447918036511116709510496138969244345509968186085792534871742350194230158655537424305026069539730540689088, 16217716938694397453452363941217371691427478494823795874449099249519232535945033180216329161260261899269069844950867), None);
   ((26412407491623040037632815010205804259193502531391125300517933851070064610406394847005029477714784150986996001627775, 16191724232830366092116210119929343301833601777331406983759483642412687457998770939427676001995276639985482339676144, 6209485624228488319052211811447051410503241398558065177962210611174148911347210509136658974822522769766017661723609), None);
   ((23639037626768567115161076263528281872869110859315925451973291469335277608221008611543963823050491976983041740263510, 4604916317898922627667814348688612063829851709207683287498608372135465961877219035475308564538766734286569398323380, 13943980514856848981105678800369542529452501774367660880464572860228294259911808884405012559423536164382689184360206), None);
   ((22505752509732095674058609734253450957386635813984205370151419141727247121059848047287583037470219533560781799906408, 2299020362721969321592570990406437859971023765208591678770732463443666184583517723676557627882763002231966045538936, 38927179854891675280954082094552027731990285631721027032445022253693158444762786324479921829918837652293602600961270), Some (false, (37172423723557391712317122611440520828660323469997343090791052975289841472120800885626475991330484204978769045640171, 19584938481229024101677740042568515746905036630049594144023711364788866089780737142457291592122892920710809592444604, 28996605957227128565538006434409147014610636054065850668688188794688213302523165067088269112551614288192395114655093, 26364524092433552181693696333761916037070634476049432099123038364995325308327003492153302137461734947700977158269600)));
   ((24444188250994719618880255625996117858194667203360510111668206583970049593837617300785324359391491912084917003716718, 37340909549835685250546090384198811131868788363568477156791613872493031243712096771884162665671295166114697796061950, 6822045394059046229647477863031464266867039143058764749740784209973311310054588641546294254431131574501290423227508), None);
   ((12246875813330355417042224221414911125877441910992000085724032710138133567328438748922362666078109284862389803598145, 8596871272781583275932408696264756800322772084264288686030170145567854258714446944721526824420044026324317557672533, 30224444375419625844259520086434930974503235914914304081272976074109476463373736788258608529643810539346865722231385), Some (false, (36703920162278697248842956433442575199405988728863655864386488142639827129873492621173647157397422617769634272899000, 10654124228819476382317912858368066670835107538035826932156549558018476483272718554268279417789061462333547217530691, 35152245568310786346153259718834677252051759965640393031803990665862563300149831130731318492034336756199024401651402, 15846633601120473385703074670877416471361459483553259041368291117015066687369100714829606241885173617867049594237088)));
   ((28248442678541025780689987920206864279046317524312929533147103992339264353801052166679440537541061606893842450450247, 5697325254137452025600254844304748626992696522432126344431498599105343110242163827341960404939279468166672023519743, 10566171583745981947128116253332931820549067668950949630456305826587027965190646090289780029702006698470524567131232), None);
   ((32600749895135539646918345213015084905732015264082209844555081463731381316173447625896868426612063005758248339856338, 15244000791947640628148039690050285366264661911813515785617845945808451366823157911256013824690761109470907208285160, 15923116899570720689893409784291717672834463950132931972008991469543929807802783020193627601634428161337591002701530), None);
   ((12165531293849598171496302820668090622047496837284749631101309323414961538824897205698979556921548440766658809419316, 34712076491440681575017709787682331444717264734619062556236613133603501769018645801282722398298782206139598157317738, 28509839531003888411074770109745762881188634911577803308145921315766752324409340511583265794759142889516116694933241), Some (true, (32285044479994496246127307242479979609428795310621009521106867759760803950689810029387459029716622596395992303120778, 14944283147571255654205534722538123073800262657424729916907077543604157631991979245172788026418036039533615068990391, 6534794138934540205598643043870366419289382947146326734730831704794281385832061931464093585147322604893544196042697, 12826134356937319314162748043858535983124795479396642542520605510769270306399973739174416041599933029514991616482262)));
   ((1112576170633445677546378368344149581357646285520923051574007340903174259471451218608233192864950758629077342289345, 30428472452187155107820246915697248562438918717434769512880690024978772616664807451114207884045830056686437525415795, 34390129648714388717451529324554228226061870122664436165912949967701268464645189344834186536310636861709385084503120), None);
   ((34368319641303145578892456977701801487959333933902555750258944270270214574049761149596289231736459958386137802973379, 17889554884500007546114523878745229096768220696966270337709934338730465383520548969631311898750987427999153836964819, 35517973261408279187960953117695802411522539539186833710631894071710214863525063160256634866538760792413361978651192), Some (false, (2622159043625228468089377420488456819516765380569557219627586735324868549669243433534497855567920921428088857663263, 13239868253332806118609505516957831083509369045145974588458695409463478658740372514664086724366843896143642341788823, 2843539313530720367225913336483444550564425245268548147645631213434913411652061188843868047597187492038432933041133, 14532709114588999974587202888418529155320402903586749602524266451512215892090671931686643257632147123021436828013561)));
   ((31064232108045261242033517393752696858441220177746037386322031373361762250219909474023397139527588026195814200839543, 478149439145176991661085940319340907230532146419530254373019421804992676492959357575008689781688216796636686722811, 10214441756922645090380351437458649256457686976841669260421904666721555793785557699650945266169316197111918208269800), None);
   ((9689724087868656340510607908040161039580879854231446917158832858708806182534332563842835790376329878383619731344259, 30070801430090995525965504486645750902997021809515200699786207361893690771527489842821766938812640857167806890124306, 16188009702019096876526699118109599722216843641280906602407092107251641876636075864089305819434201884344694858222067), Some (true, (10838559752478812379821046008815702141500126994842290062253567244745245217048106848329725068229242304047997593588892, 25180499784309489315516836756121575126743260240648395844708012579980415359335327693196681464826629349365083849102197, 4765547588289294942258916151491387389417930358201577403660850466383342120074832070029477800211130923500239172915524, 3211464027169644501774181066667204173597021151197152339618168867200559101460871526546309935907126741759546130764200)));
   ((30596889647039179536785431787122012554775179230740703747513009963431138099925316875195282721814354151751761932279383, 19066840765889388879194428846499495559115156094818134595536502768773230220973831438229851025968044096587332148888917, 11569149354691325523779111452122416233066885931138841791437712781740159037126228498279596364955962192756402469591865), None);
   ((10806585408376051668283273683729574552618997689437154628821691146373033865329129258857404691667584600823967266251412, 18391810384413402460560914692347371891810875634297217933827175600588548774817103767735318285647699465989000982898787, 6772491060465865969285234410410950457064346958771379391563081226553813696844195277290374932536729470385570780959349), Some (true, (18972082920130377235085627670672662406629606515058627070045601602496518857012232886807876356650582361130412646866222, 35171994179472225257540368713274571270752933076453851413789517296539743078775990022046237290063339935492569391388528, 23205204001692535916311703892185192111365183710138570243193295882280886828248375907937410158203089650360444424711789, 18486969774049666108316095036983438016963589782412567987474963840180163340061993356209256475873779694916185727692644)));
   ((26042389873414190498782991673619775151412458104232903056940558996406671897713221650630624628266701241133523198000405, 33999677958957278604168377917929277587479661171386886423762818209865208572254568441115142678175049653133195293411211, 36847483034335216567299269276124367095680705000879546251570471916714061598399445514710379758140236748919210340997040), None);
   ((34049840389963400331028043702861763784060239908400873196589347734119112285076413231558697278086807046225962344325839, 31899443301812226892501903798015025393582072237406106099296942833383475533405576368945435470890636147663294958016766, 22497751582747355075837710464074270913779121489339737503645860143621074884195948474534968215853401083679132654052035), None);
   ((24117515227157168125559353806452571161620398426575187875227445776639151518651442007850681513373925178754616059112059, 6436741626226969016701432443767474348604236331589790671379277451287681213386693437638006436129984367505873780049350, 14045879395275872102610835788444942894652913850958362050415464735986726110850433262688869018905514328509619307230175), Some (false, (445027382446995914246149761122071338829240545442484203430539899775856101373754882033158818582303742137703481139356, 24798994640070943792017253126925204473885712804369128535851952025130811193563846621558979665235607574263343376662811, 30069953542389456747838984205794080953003211235590032139674060997892880485287068170408856715794932317332101083188812, 13588015226367770418979404785252330545376102495316953500512871343865526832935726752033821564804104423908018097598113)));
   ((20584879445730961296180911997717295233958318895384446119708546833806225325211693062887091909178444828331223306269785, 4916508323468502686332886115319541459587422654429842865314036052893870642849063986093086564086380729957626138152284, 621099304171334271911681630220998472693279606795122856726957675306030297254925455953321777979081024114530060285373), None);
   ((21735793239277374145030530317631467655382731874968698984250932993406001735475011707352983301454395085885059570084626, 37954657770894537925138206892686985480230596852088624039634250272464871768235024663596367841770759700192119261769901, 16040847835612749200319923050315675513803656510725694143246940964084192244026857489613427253125103122931078821603370), Some (false, (17559310048897505902748339451966147287203704282007037445409668366327382089010250277125266569446334186351414397303177, 445244847849370260108065647844496168811910611764064032281219464110175136187132986552186505902602178797700773340357, 38977847482240112220246297289178914489617035980770669671104361082954842610234374286301346154301466620123249519202306, 777564556935179076372987711300474427693849132002526669483123628771354798309159424918927127334581011467099419032044)));
   ((4419020426562500698342603035856617049329989779024679105415581587118870303920439367905786113842790446112945510564968, 35950482605185144853268704145075428776419027120456946762948609084478888161246794309935337546813427128110139682718480, 14455691670770937387722914525699243510336734488780516496642299086016025579420153554912206156502266415451446956996347), None);
   ((25307755743276024043825080132183576207805417281553261983604031553972478406852600899874426876259424322839827239613560, 11737764990867741142989667838682963573628445045053587346006461162896032045190956325210709771326744525321461813263235, 20998850315988424740336734024041733499581758663477285422294845751022844975873567740627165477205402820276092961926349), None);
   ((13227335999381354810172205753883383235476507932969762024671426588881875354041504195735087492899756969232160204452073, 16517204937480318521801823981660318396775977617574891190919326720119883790243970618216484030274097948906049321992083, 16965214389816956101386075769145516961457378046785048041494069052405542727001595613156011239742073592612809339154906), None);
   ((12524036363412000333627032057134662252450704842193410820736392876975941195043257317941330256504385290009377317663545, 8414546601929804421798473321728746852690315727165535777587101743375400832973237455862715819603013549783060861675694, 12414201378394705028279993883645031706366425405175315400604993456019547685666202558434300860657634745077953908030133), None);
   ((33622537637069566368703328989470889626649118960029623116725801244603974085888205266353206579002382839702187350471884, 1846304115949291792074902527466916745460507999645139864347765636639405488237163415655506479627250377817540847103010, 36842830411172089970774625122261516966351106483360080692103002293582884000354925968307722894488542351654583745423395), None);
   ((35574726745844792478455546180976230197417522305623703282345457715049024530071562597929336458344193736765894695497062, 5760849550483479206610398607085555902874057712809089518696060656091747190635327890648623711521514538119749885708583, 2640630115601753773111519964207726733182196267395295530548987100628902509499755727315243066307022364556346581469563), Some (true, (3037935296460829780392998324529098499484116051342093762854353099524459914843579347009313386766422046839224557965412, 31306427692160092264071640820134244367374038236358070747751810673919028648446466042321418541776951863880992948007431, 25505065317808217923207705673610766755869515177059495172610992970303884649986855197290606107230359919136583132594511, 2902665151117900393838406670416769306827075782135205566447494490749808197740190418433944565856242876559151081703653)));
   ((6407951918225857105747573572470002330466732752109873772209781580516309118072599452504340820834729617779325749605336, 15201128748331066101490309856344824814439509677693416323693289853436928945928438666972355893827968310821651655783190, 39331025478307151008521901224060971264376546675852977279865321344842131674971889749075806058432665391824358893087261), None);
   ((24561522021571202342551971755317399289874478765697382670606935920360163919629923909679405175683357568113886275978421, 14872329504514327258798258753671407357364247404950433455779058634412985834873683401201176624845196599846682250503254, 20574566976147039435939459568410506167456591248815952443562580294371286946165251954241095932368944441249483459108369), None);
   ((6135894042963585652881465286364651276660892351846185779129580273376107311338513725584560175935968397533810924885894, 7705484458502744703123469925865467672928692653884383639016370286832343014375365325804497655683556645393179656020318, 10785110801204801961373042023794141851102964952554943854130186212298899354131141152168529824360861143756817781618654), None);
   ((19840452082841991417775880291583811111640620113429014198892334660148032201707260068252095887432601486334543353494251, 32292416821267672154061894565138301162727342639626092643217379047253547655400301074115138502704459098198760837648616, 23901626403715983441320258817774158950925145627694992783245965599292798731891754909309637435485902621267559803980585), None);
   ((34594632580184464148556648129478627601170305774510829610459198489210987338510873625887689883786383747289319140218072, 32636367291226128978246039499807620950761316504882224187458897263277905995185545093925274223554563216011828899842965, 24650750874466259076581736726162508916001891523760527643996660513504756676931612988770366021599420726350168812067931), Some (false, (12465150656724625479395223356630434998089287813333244841378340832725132040524428453033703497131812676658003926614568, 2084717018448027700283600325277440890659789875460402196382159521693900341711280268175318804767646070774424489563916, 25975136164783611447676077873417167161222837534416688036984843518242427031562761136914713021642388787227019255517401, 1518250254098548316380881303014029027090094751322711402537753417958577769018965210985017331502793537640157707769007)));
   ((27768945050820195879249960156580785079120432131257081686879773367215537405863278581582990484882990246446759185283787, 12557512548570400387765653807331015494904996083200402182714811801526521016153082902855329330434448886418458797152439, 20217173361650629217946230613509995369862909308406125208766596044628479512691302379969662615880890184899120430067528), None);
   ((2419377913510088317009796781119387353992028955050811103152367075263607522735766377572170215106389455175850145563379, 14390033428588528653770007971061894080459891816747387839172804901786033436962012610572850450799764210097675999066331, 17913092360159923566356992764259617797739881798555176646920510704862252059280739003049555339189871900216228889955900), Some (true, (18337316775563860967910843434932090479190855625095871432398974475494514466057172068449829213204884447064454346424861, 13079991082421576028842072016030084092331364831263362869698812441760565612398161973200964523882509555365449117093780, 25790838279754320796400475990013698701568935086731167697337637403273137575746238932552629190768557897076449106038073, 41180168961803852248045889391936621743543938924099196153879610323756827538238628460846065217535509331249154594561)));
   ((467658588473557870874722070819037576226983770947415038867078398199272546646878939997619132722342671748386446626339, 19259837589712032226451510524608208098718350648893865629687055714612748192509300549743914937309042290677501678626038, 22981790148256266417265863175132390417414055674776472921904107516664615591750966791537254290226241156607084449553964), None);
   ((23752425442658733714456417344328068428343620113097473835557846072602088757849783226954066620491227721812187928280463, 32980119282025970972807750632523639809546717553856282105659654479734640718801787326308883585886164147657080112374663, 6497537654317630084642430674564954188133249817091734683529851095101603038427397331405526515378329238248760618944205), None);
   ((25402416111950084941835950717247112754905806236379247741966760303248429553559354678403087312478782389198187901319146, 13300970646131275249250018381349164238724694420116450753946944737363318926151587133639868932983842497848128125581951, 23148054755625764275519135294783554183048513226546710863495222627917610404138416055369442417574766019731731924208689), None);
   ((7888439343182769347505061396157790540965602333151811705947430108890569119615027454646387094879583650171476746908255, 23733063761079619999021674658520021289483624855283237466836220151978776746755097013904534064292181976921644687066015, 4974637171182870046292278757707350573111409365768386145998487043526878087748704567902498309327826304718544963898913), Some (true, (38610350491345286897132667262796315294940738720794956163806935490170314244885315183755142448975221339638727217688728, 1991499464483975587238068329928425622400024885761679402697719031352328096767794218059913136120114561584504085858869, 4033584118709105130236593040671494423552592381631543247417848974684116095709982255398909113409245956799339766388716, 3351762726530444064671624392797789240937938587504821754476442463146141096211880631157294741387953861732074949747712)));
   ((32600896582162639680045630479596578657048502739128328741384478011557192744433330564920647760295771063603460007485204, 35162387245045486683139333958654919614342661951434456846851272632815140087233616994606390776093386302684901211953640, 24342908275810041259581644638360181345565888882667214474898038277119635519387477785360280510070691054136001769135358), None);
   ((6559581226875509200985216509576461503407700129495893193205913593125221675150718675316496479385517532069702772390543, 18083703428809023851813012461299305270424101897338860124257000264844980769353572057766573762048731157931336045101625, 24945725682272225183199709228106382885975728498904354066892787398105788556791271884967502331976468890960403230088008), None);
   ((35220739908051049139722905078874796612103927133014162449633356139030171463116313130556143605275064956321609492911779, 4023147214825003613263036702117546387358240626988999639039376293530657253861995871309379936133000051000358209945947, 34255690147627760127867485817894329154514242315543669365120415488933441939620308412718440389157020950897090831468445), Some (false, (26420295724486767243899971112926484682970837662329677982602592285669435851475625799216494511294376597179724601430535, 33584171955380369696263377443649394133198408675866078217051550168857244768441491133046346274342911455949422522212587, 15047547043972629531571580146350156670322179580091548597653465673809929108896657726008287676406747316635178511849360, 8772274860045266198015991454887666931447948617889215669686046123110950618402093065032289229452042233205057569436898)));
   ((24499230439779577783506645048748441260755069175977718454936350752133552434877050139423662310390828717981802406683712, 19095380881183808151795207527379974089620073395000569774144327080332061349431709395115491614104625382482816700996929, 14729887204047990230564321726998709512059760796014358814146810328792753019476225795666970008617129801029348381220099), None);
   ((8013161271119111241803139462462121502575946260784511841751222544356098227166164921935223340887525959095828602693188, 18032453909997146307213845353990863014546939194758751307913958783207000119216034025752334648275955313819924617994764, 23593140824475763044806160302286709855848863789192738721479715916396351754358258546366193373222139177835211224838854), None);
   ((27443328869503018515076250806236157570723077607403381496772997010683754815635076894998952162370288050405255538967405, 29744679085041076928790780361654790871846112472838015226726769021301436035849061629505239381560700903940859161812278, 33701039485101120115627234828910366835460358632471200885757785606793797837385117923196922856751350931179056346663805), Some (false, (31183327997744597718704064862420867091216988914413101846819411750492293342317185550004959117390869687532275749130096, 16629162685907575710346714538455347976431626543543339386970038145659510659838228667433604497342986084460983009385672, 33227734633184743365052270836513364166380748869717836320722998992586907129320177934198622317119040179629792877711045, 9114139603238090423016704353272184080589906417231361736539341148192498642403757011015390861060912125072769841420319)));
   ((11568567303060956818516524282998555640761456173979517337452800119717727496136711724875981049287657597879823167722105, 29641213193619315050706067336771917975426955991604737365450632230409331369111918097035054911477805875062751851214193, 37610520305012392565307521045991554411814413110223787167553216508338753298517572757466219377950598207108685336639784), None);
   ((37468628074452446923688476201054224279715553368522994481762562636255797694102724326792111733044644323182928747217521, 18746844261766019282116736971942458629741148793634178937499305706783904801919155666375544370025079164673892319100038, 2575505691742441805390315112244031324350091223820892399409816163847502887488575548395173634473384831156486817014399), Some (true, (24182425041324459547177868790834779494855417945227426608211274718380922853512871872146010495743683450951388487319169, 17398728363052936046351552325069111099101600021865006999666782755105586526220611751978275884938292891365438980302630, 29348100248797007663465531183425319190455317981474695742507360000105004153063875076781348289212225990833340079817043, 34843038667532112623227101280639515448009049328763339453534576150008439342758742694658381974692917599778346682035049)));
   ((36405206060507832963813173594206762966710832048403825729363588203803298444558299619352480084831620616085094619038627, 26745144576375376292811561302424221519274019542775233016143007081501623230079822701229765343416373551405952232099312, 30076916044596037723102396258279111149318054648880670105554811080005926198128206352319823947063016554915569397360689), None);
   ((5490783936751286349037913943516325398291276117102797447940239866130257003917401264850065625180499008839610737205029, 15265652251594425884410397240743352362195736276090037965777698073710366548486040827632246325556577598648123782838595, 19077819637424474513623525266772172782662106256936488815257582375051586118019554480767044035419040851557912465305379), Some (false, (16623521188036315410845121238824678781043710823105308862564374980898198314174800569969923813940603539939606432011412, 11785510860223293214484067338182475508002504872681179819141238573867357670531332453689705868477222008860049111781806, 18722149433281448037392371915810154803506174488889040282673183735591004894694901688219502482618199497847861537778653, 11051155787432935748555241955431230645203505601246778623662733441025530229005395112654753073190874299055030837521488)));
   ((39118254111878330008327742262516120101070462850529676347807005685590747975691537922285200395401367651521566465782218, 36079194005279085952205764932359900937149421266106920710429516469108173148277326505271481762523777263595624836857807, 16552032271689065836370171786432249766755340926378121657470369543531641878723969030252936646701548735740150197519545), None);
   ((24867448802266248306577171481303627858805781478697282215034788024515375513165136746934885554307603505306543013159273, 6249572593978944701257732130413096587494087829514259163186418751061027594207087828813413358791252698372130357775025, 33043561616581807963951420769547920429553338702811154406126028812199265340241071045032094142915611671982087045365807), None);
   ((1177678623274947427739086784572051563302004336363813770829460200604538998657687855589671555492049231897604610436716, 27875611058323399677268471033255638581570362738812242479463884924628411745700068623384464231902768879016703819140661, 15804956469503089447109792532726749557058241951032318463670007088789091212296892973123998498576749989515312310333850), Some (false, (28493372952451837882515593616898860585561108212633993278818288390969723733008871287122140930489878452675114661742105, 29215815460045900740867453623306490884523512023287936974626385846906407551671318493744481881831128524445757384548228, 28061159476059213658777362007707815102554530490020665750320103116782990104784414609566069732467119374025792857908116, 2741302055096018722061507152528836693462546934065507312200792766578561967746798350248387899149281607653867082451222)));
   ((18777829952935405193627583668582801755812847034542778385416011625866615563298351822214135539146102566891504081595728, 31840771455599172246303571010531947585933892358159323796287262036184420393850070220916615601801053594637970555253333, 24581947259409695784335881008151206061321743002171907713988973593578055430853674311253579664717317570927103475163669), None);
   ((19407444845869989993293561685558652526991140891053268426847919754491144015299516000579585024845014829100345675882032, 25777173461448849631843831520826608411545548916760434806149370877067150736939049518694119178557428614952900152642023, 36197366971386236359963199285659961642205085501509787920575416316720010278701603450507963774668943898063241184482814), None);
   ((6992655898834275329648904322956872291068118793273662873203539493994857354219594134475067699450988599726118007966600, 31148631362055650198034639748422829251459488996219914487363409540712448570956603120816338308761537415440200756276843, 8410855622695922970023983182606474218790801231950419767308892632076653120405416252257858242184664380180688717514682), None);
   ((2333819632087224079672208930337458276911701759536455018730039104965516785405369017530374881360757012371464848033094, 2099064436600582450053983849780953063071944397214983484398245727986682393823395558815839695932976047573857119453364, 36006112023254552287116534630494438002860503961426448920704492584875695286005980629261168918369139252248716496312743), Some (false, (2741301700947073097989022075093054266059405469946258674891888212716260273800419724395226453908417699671684822672664, 3405028011173595003642345486306699618122715229981662834431861128040446163809576992340267113326725498812585015647812, 37808316860510715646720097149521530024842340724755905219816600765886102144456885979795861812527944228351664540193593, 19110818956670110869677589908185579268117882124245410096326079086172035387255503957003299068555649546842421927467321)));
   ((16077542306749763258980849524453399168966680747010135917827437130236914713620935275963307485413612759552011105799857, 8210157352184124743513589161329008989760830277939291818634947124838122838030785984352645907331099031529737840469210, 36248916757999418567773334286196440363963734516772120784253479185195494485106326562173353060421293021159875059440630), None);
   ((13521880758569130188271532675383715789791645419595444846737931266874529034239498796675961900666318991073883666750496, 29448427974670046417463677997532830332007015963277073058487948591674947043347063725708224128417284216439347736241146, 2282054263457442940643584597182226671450562939116378143676413166495312017733488140920282505734989016895245765020076), None);
   ((24811661666362248031095573096255696993272984339662573867921006310223678675072658473714011941817226892800925263215771, 16791383263983154787602353101684194047502248095772060145838192266258010150776884824916754909026012894001914802160974, 10820522198279209823165404643628853535621067268058663513654620863630120815762622501372723063058303973197504669325956), None);
   ((6499567642155301575028356865517991560790388538427910168685927775005051748922732756633819982265025163301533194782808, 13700946469873281333398554842845644580006640326418721857313307089313041481051025196809832441168465087799492515178363, 1524293412235111820461473106459124969151535010095069447463324949281301974439644625213311079601086436392624033553924), None);
   ((8093519085427724944629153767837973459309749334390227434034066253140645532538681375377467266041769037144437729836156, 4804084387682260801173976903135653533295085285229692548606351659392732180675453470863710123173743984699535721975730, 21231193431677570008038197348110748710868591565271785071575315211350367030543285806409347706238920495646724074798525), None);
   ((13134328580967392370437507563380201047498217244989702293531596578098297270789815789023998637016101206578678214688936, 23039949930174501296371285712430465072337218582870680683828076368701826618580704290600651519752407357826015987560995, 30309376122598558965740384842082260300551061047320920911864316010894264785686238540593356030989167256863622937665012), Some (false, (14790851173612786215597937999902959400073491867710193223006577448522138694388797173345714439801936537106284174910527, 4583581695607430286779799491324485601421539699436511182640252734596146806869161170908212870878236480225863621930670, 11394693368526780999070120692051825421975832601069918966128912894489700973039074475559436427810335062340950677310662, 8817284278880703531584057842371294741444030427589340638571624081993395607646467163445135582908187771459044830881651)));
   ((1677984856246402419395263192198944962509633297572785499921206662160515921423007539474247691388658828465251074931132, 26465464732193123187841973497996415575481106013821880969878269986904896716597679825488777344607901054533102728502414, 14647837817413563863217562313769724412060096832728025792315167029646835679005515016913956269036694006949096404670504), None);
   ((20752759758644589315765468676926338026201963423072921318077800829900908359553453934305769157986712534523930585348609, 9154928830729991117604193187353133835160179225506285555196867947542086402417758042057971608910948961339604895017015, 21205768365458134021437565969414920248585585350474215250092931161096386609199692378268640899814994125091218363347106), Some (false, (16571235116645574702212145712479149208077352578805513092085034315683667758879257390827929662825468528399504742138206, 28143736908495653191764285384988336167458171847490875482969555922992944441649094054459769730299090894749806043220950, 32483738171046364254629584416449466968759815939699375313617201811479256896700706004837466291021088935290816580102186, 36325116550706608429244427029364544588709295884642693478441638413616079226543715924359271168113798612741887532213461)));
   ((5508154522295067476167349717718494006098672570366564941000690341646262126829954159736786192262343292638857036336135, 29514662447049205198731347008511843938071583280247214653829860171163110939809519646900237171964369914533977021863307, 19488299497289700992562840517263444855363461331536929864928670250980242525867759164510464623621706103069740439868390), None);
   ((14739331940306969608487341032277268846500937436347288924794744658863769653141414060402001774004664554242584017681373, 26219991524194789452512072887945601364178026309841960212721361450444619652318422949573645983451262684339483609122757, 21108303616523770547302534117325131610113305897591061979543626464011157443836531968441263004804895579374362839063943), Some (false, (25260343153416520576239806872139779690543587157775756122895928093347016494133200367349227577906721041826847675404743, 30751847932326597610424248522173735908997306781616048426315060046876909024339286309500609263522457198371875377083355, 631836325846552970866008063845035871703877934178487951498381055518829002962110338746876040409681366053866153696341, 34131543292490015310289236292177134472546490515535648286674962038284772476469024970040204052888603594723802524225936)));
   ((10977861456467401159929693008070985413704228835763696339391642803905645812497607513207829827128347184158932944561328, 19369330712265083915810872033772110062437373196828553398313988441350676737917700604413265602817705129656258517555223, 20970948352550690327332064759553960608761687627934889549555653210307329445592680875204207720628762436535566963085206), None);
   ((11333390313868591082805190475206186058442020316968354239990358735013338374285618793298878975219409270727760334329322, 5527905035904742231500715072368916807240145946607250740364544845116314322361396778541295851773088982008026482094918, 22402267715854837747410987429427141790062591984863568859655136648901011009115221598134242723211651288608679037674900), None);
   ((32725226340446746035247661760060303664443954724046902033757639180695230324897526383290452965527786865053315316231283, 35010192502406034280584389759706016718590359126126431333458688771589870834596009781086065595973475190699670931631803, 14851286376379011517225010673841721183905132298064774996424411442467716753175213680554974914327667686700302491543519), None);
   ((20134276430983438022520161717098337379710874772619038296454198988140497064988585393080295521244947219803012780773948, 4584826417203707418598356657862528480673939761214503798733867838705321520095132565147076516832505780688638283839302, 1722922725286184407573075010666901145029157019335946614059375478887911665820382379782711720405764771645199051640966), None);
   ((32001880955603342599012177219349524726522966301484588578545183076306539608663587689101862705455924018803177948263039, 1216129848458561517037785894099522776276932925912718940976062887890831396554222909837834051098125666854984238988883, 35529370064938900943238154753881657161509212100505403236805446949282270010988507226311136051612106442224926087973292), None);
   ((21905229466767655705720474216284998421966728886352175945655254553510418158246203653799585566573380544889332532728749, 29862453378545280233640753707685329851817682101190170899355554942219284707068738544763195578382935025969460953531056, 23825692623861559002619790427454106878592765744085517633073841371130874439781538573257240107197379040849684736061215), Some (true, (37691881549048916460988041797447221752615737400143655940309224276807085120727219399825217103116845054886163422986282, 1316980166214642603202939005548849279128119767737491811148519359233104967285894839208143921112498386221325171572404, 32340350871706364222738809606466506746026167231194788568365011290003395015413175108184109865921781091760964812940987, 25334027620792911774059146261636231406957007272980347905075681584802783972034703742740601195131224026797459117544846)));
   ((20497352331741366738843174407915263770922274112412541992675689283970401572758250084009113394624358250917871855347129, 264250084693926175908025142896010515931358857332112146181105342766022472884588502130562488508206500761329671189888, 4473948220602736646576021563778035573935959160989518137006843166347827036201173702879175906757820304664574321152704), None);
   ((5230606158624964958758602394891288375129110139181140172203094981464722064462273268184707030680554242753504784715827, 28241695071212969759273641353987008558512417173304796316261772625772649307969642344336966431278705483323318891349953, 22368592903483839065978478673888788657073900371841102869525691827416547796937039094606002898455936804643127865874217), Some (false, (26228267093482132391930335800407046775980912154253989189956203243584795164198335005490376474620513248684724431627321, 30830273793549898231000655964445499435851790331637952798710670657891728378869429952508524120397066498475806753334939, 31529161774339547645451427123438647874264751302419050475188686228976723954938042977601719900982093905481295137490277, 24123374850024872022211613515757969777910631878081632603681873048496651143556290835360772653549463169973514825106580)));
   ((4503858614339754908968065649478233578128285036481261446844727191961871059945417907084396657977917089792805313316732, 18344379021488253417847122513648244083874531753841197702000470403103574400710875939002496099124651359419428320064093, 10821741144708285572820378043765278361356778736719557786844473623031811790890619878486017825951660505493508117812449), None);
   ((37962948344384858258029905388217334691379667494967908111645548051832544514875947668230053915701094499298970409231463, 6294255369199142764714934858740245250988285934256985373408681307639948088129080821844853327104126614095260834142516, 25266020504970840464634169803063002023182380990874303596881786046062448383228484647246092998153330258312539556355157), Some (true, (11647602357717900767599396586633564981157108035851047501953180239496470391636995465307651563051104159038637353190067, 15712083653369786760111434044384842329416964680317477205761726869763012280697457154128677611830000428799594823765683, 16480789663762604635692352200787878887057639919531312032207513425982867276867218639632179168834932848940592353941305, 20787397888506586284409786590675854640268364830299017891370745380546268228526248990823516765371992950354837496911247)));
   ((30856588790878580715677137058608763766518967290070667101904470721550596258030726550218520088224764377167814910195322, 11069709625260799374439421576234404609325184065977193603967132041496648771849010444730156672558144074346471588833571, 32064570735492552016286308691380881836002927590501298377649100270487011290033428051590935432962381616994448486609224), None);
   ((24086425455060313062413215996613389629616403859335562971649149227782040096505865570184471548727506197638275325497936, 3027945701785371391634035478696636939254645802767320133280927413777479388797255413437894299730712411670278336917709, 14014046765251812234618639809516349576937465806916014796570334015253557714370251213871384577169702660570900089104682), None);
   ((29797330971016007988902279444690426960894274184678423577993238155650078341958646482940002903926270514714053050554324, 4565866248699324414608042584443901403378493806690003225277464082368118034464702124371527283919342786327766163230473, 24438337580391679892876843319824814466703933728278821071886428980585936104375536094138816309816616537914099531159493), None);
   ((5952207068062350544916880025211890581871749985979541906244334813554745308748026173121334175502327755836033606139806, 27107248557787291840049997082554538828733267845728530672571992875585334088310676013456127019391168166014635323606116, 4668966811702000882573300227298912532197448302198655821936427847480285112782226859129067766338253814196283212216212), None);
   ((6013950088616230732119470325006318990267022461696194005106550373488854161182111860333023646566955505556389202025282, 34400479909161663732894544613343673628539430625834679451290975375106280718312149594360380128025778809631353754281760, 37121474919941735330293353757733358201063283721222492693711919081974162294440654997487534287653909423401676065419582), Some (true, (9924687292873520016827819528511617927014271011621154283447952835491751934979636129817552049918199667540848317674502, 17182362208366890053062538297368245973420982153485222196572213911509703603250565982175016348132940330889550190202428, 7976137331128209308352052285957750946803366491704464691001822617870488356572429165145788585694252143531812727127323, 16612173820114288043206423133975509189836421373026125084988778201739336243903012176918322578279292456348969069794843)));
   ((12477654107300940461905377145998069929992790248466538823620526002672856240795660522334833750971137925610915665716647, 9107705572568909893011276215666788550988737525903866438316464382935560452449221132966879942326051352715614078854645, 31569270455838977788418025679073233009431824437780863306951608505946839962846618017536970499371456714530930431451440), None);
   ((10075592589371026403085273572127154184500723871773447402539254370187404457753601106559815069486029267071288956583569, 15553236533383958255244982561058958417913381198777522611686876794608419718204693724436920430466641066808291163712920, 453773921283675701408760229519719750213149939469779970340412866831266814630545946977106802153738047907451362803), None);
   ((15855480505657712668374499125035408226295354359296067401867683352976981296538543139403861151448591739912824012004987, 10543099273563868930312730742561919182859910123036564990543230673418431022061952960940037256763701059398910131514937, 29588930333142816552411065156061420456242549173966011630078294755466700851997754786802453730731038601496584648399359), Some (false, (21530510547375797448767821467515283167590362964583745373293170062752667107566597499793276617752293993912024109060366, 25808079530767340451270711748593943199003021547265523307997545625283445790159939157122745664926499034560655183010461, 22858363586149330405509536878511265550697225037431515285961047079312196524113722161310396301637754513542883362434321, 32136506658931797286610094906834134386619645493570395021919642112262364172435870726711761657731165096046309904588440)));
   ((9157789454833117602481051607766967330932187440742261236824266406233666858151034144023557730075221537210268925677913, 38897632984675279903789498438524957750552734263822293852014947692514198190665751592543565033691816825886680520603568, 9534120962433594949562269361743653657491108572078838712305819734407298383132380809919912620045747152691644402923032), None);
   ((33305183676566181012337291681646478288897692232767467962275709791864174566325271595618586662057590423446439778077958, 33406717866598850373505338896298613479887961923337257469384999958232352295433264830263686586573158395265711878433366, 14571655107578260152965249103309139122209920590018677125731715907090751189365543868444179375060231604368627975144914), None);
   ((18005712146491473816299385711514749989794394085582739129232872334213269104516734151668764140886786371058835728822350, 22217693293055955436465383974372899217854290051079286993759638261568764642438849946721248308612178745680413648780920, 10301914048927164066249052256763760267198617701895292146008344782183342461486953175872329471683765186811578233298115), Some (false, (30802900921886648874039706006104578146556756905701277970671694227774314641881707019246091782875918637440737217977371, 28615382277751823290866673029515001720640242151225397078524943879344733586629756285121327878261879239122518413085642, 39080997756138985594556757960568959412184773834576578933719441059674554192197617079944469519192438850421196100541261, 21116955388216594295774479366197621293264911214692846196426129200655721929620038461421709739649174954313324165975296)));
   ((10400132309060672364788114401397725158302856968042856298038144861468919324597252463356469736249007023008841509525981, 6091961506955608214526937328239051382992549349737377860076800344079041500733413369385947546829955414271575883432796, 24885141221671608039140769541141303384956460254766716532748188587516382122979890786282564317020971452249826026348229), None);
   ((11172408546915589121547422519232677460380194855989695009657637389311658007995532460773371478254344927626333048734889, 21475802653721441099489475551836524687249717602104673275237172919981731395650617271948797613090937280680906186459274, 549615507399939120034139760932176450405616896899006277842551508889903708628342020046274826267777559071584021468509), Some (false, (31864525997716632290606229831908966481951338723517081492937490007374490844854019031235861994751511216975800823897253, 22404295584665464855756714516281211484240564032671492492697861604724944691465490105207521993092524541375695318400657, 11236118716434708222482905350146564919284671047207310168768537530024493729893184105440615205768078140888080053457863, 38086252919090299216555493584740069704567320680866603184816583934547359010668719061105760995145702867475594784356059)));
   ((10422820332769819713156998423983884649999208531228005233287794559190875758064791286230038830547452092640938048288298, 34225365128725437041097535629311824030432231381266733743978704575198758396539214344695927495498853615767738084403645, 22610442348143960956461585949694776943237241923915461825629355390053450559583649715493993802744179956177749850762121), None);
   ((8478875945135956696834506425417169904538970581777991720907557625990586213891656769434195493358310449212997751242610, 11350791780975374230711454599890187133818836427734707059990978723900280097121893394779502561982008792794326307737492, 22264692887386557012991381123660910456452317660015593027081138259385129949469658017465771709744812261304063439813727), None);
   ((18462151585510827660946904930633098545934959633728278118922694899751388359014959747519516758528123624893059477303802, 34885733435105782255366506951435851561621386016010931826437472726329200718608992627393344792724974762573422134758306, 4001966118637234273316647335706985769077712461536116172167022376363529431338152309902222840047429935126910206809148), Some (true, (17850114576832984891016237162980799920923461911612154562293767410555090353719756895748883534502342002916072790304551, 37106574181360087173207443067872989182742468442346907260361076848079067555342795185288382445262492758182921889220939, 30312622319654404393197732944141706434670176885172111172947298609605274724180734511804630642341985357327508444572473, 6464847115863017399976513984942917119821345248561062951179653985722822927354385608005190042695084344079614930039333)));
   ((4586740899732897932926380798934437656699930719007409428805197589490460369446866588890404409345374064758148038829823, 38322895929261921962876978807181415053555878101140905683759266214528001580633402523940270597185052623967692142317250, 31943302152815288429753399353565890612021940775975034067361170837441034911048577317893579714082566151560340740912715), None);
   ((20015910628957395600567386783841911438294721603057724921794224086430552917702254489029073670897833188014088657164176, 18108332621311609252633164539142279956351800989930838691656453593348441512932955066113531534155665701372901302085605, 12396705080553683117538633053215818621712747072069567742800735253210146365679351339224437730696759248413476568558021), None);
   ((14241877704040748708484033270141404104783125375813747466318562829228721649616709002063150852176413892577434969526012, 28174941771976002977661958516477658336411822264426003324669315676191890330030737979103986102107772050653601257029117, 14550022542350993777256288246177361902016689833291008632158099350427285365267008387109693046912992923501608988169508), Some (true, (38449269479692090736524850001092042742655932841929197521550061452465417211046483174476163302823462889213469474027802, 11414527607753731034096170549671670650325724391314978717647651684891825117789898117771085063406150738770840877472042, 2478147814002775405369954524325650023606688611867635209817982760937911281055961731875620043491359318904434558841565, 1146180201383319533084997154146590364305519781933629729907177766113706459540150864642323765013271124539856992177240)));
   ((24319467570097283398786812609007452181627047204113041870584018332543672137638167173313592353191398818794465828460, 17038519950792345177838320073871454275911226948450914114617891638439297117186020536168801659159741387461786232463398, 3360393898786299191042896925993064641289612641275784825210024121186796610019134206564878805609516384209113257711967), None);
   ((27297794218575072922660711585641269333035989563723954641093678324908914852851579724750472024504746669028956770536599, 11572432187640334841065670516385439352318019119319789514862142023512232638232958779418166349359391337065621231191724, 24453419325541199954337331996453529353915802297831204138257879490546099264553247789163302896549315801964922776001698), None);
   ((21449217744165961332823375816598868073505434111860641905818280556786970926012474048195371387854961912351943573600255, 36230980273311743361152802108720860715657019273049646323993131285455131591612955135764585777395583096504911169887526, 36786375548288198275086105463325105956982546620331631270255681878713480071133236416262583571416817255154261018403754), Some (true, (15022217358941759442062937734912993085564023061481444772390715641101300731881808568962914182925364179664437102554722, 4880560402323763000733650936863354887382614369103327212047028876297212823650564221920559842804393243991136256492773, 16316460204992282688723949931015059529353908065245516435419284405833219608676172900437796787555308076092153581521804, 8975019477617543539268041769271217618727354110328915626884217626118586210344640091788712452770563156626198399160130)));
   ((4854159217334801276109327236023575145008287875367767838734342123159222998246247898896040946144648033545162184422381, 678178623916467853100913266041597248072051308945787647740969708805326268551942220012634948821276290716930416543025, 16932590082299356607714649192452283455135279525856369106083024976875814082707065036096163882554395020758892151366057), None);
   ((33581376671608826675187922506659568878300909418336294506082276606648015095013615640777541001655065598655342164011037, 26241836527711606955890045149989496711042011309660521989373523544744654360594561354975875121094322729568346088640684, 1415324392633576304322990597165493645355839644147183445337953798310936968630877732352669341183195669189406504838482), None);
   ((20030661433487817742776782400213146399516322739268642384581178307970906526002667670245632036020904744879233332209897, 24046771017054701983039493202730159751682939487141698013462367861664599599102728925971440699006157874650713343997263, 14296873583906416336072836415152062354884212464627665975293650278447802787795745738478790821979625885075274958345242), Some (true, (7722984529773951411400661934226393724379107929240674717425060970940929051379126135538289793381029573241693609386544, 8538395469840643626167879316825701767532753904738757584715613307200285396903488595729935524914022773328299100120001, 18194617237007041716194163318215816107493780749087532781309403536452027542137539332986690758854101556562175857244966, 25249529258293617442537697439918334791223892296977107420640487087111408805417064324577728081977764295383112286678987)));
   ((35128064792131536591299493247720430240759282370986301001379838392529502875578011119269039441251522501681671408887369, 38746422418217794469084893703772203568904071527616778689806625302667163124403842035254962324099771466271221187950953, 26400956309585469750532036762675450868044319088407076097555760361629469335299353808585617023341392249124996829984929), None);
   ((27637789960765202799804952788281284760843568989093092880855636557779344348859728339144741930823242083916929817150889, 39359781874005201213321751295404514653987075671143220651642832981376749786757929566166331671092789386193125222194013, 14610300003010136982420994243591649125554140708596111516245428084953551721059105507090254102437630132359710169763054), Some (false, (5657037282945535090304722126173852258845823877018393484944489903640134174560967218230615074798460688903692706503902, 37201183605080784773224162141322529586174700603615259816227960660479649565012968314274226736818462758624466146971301, 1783494186948294497928204467824236821780477775918326001083991574454075896773886472785494133442808296162639897562402, 5855120463626699105604522629779913285092101428607185758172076906550176816626219752475726936290673730070024736418832)));
   ((6633830084746958739307252302650962100920322549488801604716939446090141209123899191251126187808041444175470112460820, 27482279030650407495508856984403488235230489519273477355832551266931723681408970479962418511944954720028400018511818, 14294496299056740723761723725322462324039469183881193325234164613754341441701481082612826714956201834970230325791473), None);
   ((32223475077880409323105939514780611012317221407609535605607545905954295702557212167477189874859977754412371224765844, 31018003403594043578300826411301477463279671386185261493382103870687745424284037583860242405603131258961854547019564, 17432504925271124373602865503581442024986660480757828348656597778268795951290672933627565797405464432661672598744962), Some (false, (37145901345161996285209522841550811472210128625062269791422540522227504965650036821716017294601777480510414753314040, 398379900457829286040043081192837113819011799178875704522563278634543304538493434582440275470626629685881624242432, 6330029967828835791803256817206983146328284838134012524937086553986202248517989184034090221906941118527900684826502, 20752357094086405484890679420827233262090676666065099853566383578024044408930482534656647687281145216216935034232831)));
   ((7289043748050135044291581891857003741716775772168276314826427235473307648537785285511917246921678663718638754405889, 9353518846589377794750831275846366608973323241889975562555772263339685951062563933520407914574300174861036525786985, 26882816256242079187600537804708626347013081081633489787474205165512506787857183063379229125664432402167083333524343), None);
   ((23943516229960707115124020439744232445084588409423266106072824927914711631538595687628094433130885064324529589849644, 5035583283849342193617200354934053699908847803564844958905841646277585381328460390552059809101253458595718936110682, 35734513841421611016237583096738814668446337551105103673136884695734972548700040243421484384539733801540368086148039), None);
   ((29491105179123322964081778707066134206043961532135428577038145639885203344598973146551524819634830595902341314753404, 25796124341229288658369600542963378535749551017683644739905383135723173351055393017619428029645920166615785639917051, 10208300326017176700028798890433703920954370382534240046368638780626343447413237162861155893040126167983117554141330), None);
   ((35299120487256747426377649033918664285109707220289960776961369861045709285663238157788122504716812505173452823771810, 11245466078011257494007386403813346254089529102731960813664519172852689826424244596737371157076063928942289930766342, 429895952096006062867782514954709935297261052016499754535393217316439448489876849654648243931744320403093652766088), None);
   ((3585878656545979414532734035562023408964752357959209012753675844783257271931122089548014793087290446603715674861212, 16124049120128323208915990357195422509005276227287559451769733868031715227559465345159010208966481054593860206330887, 11001830385557555710972377973679246062180153770968002271555953803249247914575690937885754928783401142614650740469924), Some (true, (20651035079497569820230705179334719684360703203386420173259165844493550880778312112379095135734438446148107230877331, 23414100814856659970516175448627689943656509132209528081612441935490462495790872133014721068541869506217271076512214, 16094859625810438391826975824024218495281198786117668172602912404144907659252489143810038191982484342758987308704864, 27804088316947167735395284629572900063262799791841049454635860154957187934893843557349889685080759371750265509220430)));
   ((29534917739868117321879200312450027309657818538611553158761501212068279608150394844328313932037677016935760438496854, 12112534021887112940853239745559284205843494647350728524535407778865155102572841173502241197224953426932072030621050, 34345036543834591824416832667618990684936102799541791538440059759836337971662948250719930930410920856186314215051986), None);
   ((7898100063053831842878315771491567487838095526246552817670230725288621051920038352673566079075817363047694646924929, 37868973573000839444173138399815776398985109960626581710313281310296227403639904376960287310116761545124873398117557, 4904004733085262760629261007764150959882626344150018806379258393097763175934038990483903381841200974041888431246582), Some (true, (21643100095849614771809012761047888679596248348075436655505339127005763014819369706396165279240007761172629347961902, 32322728907491462725222754933076560200374271459326136013874273967094011933538306801043770817010647628986933398485185, 26570289226025934342906347996181636386381058205643662077410564491285828714454225081777093461385344128835373466459763, 1313111368715115442325189668032751023023726883368382159279174621100136000164883905858678698489086547658299363509046)));
   ((4470229331619492764930639952887308217656423979312832680925801234164270234270960832633935670874186343287860537998651, 14246231695661095882438631137233672346858266528862234883066272284390130568479272796780563210582271921765950678800252, 33825185075252971179887460276865420894282206632631987919917141430221448884437976814046880967801047222254584346111215), None);
   ((21950051963230604643561183900730493214663594836168928232939066987538061570385766552475020874362952644649514618634185, 22538483258281408738926124384498181833597396922513419501951043227468578802939728187688163097095145843748560411549776, 30571157672617030130408627197045174020047104707385228391171486103154463038772556541898924671946336372118671941926020), Some (true, (16795447878705815093506315730752318648042302488446800241941701598235051370881091279827517146999452556865149821946354, 15437283581688772196022434428608958085984106470359805874302335532936278850273629310545485900750446860446605479125506, 30841550243187212026514914992387214128100522618675843567639292419925598065324559595660994802921020411645534623307060, 24468356867989453468893265839626939310897892337457287936431805677260908517043635378952835976640885613934078491829149)));
   ((3787913692642986417771195556185019028380837105827772675882198403929189159463166966507994136286285266154122303980870, 28032546814521433465934041221772385388539379306274210002232042699565011972252671861016198238258702085712459244724175, 6321685483740677141931585735863902394434119621144700075509907008450582332390548152674379450340924064227632417550708), None);
   ((25932763090144161721481315698311107678390116934618379018594949040462113613967075952197671174025342388807461664343667, 27755755015315994032286822129766728475487076736272077235625352267759956740073615184948566568313381893630610873915565, 18689587756823865091419831333846814464766123499515783572311558575557391975777330269366973628830895674256205277066942), None);
   ((5461100957418684746337587812222094330607941551177401827951317185160272854500819420946111911887488275049721907933282, 28067438515614383623998388621252578849047669284523936552620478635406006630239719377917079698061655310656701740781922, 28000605978153579018844253578721630170916305606650797235692045211386292516338742194253210519978770436305588989915736), None);
   ((19479262172077541907487534368420782737233953316851734417728244824346217766084341859238159029788416080735750940890841, 10280455684062088515783585401732680351128324244130648556106761086275570501332056099622046893690189659932374476152703, 32179503130536879907161160970546138940327933785729640691262359309018191947076958344057354230607957343321790502687912), Some (false, (6442128027011590508888115735587028620728684055663892109307293054667462789220647497061175874917416912132921039431053, 28972751431581104300895999919049889714455141689145642981178974416370626558432375193044211958035976963505154909122510, 17824678018666069889029571260366937842083251407152901518779417575359221794330387472614969039068338410739918616500847, 38992743850211064980409388562855071284603220922993476161928876158108850001295953159981173048067714832075139767603995)));
   ((4836002771687782415743323818580490049859378575687753366230436150291154747990238298255536698052169199242748055329252, 5727792875619413443367932209873249080399802282053035044213443624559592172362446685531315590302629030595625038136704, 21360269977907044524852565648307967447437754155634156806701466372347143551360808279301753213521659599793555381636838), None);
   ((13288486856723607957933932501051118555297764360114928934603723971268983895265980733194704982864683241299348496531962, 33594646290627440082146756750890143304793453434170923840627006753761013960886807081895349547518881965557709538081927, 34950015124546610438936299281859711628833793236963287929418598498220139679123221966417413129765398631921165641738001), None);
   ((27817715257477180904294808862351828183713315203556675211789359450538674397796244361606711730193823152466718693973566, 21830177661644999214529379310792927824464482449655674717638527770239052307494106288471863809873558425892018260318703, 3953373213635990793579493681062929882568870247263867496961317427071140299936203850863858717806272164305024587955139), None);
   ((8963050032931494435596086023674926601893339498988558371281959386634484618549571811397857701201260949726256944068624, 14028125587115372380175057040477474630332746176991911220336414931135414717311273779634909109840987698653591096527712, 17046860336929291617815187486302087206466571264996483371892035422773824800135486409009359431230979338920254654299615), None);
   ((266005408977769151446818054189126610129943272901390281209295254844872993009918841422219429573163826318572767404461, 6121793592747595611824985585433777933912291492231967761387614245120071199147084122723681642675873767098843893600129, 7882656945988692146648440434034099098968086802008892342078789548363377610530065807508552702275879112618228883217313), Some (false, (9741356421127382021019736979865602549292473916057895678152962852880038469380071911075059512313486483565471483015477, 28943721350267300661000033992823751122457314470447622190552396394960435064243668918348322487352177541378042134242181, 19809034319341200519895546541852153213716318804262841878202332794851742951867282781924089620286800631855577276877517, 27309232757775234363157611761229772319218086691881782134038985573801094861650087735208709097389240761784000576465844)));
   ((26907282501526666357976670353459006979880927330379396530321322087044050113999911743534525551254746130960636830166411, 31817225503224200409916119786355524685111874895340935424345609770385322119463379320556800671395886882205777410966960, 12789621016412556376185302881555569281962588132357041382677138503988844959126562099077125527576160326512919230149251), None);
   ((28607841599921013537154944183881975002878387116617817133102951207454869577857658213334779246159160515376799759610054, 37876105953862595172192372918392598710437680961432823332774642266852272654406794188589488638567994750494759311606589, 6937249073920867091387941869229228086173607775090444011934712133852355770662527301948678815785215955301080265891773), Some (false, (31742283746367485274242053448761324446666567184428925524554094051928071253016037876491410175383348095360834956778566, 37400982552187652255237909084598435105229768015763772565550500418399338816348181851122621206374484070001801000574955, 27950096128514147905760208239874421000723031217669241513455991898412707797169991658907607287894703232417371871274630, 8501305918435412610442734986093270475974776615104625192599123144475550007234673914818877616646681376181059237962339)));
   ((7780755795166751517284621426712960272782813732838766712984930778500289527702272673285640792986765271111783611274082, 21889782554887855773416851703151544935575816050796362580335872762381003132802747979052142552979393868298926238992848, 31465414743248650538431532887364058317208726571647343223545887732531551511959710913821907108977766277890321255316734), None);
   ((35208787625258998984671251609549019287275998596167124236870364665181893007141538884059267189747721814114104364762021, 20869590485167442568328366423076102057614154611376094840409379528040875971742926404585636809498856892163086011259541, 9222456139185012639986669369785852518917499937821195458798566327133092099037975463028421955661352190550197460375690), None);
   ((12021643632266041978642078134076979937919877047141605748392519031886596285140352408499897990013418576471887420743932, 2068125523093927811754720771751555669944933878628551686770972496722614700448644753126345450698939955776492805475881, 29384669126482467003440257749401764101703634055582151185942045674857778003790591791313887115352710397778657506688321), None);
   ((25633427367421891240260441569351273122752349963601499806987142667186952638406196394140744705717903433129840012701412, 16114369411006223345515319064985996772362733948831429699822260950860975353945166363421332774750690749438854950510260, 35098497387949370889201282956766082263611346210300931662335542461725237851121149047472396550641134299003218839040552), Some (false, (25009993738147732737127597361667471398468005970928547455289767719375546196670586726218545177406672867187907669296439, 4992608454775886524724582967419521769666828478164632525760358362033168286695515865049299576150988616542531414938563, 17805347224632063357439260274255084051781283696999090732560992364452631315856411679509970285691509288890401833812778, 39040380014320997615463002065180613197397888455957147121561015628362134585155024364427576997309797731737921191086096)));
   ((16433449516044190774603089968940341107149836076373649636963622004541650472236244085639791422486519616795421657800331, 2721086597275523415441343687115978497629614508644467948010460893819740805813758518284040070859351311361878446555563, 2526075634676125595628256080846883119628865926430027583804948239980284276398177927211422348518239304525748711743709), None);
   ((8661520029167398222842821776902501411720734352301044355460268209326520624180770683277776977529047266042103634178927, 13221750811015719777733610495211559747063415205541243361162146388676199785797215942702044815928269411549624570861263, 23757574512493305467109355509065534809901254242488946414599011161850213479038400260871949280402323476771410603784587), Some (false, (12829831829265037904584268503635535641061838006340995264797455276025689644804156108194545407511531553160624980497597, 14572194029918735203378023194768545348753695067783323517272177630743790127603448169203669012868311400542995123481512, 21441493496409910064043256317009683555704880564171469459768268225758610334522481099462138179787728435096875816513447, 36925313821768404635289746629309654508176905374726561759666168672002590917996360928188345927840940441803572336584756)));
   ((29765667553536947748806038316162778149966917874563313559944325522380207993893747475266114268868098009002675882156026, 10273290665606634102285149176061213155055249887108248506359840577376897793170464932894619152625649876130553987570569, 2365802484310331483571899131831049829728271237213585730918931720106313471381829406969810647062514512106613700517000), None);
   ((16110822232050827079062253705495992997213017567912711212278359501871905090300486597729661952177077378852156835798149, 14532658015598038162372529230859441432570194353766024724637101776610389853138030431639112820454789236521097533764469, 37833027513260260350080199158766756785527806169000071987842092385651312325277810287295947543602041679594623462033802), Some (true, (23693889477397789311324308244543787748856469372507253504488262196825517707646039048665309075920684590735278263725819, 1197516405608542766474000072051250244665623426714940560958765439411834013492558565063106153889904248771547265549142, 14103557000099251555885548354639654653756000511424319587889536064007838279417514060534240295116244238311313633021201, 11437094524937407849245794689031194505118350898592703574398175467616855094926163663155350039438000489971791070812198)));
   ((4254661352860885708624997947433012716861369713906382381969475444832090279037819378524059468060763227855513288358255, 13989943594291551938350921488954040956347471197296363052607014693329637360175906989419267955975406694880504983062216, 32920712102670332790913995763456184562877165220952868928490723997501004300896156859446365615173574801162903854446447), None);
   ((28838919994961750515920804127991056839058661136685814546755490086497573115298494605989941895780830269805005942541240, 26607892149263668974076715041126008179413607562373765391605905497816048917112895866813268926730604362124242514096466, 7059571844829139592160132591969200382736151448406875850796599278660478497741615049167839014405785766371469167292952), None);
   ((33545625372346339131565768227849295858523214355418113750911389519935830190637485056725628561850082027604713716210080, 25026567878531372331546803432698405298349193389823709497430134293279122562105524754601498849954757880778987102019953, 34859309583669175818611073992664418786384067621628217323933618639932538653583597519394763756719265209125766296369078), None);
   ((35167528380620838658624423598126158282887824251878894129640263031562574592163406302890063647970216932985226774889429, 6021081838587089640671399379687981440660846813286663433943218496520757303711907116533160684486313084483616630640041, 29990387962286993985734782390273438338374337875601825229901850912222815504012336832473510959345441924403128729912497), Some (false, (2598676269703298288112731605617124836334144262433096179856542989905447512506706506707207884600198809015404014600795, 12999935649189455573033938715958238624725751299035587794107003691827802726907153228691914797605548445590284451434128, 1623534454636045981459136826958826142147502864936260934284195882805599122421629106918111700152107448226307093057214, 23038720057802777919789171790205993563514681126326481621611382556716812207961663492702759008145885370080671091571688)));
   ((8951328147253171693933503572787221636488339096818911848360451636902002082750185146247242708590542171303766803866273, 15934173202586691818243570192447688690893215324279655108776598510717813271862621836525667701511917600366077581741730, 2419274483198724080093239790149458784637697009678969740184267531874042170403382291935102065182209681749564901524047), None);
   ((16552961058842468843729122708168206002513713441230683713450277729371370953974047652490921275289705733928359371192654, 27963611679825011293384066136020924285260502518498671590702063145774474891123945558630690718528396279803601967658721, 35981619424226726642012850851915808719819858031019791485629481989106883887087322854304793752789649643747662894963094), Some (false, (3666340941626425280625406623601021446310190567332099107999939310259058208078511564061426798355395388445700279793106, 5468638022164615869778318385033700028423533442682811525454183063114625801121739605196962635270327294919395726370086, 14891343245440390010012993607647006446133090641800485332768452115942084654502355783508697449888166440942095942725305, 5456662416081018788383007361590092874144431490046340276958237822774134194091000587505857322468699411892702035366139)));
   ((15673999877253030004181654021551333953095679583122422644943812045150561603357665653451185932514879250720211609357659, 12938604585625595214154016900839855438191842022840795816211114465277986042958087294055676404826364074259975640229252, 20151692233655078999636973823572032991206671644361340860541956830200227547851336681224053250078552682668347589338974), None);
   ((18033400173253945451898728751679162723013761279713250723236382337342515571344825083975848842461700027299322120546356, 22573772656837705678362278159094650227786538136084515903118416868723535267470506489430071865140294437449474238806627, 21400956108724395007803069188400574514899294290271920566559846369803359237934694625938326292520899293502445364054999), None);
   ((8493383696190491195865866282415916841535718570631944438766587809651381099396275977780831645906377457418218848788655, 27313860082254853388651694151820105413677922067812722131327035145927047890440404342820047246820002901935887839773105, 26927144675537046282726679294219139066390557986957468048252842495833934056277278160785789885902231457316002395999009), None);
   ((14062416189102494357162112151111395843787972218420275436776068966728790053710339848637297629752807587618118610270550, 25734182534319161246278409500233619665617285348065778783934480388969494636533836971485322747775314432047751684738039, 2749578726191889394670580535818983406424466725434507588537569185111344354401143563055814128446533507955646200489169), None);
   ((29307887563005095846789178365903532522373066871334753659059829863236981147992903519840898447402114777361294414149392, 3614839521043421393050515186183613534186879768673891666799589769120605099278332727219429000214238154801098246374367, 3419502123046278556369922917434970161201627614428428075739617579916488680551888319054911089228603465697888713595942), Some (true, (16571806740275254806399556763931020658246381998773507506315276047345996781826140806459322932586060754045691151883573, 18407533501808198355309093853588371204587240898132804974941161773422167837384309137037184618636257406506425905068, 19649076077550561584845004520437750337167562706063225583713253205077954191828631496040411485681910572379020847358982, 22502760197452755213060881360746359796594152900255135195487979389385740753187149630094292311836020943986853219358720)));
   ((1501563656735013189576958969712189158690438340022528830974522447052668454495527357362024944352267798163400998976871, 35067483696155128673186684399119380827408960243429061452080080885694505464470398425257447871202251185700860589710610, 12425943833498040283362757722153988058606365949671352313415302253832105048179549879350139284800614513590008685842439), None);
   ((12777997867019250575880974503975039604501525327687621453656651310904737337296381087859296097729211156282523151649919, 13432346043303720179854104313736876784243444769725741003270024633290962505902132525877247169614000817109690695820042, 34266262927261043345947011053058553344182054330838030524073166033455362498661713448816960187264822877306582727332220), Some (false, (34119188062372304787827018779312769177386779591460935453317573373160029556408123204578516442966009957332873159709931, 23263178218912967422640495144302384465349127506742654135589177629108418946796410789410344233943115267143221380045532, 22429237051103393970066482148608678857612410615738054726747550349344941590961841501573549698799663505562887604719097, 228859540850668923130680149754157119018426160833484887680658064799072821839389831950042424470866286584822471147928)));
   ((11206153837053066601943801672594279598481617535176771935132251993140594803650110549757807791634290278996207308585210, 27568450091076317701027789011583499601573456022544286954684706028769596087945851008410008288530964075639021353128939, 29161361410984807404379899137109507606176160843693961224688288306187738819758116072710104788012318354708207259817814), None);
   ((21624683787531534830658309404475002002830611604912159609485780232573845139172556354463362906945246832411668130233912, 17732176018741810272200922673993894049366285611204319199901435341366385305563222699237007916304955917333834097762256, 11089344887191613426872312238773904249737473674479805903608290196272662450852960978368288315421293150414775909794678), Some (true, (1270183184813556383272924863730452469416770896187832916066520005139052710091351418529613183896970827905699782529915, 30732387204760099090774570609914492706753404954569621552428108668832465193248829360246866111307324026137487983173930, 7704224217267799461884168972578407239214702477667287770038122859377828819386265404345230493891781414062554565924050, 35480197986641918262520706081670481353915181014580031455152282881027013402664452618098830822460626926742934921502828)));
   ((29992552542020443990017472956305933223164054004496374678354058345091457029154530514753699031657466855265170680526275, 13790755990858419865748140608620715288067030397226882946886968595669498314113950029761779162165340716875054810877555, 25148785570952349324009377577925220913773467998197137150101127461432764942780291903072045127874047451593972006235594), None);
   ((37155689491845118077672434030500024592184482869438783495598870728186833619600334701811920797760246917988683612279354, 3759719289554460227799614817224898846312789349011526450036831074862810040909825766892639848106844588993791501993654, 13284777424580811026372951997137529247631594588684782884958809682820046888249481271421748936364417046824856814721527), Some (false, (3677723946651101470589005823948496386481323900249218957389812404266649481337680446483518476334224530961262857566247, 11291798836504487159798218015130998509332952725251613471723273123078638277393552894242873311595434030058525797317952, 13178823450060583527593269267797085302587851819538756794822255297083547370385882557724092502833895281894995358517320, 9175352584953734440699908923699982435058509481143197787001283751025664340483031854123238267240744864729032562785085)));
   ((33361980759190213363553221546662275614174860041231723055084808226338996527020787637620483748942001995284556391440944, 35598643836907583238362682277673879479866279141272885260201282637368775625137495848835953716470784963600672232322095, 37500647572450521278820473996705632835126773126775343146856688295146206384580938336993098058743093567487114523558316), None);
   ((30711083764479088875834505011425019237907508425138684437109959689958571187000832730851593886049470972251526458268251, 18965145185091585437276946548405106619858489331595964279372710601156858155794026270840269993320862464466923261138800, 37932080125010176245781126358154507994580119603353523752953048265510901198140450295208920886560297499509570408615094), None);
   ((31538541509154168558858857871056100214490194480030016616876076097210103617344323175235249074150128808991516425328432, 33830736247269722913657621386013597035070295009205056477819283006297093117252578175431697219926496519734591748717388, 11274897214993351552433678386508822692530044788553791686423581649946250595076967489715712137096967471103708308473612), Some (false, (35170997342268131204593932204476303626003321764734756272802866361142216851397907018409365979694818147869238112151780, 17068886238918238770878606154109489489315384112552396570403017339995628864284781645430048497983638460048071239636888, 4757944398781862513848942602791837002245753515597097320810730541213028445592914531278233686717427768530333261005391, 11462239461702584586002972748865184840824327371156254774139187499269222675060239742948408969629086925124233307415268)));
   ((14647172907595907400711664963205789645829137068147957067663428922306593677219380646300955948467948913671566226514783, 29604084397112700065032680594796225610516307876031701359953801238028591396654161685700414385975902336515818695027579, 1555314606078989582319435546885675788548619305709201568612897063008428405508614928890626234193611946110967536776666), None);
   ((11871352443282426291389699096304422963848091844340577344231203295395357667633265416560891803510448153590907659289413, 20556449205564807560997830933135157255213270178320405115734066611633696445677094471811669027689344879743334611901428, 21993556230800777305457655703771340855515520929889918066581586268635149718864708752434187166200963096376778130891396), Some (false, (19328588520435740784161023093112707773073981897552188966529747197713745694215898921115239336849712685651959661928647, 21570033380355872516632220752895390476357394072682675294297623556027679394627324317048886009393882245673096418491912, 6088640554367091985439323399715682718452954892068001907843417423756408422349733871608199648627549409946222183128554, 12522633475093050486177218599890989250421906909481386303223861626873431350553328181760721465754475953811737888321402)));
   ((13960513295557560515434436738852205822341141927069337556796110611261798557050485978436871903308065378970065002766765, 6848729563468990045664366590080417917471919302887995524470892618640444970350248930002951773638361181326303318638350, 6223208876355620422312942746815018515921678774917947344943326006525326666982199247475880965652761802510577137249297), None);
   ((12151498494645550663748857218285339187328667327193944978806111492228660190609980631215410166926336302331576909275921, 24404743619146181564287132225502887600199712944132131604073065796764322006995936903783431633492811865810213524285302, 34101259047219660463288017286132975632576871591506023163524933903080526909511076805049721258169228052846218856064528), Some (false, (22734538594963383543021377495180744473732452418824397541970359993016530328065491702843976689194213363565629608756514, 5606991112951302501279064439063450611327848368099818579756197429412006521661655867097862891061544185777894480737776, 35204181672150636251438278269286979624924157725530246136195137508963877821789417131597538423573496819359291848114700, 1075172992331096449765582132531627235862008619628397589362514243263986816063500859054758892972694941194651318730829)));
   ((36780643597728762416485799278327103861524981383395854621001367180641391445947277181456408464537634043965984413328594, 38834055026732884421620178123152782975642057520093578098427009283032034591305675213225673716259465695612039207558322, 34639407143066097936754677588056756731484964287109365020577959316269813556303962225512717547423271697624749651041892), None);
   ((36670384281163478152221813562979225755005161118340152191290193467573526253383779801898496441996194317977847115641596, 14593029542638194689679946817049423919443920055324156400769970043993505641663716017389927081977859809199913341593062, 26458212087155851059640075168356231277928440072207415747600675801144153247422847546628240249127388160585577223935156), Some (false, (8118833496919878283536923779383200908512054821999079505632468226579249541474030757132265388915413751811322133892625, 324272896283960346352594422897693841522055695002913426041691032382729934976298245025156913664939779251482788208198, 19173936038578403648289322733276157954782928456005371990842437237049222559726495209342417258884845666987899211251316, 3808307438007730362431697893121166885360943877813288790206853536934700031816863564848550371584632190558289454704076)));
   ((36824550571053009439503975110720139471303033908712978091025067398498137842276351099315164561315448917631753134874167, 8047496723805506519084848461777039338136285030024853559629366523402766589476068331339897063686513827248696383831125, 16269435022108325845598661757200522847364996773329948605183905255784101719254317958824029348267666350545028949400139), None);
   ((3645234373409857184020095195133723826732249642711348634839570524423648420881441230464957440685810526005081992074884, 9956770580503752860847635278490679864174891771506478707858478497568491748341628587774909690600234207011734226763277, 25839114215782606162103544563504097435599742425516983016287262973628078604139586964674088557938677955834123417002347), Some (true, (20994808913806720550352276099471842413306134933557548680916045773960798770869096064819270673298009791440087957281970, 9646601603388909916933527626551725417891742636602311649089175242081247583917133332940443614892168484554477145958409, 28842785732428099384743501937933833180055713231749984838002901160439339112090363920231833336305434301975474848359945, 27285373035190274430070922311881042638239144430885399506840658654644735920826491340123470613663839464152505832908096)));
   ((25976135072669532270346530464283020868357066569204656013266141755664333046210754431634357608177828525092506670356178, 6339911128672905649705591668731774490741792065565374621696843725503852682070345317148219734504492222881585283327831, 16616283577771544871592289625651326352848693341854609784674306862493061069138632061617521832014816910920186579447189), None);
   ((21147135375534625865827216535067779078360819778502380202655072297367217898734423359240979644118758143800716453792850, 35763313570238192689641175540927315197177470698964044132797253863671456951892299658894103444404344729491164060754279, 38253863748208437487618588231368455092662930047800606783282889615476570126176876355129509619862733262537262922538985), Some (false, (39021622763805071416981575126269268836989791276585667298471940335289830920714604000118415106864843218568194283502238, 6614508335461432441732051540834509168289060136331253640912869572585266559507116645886870312122185461306058087434152, 20137160764954924998668774675021994658978387778414112689646604578164856830952074477999989518029872838110806077167742, 39367837881891306455007043878722339067036451666234575312887440860749855094447570395921751807523931856531948325879458)));
   ((23220567639848156639729583313677810181927543537215531668536342122717326275182389802402667337280671685162778962637093, 36077397659679633217603924629304728074627370407267777586920072894145016696839690080772888804061935466779694767686102, 30053110372931168826056243518098961231274522808124059881500005334803917798968516475061499164590914307174996467533004), None);
   ((36856729414676896669158561766990743816658402671596283423148541112085877656467648885096314154420871938314519829425120, 12485492534077576082836156554247935095316340255090166563211781775517649661648752218887078056639536850267173253908170, 1102360492828779988703407080006229789665655299355328816061952938292974452318935511445153491084395425356768294318066), Some (true, (6362446265471099576009857628348432326884618712833065470634852468634450286799950290888091968661461678770268495896621, 28965013586784065802373238547933895277274361289350369569384511580984362282895753771764574689385138447855404303657977, 15637472305384813683073102226959231600891025850839942334290790236433423966456286952759460800293258767148453512892757, 25612755584631576415843724730634451371449902412098882438281516874901484892181692442499012696324695737252441025304901)));
   ((11004973609033302899852101891737793445644050458039559694902117246915343750498860705933532993162848775073318348644103, 6023106922097278292982581261603759618333559235647001067336890583045212764705830765395101579772142833850449394527062, 28416284051421748165293485514950566437253707477639105439510340257026547908852454101220994905050220239247874845444245), None);
   ((5821616561122341919153727434713180478693762233799116731832829128792311287714604398548074519443342338003752262196945, 6072220552188683667067533313908601938370755711589133507777930347371053114895236429984618874359846984690352673001152, 37774137520055479887658629022895169308180685954119883668157549305800915248504159741465064886833940529162617073810752), Some (false, (35308490941386310625664725195595964976901272077450047785925854248439991641161557369024676945776799110124598312021288, 8330276719222754500353146413759686878533045185604337654335328417911917908715104760068802053371894459533445583124788, 26698899456993295402632913999313037507654613294717827078076115305745470941234576485786469886670779714341922724535791, 1433484390444069664079061250513601591175692678272241326710970484099002987042718244518778217632447559350934350027524)));
   ((4125559279991737528448559419665569168857860855620360966251633112662545255336919764513201865882036299839902700128889, 18501584117956380205486661115275887107066546755712298397694222625981558983723821346804606640183392589385170465151509, 21639867145849668629271620754417759670208881357434025543183310231245607423699413517163964626745916407751142709810160), None);
   ((18778396219515462627665428670255044343109052979145611462291160952165684848981244894135544333974965295367495798312192, 3557593328924442322147763165354316038020533146000105970096874827803500612801762237788595504574880097562726160606281, 23914523441104596702923245033988358015830349598195389451841550435708109518753530044641377361828358920597920005145432), None);
   ((5562867899930310681378669445215726434327893327916221990596308570076994260927157779483752214687701724647466038017221, 4645826374249804400520151278148673233535572548365176459248450529323763610476827992901580159098319643720058513252648, 34959099549536715725360956086541227945516180017052242976548291458569841701192136343842324665126787715739718488726035), None);
   ((20577350282391657489444054424999318177077232140259582475514819309614281305325008530948986940175694385405565563463438, 4796582500970367956205529947740721030045750201572562963393129128984597168149016662104920032243972730313868664025455, 10919136580192255009685148169418403362485087738421145747823368564286056926891192199490148133132124173406567474637904), Some (true, (11101454151059368919977653515365143906353291186244137198754069104694285224669318427961625783059167576810386510358649, 5634466221743120946381637830266656098523106681082717923648067147185760247616696487723262824025256050167441516961844, 27939699318846140705773852779416700572891984220698248694937976323679915538716278307335777436679252222288129405791639, 22307953337804572981600009006956072902854909666225509032240393592070062126777550019746113909452241382033730140558114)));
   ((5916033413386237359085480274363843602380370856840162333642097835677636635288304468444168280498648990111736781286201, 6745611597677175722197740418153739323438477619993659679024208515838112253783783319322920790468696482681268408213631, 6923273534004779518220580951614511102727809245744672880042745597356970584849164694225496181437839531302690200709362), None);
   ((6261742482966572654532955834249813330534972948880044409260312007871900246298096503106501696024160273939774614632244, 30946082281180291000254051913856833316993739023617765555206805978897193925477808955377429671865436003505993602211697, 11863591473644457642529710604207522833683004073221521976656877059488902442342801125126713054238858702011784352639617), Some (true, (29520498457255890755285027215555355886450967621095747756087684076756280924771691851202554425010675626051116114894498, 25833391582704592018421509258020463645921768311556302622478155127448164882149451701297657585669374631902936357661942, 27182690387552981584346274819026084963843733189400557446971873354427045004229847830852299132589597770667398883888362, 32517664333929973070781747076580424882998064131451361457586021946263096485097906858877364585913362468461906616557823)));
   ((27603404066224391533158291422949861241966167002703997018165121855741486676927048064033932757777975293999281478303723, 15830415677304402455580669245613219341779304184609306776443508221760155291214944498009775369283304979052813630114890, 20600995389773812721379975199928123838833431361757335283847322552066425076388656289846930868173814432013985943832379), None);
   ((29334273634531427871431373176838624198651496124213506448251712238180136755144520247286267102694308871048631435221082, 21956602537959952330500709948385103777952645823773187111260346486343525730217056331038009998751106952266949674463063, 11595233219280000478849769425471211683769419299513554239377916043474069299002453201762968287075820324133172683386433), None);
   ((30382647828697544796744058267203670488920017059144168437339429701196541041739660791775166918808486219117865008129752, 37830720345035388894866789383057421160256150582921153372371179838597167643233054708660060228296517844172734905453115, 28988667578615576284620482064694232217959544335533086198728948775361769529679676126055358555076120817942716105834771), Some (true, (20914623225128140064424009789196880514319969886444903388738116711614177126550419794896880726612413438347039072722766, 11105351598626086310063890662295943124829139342367591526949808437296860150187949972333459936696994569712345342780603, 27110765872807687279865251631615525167514332052013950240372617462260498439475860287096828373148554325325799804986970, 26787557557362162694219588749341175333087713053728315944463557181195230144715968539072257828870024512620086897423637)));
   ((757420888347716366680817376118064732082306030145018803871287035143115087066126305784484194986207042768646676229205, 27921893909203825780630203672580919368641692117418970983944487376724027128075979525231988925847203864254667954429775, 12137632372741260127635810613769457214431258040124453771774648178425316666987128642164336948865483628663571215261682), None);
   ((21754757205407668360633399850215129849206107881514596595518607014410735345684260574827837740808260003408491155601543, 38214154585022535030151391266514446420666578871509160349187994723528127197868893811374162553136101402366809974562421, 4192071691950741768506140131861760416729981570491321807979597378874478684158729826075011489249653934979159029096301), Some (true, (11128252960478851093938736531749404180491018045871761035194705677178513290338289724471122183043251332996724116938488, 24120613069175987621313890563583236931852567839222680554667526032203494238159197671618089291978426106319765554846978, 32353628904429413733849502091902904920780533066947654658553805993886283964667035228647666602501977280467637441146049, 11288161519182262956108873493208679223664720382325760342189502519913849404587685435330651349664539581411605875392436)));
   ((6823287813095613434830116451272686199092173702398111846673801957063905543219009472903792788199514941512715894991026, 25124798277100391065997995306622249199665421844544109197400954802376128819910018785051284326126456259800524230987795, 11521824819430974514656521395643484405195272412882507907548510344116148644011127492673640348588546003775900601987577), None);
   ((20485985351925081819639434414322481485538261414393241545136664076909143163941389014693606817042957975602334623719820, 8579980466961375331756736976955585867847949718705692322333595088565782573224319521196933093382494619571176659807059, 33206292349405847263313407797577524206131320575489011210392309728861146267008813850372713089230615300877621385214251), Some (true, (12580798335802682857867241588498552873784116416685782285019858971783812296198228983247626549446282526407044713188609, 11294539813218334110181700263256566083593282869680727756624885746228385752998465466700370799132821414520517869068713, 22336011198113528386576319762773825347812016350756458439366360572834962172386533333617035542499532103864622617249471, 822968122640520656903699302818696694097043475654576367821509330067687705405336203378254921221536822025048807528650)));
   ((16114678141311480184758273640538298905345882556868797445521223984642327365261008400448334356953591423170395333680556, 24937494204934641852130087984705509158333649619884013530109559200796624958952442398319939120431248988055701867497224, 29134205172755165322004271103014441156753913364627152831157646142195616070580280045724674432961211672112168959699497), None);
   ((34948376818350019388321630236118111845946183148426602648568300958159993515487893388507661745091215868771651516571203, 30198654383501952331058494798109194225257126110065343965505008585494734303947510633878909950763564049999333939363522, 3836866946880971447081977822563767343759107826261950687248333759812510491246237918126688466619246367487238064319088), Some (false, (37861770730929531388169647123051219838156202278135016077650178347191341023415942359080551247015545237298342634917268, 19279112459631560833462257728330518387691713084544704811009611745619106847310654175007438582867717503943972346703696, 29040853288459856677848413616174167853374078299983990647735934934357189683790147552047755747449191084743809884660153, 21676206414437377682014518136916048904065963153379757539874763042825028313069689081724221440274010710710702205735301)));
   ((16765850735045370950610842316394023951746687367082441555797453531758116661891174650250274519266972062196572597158400, 23374874354698682743838830950213497312643968392063504155679030022864084079027542609861213704807784077395910256689305, 31479500715084294074464221741770501718166116726844065478712336625786047816965161226655334265218382168609545054340599), None);
   ((18510310695795672343800543549782481230266037031915832239492211038030327607552856609007596114210710170332913676765892, 27030936353325712781783906805539087786306817111314026436975714398051160294234028710916478126844703672332528514033890, 14445107240389879642608256878513642888454760033416033166659668571598414034645786617997412484692346873182310433969986), None);
   ((1231991551711841676543329849968283396694342313941005593664502432387404332106465018377460353197498203845575595291117, 13077218869690702646100324368409773354222394317684138050960654753035653335495591671286794766287333077199438644569641, 39020374090012038647081668369577439519247729521518255901554256145171571515360198569900286383990345897117522749841585), Some (false, (18623438387676984684804420026920661357725414377078671289185480090098580580015940173896787730420403001003025913604719, 31066620926179166940544238326047586835604200489730385214537903019492208577036317134298568213316913757433903348291823, 19657712508126278792064578326867466783573306150579837479635383929167513641493235393541728855969492291477854898895961, 26371068337174165802421778391728708576681657175286038618032041203085472234428035674901579524476257683938141418919254)));
   ((20260484869819604337351979492547593534298616855888548531565838919141014292606637650569535388044586294723060788495701, 12944532824311388285794655754018246724242450225960630665833226889143847998863414522778885602679787014805698259909529, 18857298287295577980073338828002616124301981718485718467483134967485854281611519217859423939566227964653765989965821), None);
   ((13369110489634729581340855229693761929807151967534728291878988335741279967405697465707905512014763660458410684916108, 26506021413178756442000483901769376253109055210396235941708827460010427231940696377295321064562122365068794475135272, 6378069228808804743137681471809168195372983348103166393568173683730243934862714848443759575498845645435385911986854), None);
   ((30148369066704167403916686016642906678100793125470515960994307056645676221602141966839139124808875277744053563155253, 30717006430443601816328554030063462818761989952936439898090853323644865246580296705466315304841798876198265740581848, 26026198222953897293009117692235102905252922730491167250852000466165065890675815454257060616001180162651648953543061), Some (true, (32833211654317261754682926065040290391040111670739916839536774777002951296366862625223539042940864990491732371914905, 6513592752876047089430438375590078845715323504482669907212372251795916399138531541066456519153131804120462677102873, 32543165615481091861863362084883209663999225740484399342384333496663080657123917298489415777202695616239990327677050, 10891765879126444701998041680156568061319966840299379016705984401161947582548332164679779873842922570363593547230801)));
   ((14085321800705555511682265559244403258193843506620012575076748734001000695379496076166295506076228753735478656637520, 26247035095799689268623156744566981891852923491109213387815615900925518854738050089022388053975719786650872476732087, 31076295234905449226732288810623505625791886221604131073239087501765218571612451104608622327865990668783520461484448), None)].
Lemma generator_384_ok : generator_ok generator_384.
Proof.
  pose proof (mean_lift _ _ prime_p384 _ arith_p384_ok) as L.
  assert (mean (c_p (g_curve generator_384)) 1 na384 = fp (c_p (g_curve generator_384)) (- c_a (g_curve generator_384))) as Ea by (rewrite <- L; unfold mean; f_equal; apply fp_eq; vm_compute; reflexivity).
  assert (curve_ok (g_curve generator_384)) as C.
  { split; [exact prime_p384|]. split; [reflexivity|].
    apply (dickson_ok _ 1 prime_p384 arith_p384 arith_p384_ok); [reflexivity|vm_compute; reflexivity]. }
  assert (good (g_curve generator_384) (gen_point generator_384)) as Gd by (split; [split; [discriminate|reflexivity]|vm_compute; reflexivity]).
  split; [exact C|]. split; [exact prime_n384|]. split; [reflexivity|]. split; [exact Gd|]. split; [reflexivity|].
  pose proof (good_on _ C _ Gd) as On. cbn [gen_point eabs] in *. revert On. rewrite <- !L. intro On.
  apply (order_check_ok _ C 1 arith_p384 arith_p384_ok na384) with (l := chain384);
    [exact Ea|exact On|vm_compute; reflexivity].
Qed.
