(** The parameters of generator_224 (ecdsa.py) are what they should be.  Generated
    from certificates; nothing here models /repo. *)
From Coq Require Import ZArith Znumtheory List Lia.
From Verif Require Import PyBase ZpTheory DigArith EcGroup GrpMul EcModel EcProofs EcCheck EcOrder.
Import ListNotations.
Open Scope Z_scope.

Lemma p224_0 : prime 347.
Proof. apply trial_prime. vm_compute. reflexivity. Qed.

Lemma p224_1 : prime 16657.
Proof.
  apply (pocklington 16657 [(347, 2)]).
  - cbn. repeat (apply NoDup_cons; [cbn; lia|]). apply NoDup_nil.
  - cbn [map fst]. apply Forall_cons; [exact p224_0|]. apply Forall_nil.
  - vm_compute. reflexivity.
Qed.

Lemma p224_2 : prime 166571.
Proof.
  apply (pocklington 166571 [(16657, 2)]).
  - cbn. repeat (apply NoDup_cons; [cbn; lia|]). apply NoDup_nil.
  - cbn [map fst]. apply Forall_cons; [exact p224_1|]. apply Forall_nil.
  - vm_compute. reflexivity.
Qed.

Lemma p224_3 : prime 2998279.
Proof.
  apply (pocklington 2998279 [(166571, 2)]).
  - cbn. repeat (apply NoDup_cons; [cbn; lia|]). apply NoDup_nil.
  - cbn [map fst]. apply Forall_cons; [exact p224_2|]. apply Forall_nil.
  - vm_compute. reflexivity.
Qed.

Lemma p224_4 : prime 373.
Proof. apply trial_prime. vm_compute. reflexivity. Qed.

Lemma p224_5 : prime 67280421310721.
Proof.
  apply (hpocklington (mont_mul [] mf_1 67280421310721 9) (64 ^ Z.of_nat 9) 67280421310721 3 [2998279; 373]).
  - apply mont_ok; [reflexivity|vm_compute; reflexivity|vm_compute; reflexivity].
  - repeat (apply NoDup_cons; [cbn; lia|]). apply NoDup_nil.
  - apply Forall_cons; [exact p224_3|]. apply Forall_cons; [exact p224_4|]. apply Forall_nil.
  - vm_compute. reflexivity.
Qed.

Lemma p224_6 : prime 727.
Proof. apply trial_prime. vm_compute. reflexivity. Qed.

Lemma p224_7 : prime 17449.
Proof.
  apply (pocklington 17449 [(727, 2)]).
  - cbn. repeat (apply NoDup_cons; [cbn; lia|]). apply NoDup_nil.
  - cbn [map fst]. apply Forall_cons; [exact p224_6|]. apply Forall_nil.
  - vm_compute. reflexivity.
Qed.

Lemma p224_8 : prime 6700417.
Proof.
  apply (pocklington 6700417 [(17449, 3)]).
  - cbn. repeat (apply NoDup_cons; [cbn; lia|]). apply NoDup_nil.
  - cbn [map fst]. apply Forall_cons; [exact p224_7|]. apply Forall_nil.
  - vm_compute. reflexivity.
Qed.

Lemma p224_9 : prime 17.
Proof. apply trial_prime. vm_compute. reflexivity. Qed.

Lemma p224_10 : prime 7.
Proof. apply trial_prime. vm_compute. reflexivity. Qed.

Lemma p224_11 : prime 3.
Proof. apply trial_prime. vm_compute. reflexivity. Qed.

Lemma p224_12 : prime 2.
Proof. apply trial_prime. vm_compute. reflexivity. Qed.

Lemma p224_13 : prime 274177.
Proof.
  apply (pocklington 274177 [(17, 3); (7, 5); (3, 3); (2, 5)]).
  - cbn. repeat (apply NoDup_cons; [cbn; lia|]). apply NoDup_nil.
  - cbn [map fst]. apply Forall_cons; [exact p224_9|]. apply Forall_cons; [exact p224_10|]. apply Forall_cons; [exact p224_11|]. apply Forall_cons; [exact p224_12|]. apply Forall_nil.
  - vm_compute. reflexivity.
Qed.

Lemma p224_14 : prime 65537.
Proof. apply trial_prime. vm_compute. reflexivity. Qed.

Lemma p224_15 : prime 641.
Proof. apply trial_prime. vm_compute. reflexivity. Qed.

Lemma prime_p224 : prime 26959946667150639794667015087019630673557916260026308143510066298881.
Proof.
  apply (hpocklington (pm_mul [] 38 (NC x48 (NC x63 (NC x63 (NC x63 (NC x63 (NC x63 (NC x63 (NC x63 (NC x63 (NC x63 (NC x63 (NC x63 (NC x63 (NC x63 (NC x63 (NC x63 (NC x15 NE)))))))))))))))))) 1 26959946667150639794667015087019630673557916260026308143510066298881 2 [67280421310721; 6700417; 274177; 65537; 641]).
  - apply pm_ok; [vm_compute; reflexivity|discriminate].
  - repeat (apply NoDup_cons; [cbn; lia|]). apply NoDup_nil.
  - apply Forall_cons; [exact p224_5|]. apply Forall_cons; [exact p224_8|]. apply Forall_cons; [exact p224_13|]. apply Forall_cons; [exact p224_14|]. apply Forall_cons; [exact p224_15|]. apply Forall_nil.
  - vm_compute. reflexivity.
Qed.

Lemma n224_0 : prime 101.
Proof. apply trial_prime. vm_compute. reflexivity. Qed.

Lemma n224_1 : prime 3.
Proof. apply trial_prime. vm_compute. reflexivity. Qed.

Lemma n224_2 : prime 10909.
Proof.
  apply (pocklington 10909 [(101, 2); (3, 2)]).
  - cbn. repeat (apply NoDup_cons; [cbn; lia|]). apply NoDup_nil.
  - cbn [map fst]. apply Forall_cons; [exact n224_0|]. apply Forall_cons; [exact n224_1|]. apply Forall_nil.
  - vm_compute. reflexivity.
Qed.

Lemma n224_3 : prime 11105363.
Proof.
  apply (pocklington 11105363 [(10909, 2)]).
  - cbn. repeat (apply NoDup_cons; [cbn; lia|]). apply NoDup_nil.
  - cbn [map fst]. apply Forall_cons; [exact n224_2|]. apply Forall_nil.
  - vm_compute. reflexivity.
Qed.

Lemma n224_4 : prime 821796863.
Proof.
  apply (hpocklington (mont_mul [] mf_63 821796863 7) (64 ^ Z.of_nat 7) 821796863 2 [11105363]).
  - apply mont_ok; [reflexivity|vm_compute; reflexivity|vm_compute; reflexivity].
  - repeat (apply NoDup_cons; [cbn; lia|]). apply NoDup_nil.
  - apply Forall_cons; [exact n224_3|]. apply Forall_nil.
  - vm_compute. reflexivity.
Qed.

Lemma n224_5 : prime 432621809776543.
Proof.
  apply (hpocklington (mont_mul [] mf_31 432621809776543 10) (64 ^ Z.of_nat 10) 432621809776543 2 [821796863]).
  - apply mont_ok; [reflexivity|vm_compute; reflexivity|vm_compute; reflexivity].
  - repeat (apply NoDup_cons; [cbn; lia|]). apply NoDup_nil.
  - apply Forall_cons; [exact n224_4|]. apply Forall_nil.
  - vm_compute. reflexivity.
Qed.

Lemma n224_6 : prime 136401162692544977256234449.
Proof.
  apply (hpocklington (mont_mul [] mf_17 136401162692544977256234449 16) (64 ^ Z.of_nat 16) 136401162692544977256234449 2 [432621809776543]).
  - apply mont_ok; [reflexivity|vm_compute; reflexivity|vm_compute; reflexivity].
  - repeat (apply NoDup_cons; [cbn; lia|]). apply NoDup_nil.
  - apply Forall_cons; [exact n224_5|]. apply Forall_nil.
  - vm_compute. reflexivity.
Qed.

Lemma n224_7 : prime 34646440928557194402992574983797.
Proof.
  apply (hpocklington (mont_mul [] mf_53 34646440928557194402992574983797 19) (64 ^ Z.of_nat 19) 34646440928557194402992574983797 2 [136401162692544977256234449]).
  - apply mont_ok; [reflexivity|vm_compute; reflexivity|vm_compute; reflexivity].
  - repeat (apply NoDup_cons; [cbn; lia|]). apply NoDup_nil.
  - apply Forall_cons; [exact n224_6|]. apply Forall_nil.
  - vm_compute. reflexivity.
Qed.

Lemma n224_8 : prime 375503554633724504423937478103159147573209.
Proof.
  apply (hpocklington (mont_mul [] mf_25 375503554633724504423937478103159147573209 25) (64 ^ Z.of_nat 25) 375503554633724504423937478103159147573209 2 [34646440928557194402992574983797]).
  - apply mont_ok; [reflexivity|vm_compute; reflexivity|vm_compute; reflexivity].
  - repeat (apply NoDup_cons; [cbn; lia|]). apply NoDup_nil.
  - apply Forall_cons; [exact n224_7|]. apply Forall_nil.
  - vm_compute. reflexivity.
Qed.

Lemma n224_9 : prime 50520606258875818707470860153287666700917696099933389351507.
Proof.
  apply (hpocklington (mont_mul [] mf_19 50520606258875818707470860153287666700917696099933389351507 34) (64 ^ Z.of_nat 34) 50520606258875818707470860153287666700917696099933389351507 2 [375503554633724504423937478103159147573209]).
  - apply mont_ok; [reflexivity|vm_compute; reflexivity|vm_compute; reflexivity].
  - repeat (apply NoDup_cons; [cbn; lia|]). apply NoDup_nil.
  - apply Forall_cons; [exact n224_8|]. apply Forall_nil.
  - vm_compute. reflexivity.
Qed.

Lemma prime_n224 : prime 26959946667150639794667015087019625940457807714424391721682722368061.
Proof.
  apply (hpocklington (mont_mul [] mf_61 26959946667150639794667015087019625940457807714424391721682722368061 39) (64 ^ Z.of_nat 39) 26959946667150639794667015087019625940457807714424391721682722368061 2 [50520606258875818707470860153287666700917696099933389351507]).
  - apply mont_ok; [reflexivity|vm_compute; reflexivity|vm_compute; reflexivity].
  - repeat (apply NoDup_cons; [cbn; lia|]). apply NoDup_nil.
  - apply Forall_cons; [exact n224_9|]. apply Forall_nil.
  - vm_compute. reflexivity.
Qed.

Definition arith_p224 : arith :=
  mk_arith (pm_mul [] 38 (NC x48 (NC x63 (NC x63 (NC x63 (NC x63 (NC x63 (NC x63 (NC x63 (NC x63 (NC x63 (NC x63 (NC x63 (NC x63 (NC x63 (NC x63 (NC x63 (NC x15 NE)))))))))))))))))) (NC x0 (NC x1 (NC x0 (NC x0 (NC x0 (NC x0 (NC x0 (NC x0 (NC x0 (NC x0 (NC x0 (NC x0 (NC x0 (NC x0 (NC x0 (NC x0 (NC x0 (NC x63 (NC x63 (NC x63 (NC x63 (NC x63 (NC x63 (NC x63 (NC x63 (NC x63 (NC x63 (NC x63 (NC x63 (NC x63 (NC x63 (NC x63 (NC x63 (NC x63 (NC x63 (NC x63 (NC x63 (NC x63 (NC x3 NE))))))))))))))))))))))))))))))))))))))) (NC x0 (NC x0 (NC x0 (NC x0 (NC x0 (NC x0 (NC x0 (NC x0 (NC x0 (NC x0 (NC x0 (NC x0 (NC x0 (NC x0 (NC x0 (NC x0 (NC x63 (NC x63 (NC x63 (NC x63 (NC x63 (NC x63 (NC x63 (NC x63 (NC x63 (NC x63 (NC x63 (NC x63 (NC x63 (NC x63 (NC x63 (NC x63 (NC x63 (NC x63 (NC x63 (NC x63 (NC x63 (NC x3 NE)))))))))))))))))))))))))))))))))))))) (map zdigs [0; 26959946667150639794667015087019630673557916260026308143510066298881; 53919893334301279589334030174039261347115832520052616287020132597762; 80879840001451919384001045261058892020673748780078924430530198896643; 107839786668602559178668060348078522694231665040105232574040265195524; 134799733335753198973335075435098153367789581300131540717550331494405; 161759680002903838768002090522117784041347497560157848861060397793286; 188719626670054478562669105609137414714905413820184157004570464092167; 215679573337205118357336120696157045388463330080210465148080530391048; 242639520004355758152003135783176676062021246340236773291590596689929; 269599466671506397946670150870196306735579162600263081435100662988810; 296559413338657037741337165957215937409137078860289389578610729287691; 323519360005807677536004181044235568082694995120315697722120795586572; 350479306672958317330671196131255198756252911380342005865630861885453; 377439253340108957125338211218274829429810827640368314009140928184334; 404399200007259596920005226305294460103368743900394622152650994483215; 431359146674410236714672241392314090776926660160420930296161060782096; 458319093341560876509339256479333721450484576420447238439671127080977; 485279040008711516304006271566353352124042492680473546583181193379858; 512238986675862156098673286653372982797600408940499854726691259678739; 539198933343012795893340301740392613471158325200526162870201325977620; 566158880010163435688007316827412244144716241460552471013711392276501; 593118826677314075482674331914431874818274157720578779157221458575382; 620078773344464715277341347001451505491832073980605087300731524874263; 647038720011615355072008362088471136165389990240631395444241591173144; 673998666678765994866675377175490766838947906500657703587751657472025; 700958613345916634661342392262510397512505822760684011731261723770906; 727918560013067274456009407349530028186063739020710319874771790069787; 754878506680217914250676422436549658859621655280736628018281856368668; 781838453347368554045343437523569289533179571540762936161791922667549; 808798400014519193840010452610588920206737487800789244305301988966430; 835758346681669833634677467697608550880295404060815552448812055265311; 862718293348820473429344482784628181553853320320841860592322121564192; 889678240015971113224011497871647812227411236580868168735832187863073; 916638186683121753018678512958667442900969152840894476879342254161954; 943598133350272392813345528045687073574527069100920785022852320460835; 970558080017423032608012543132706704248084985360947093166362386759716; 997518026684573672402679558219726334921642901620973401309872453058597; 1024477973351724312197346573306745965595200817880999709453382519357478; 1051437920018874951992013588393765596268758734141026017596892585656359; 1078397866686025591786680603480785226942316650401052325740402651955240; 1105357813353176231581347618567804857615874566661078633883912718254121; 1132317760020326871376014633654824488289432482921104942027422784553002; 1159277706687477511170681648741844118962990399181131250170932850851883; 1186237653354628150965348663828863749636548315441157558314442917150764; 1213197600021778790760015678915883380310106231701183866457952983449645; 1240157546688929430554682694002903010983664147961210174601463049748526; 1267117493356080070349349709089922641657222064221236482744973116047407; 1294077440023230710144016724176942272330779980481262790888483182346288; 1321037386690381349938683739263961903004337896741289099031993248645169; 1347997333357531989733350754350981533677895813001315407175503314944050; 1374957280024682629528017769438001164351453729261341715319013381242931; 1401917226691833269322684784525020795025011645521368023462523447541812; 1428877173358983909117351799612040425698569561781394331606033513840693; 1455837120026134548912018814699060056372127478041420639749543580139574; 1482797066693285188706685829786079687045685394301446947893053646438455; 1509757013360435828501352844873099317719243310561473256036563712737336; 1536716960027586468296019859960118948392801226821499564180073779036217; 1563676906694737108090686875047138579066359143081525872323583845335098; 1590636853361887747885353890134158209739917059341552180467093911633979; 1617596800029038387680020905221177840413474975601578488610603977932860; 1644556746696189027474687920308197471087032891861604796754114044231741; 1671516693363339667269354935395217101760590808121631104897624110530622; 1698476640030490307064021950482236732434148724381657413041134176829503; 1725436586697640946858688965569256363107706640641683721184644243128384; 1752396533364791586653355980656275993781264556901710029328154309427265; 1779356480031942226448022995743295624454822473161736337471664375726146; 1806316426699092866242690010830315255128380389421762645615174442025027; 1833276373366243506037357025917334885801938305681788953758684508323908; 1860236320033394145832024041004354516475496221941815261902194574622789; 1887196266700544785626691056091374147149054138201841570045704640921670; 1914156213367695425421358071178393777822612054461867878189214707220551; 1941116160034846065216025086265413408496169970721894186332724773519432; 1968076106701996705010692101352433039169727886981920494476234839818313; 1995036053369147344805359116439452669843285803241946802619744906117194; 2021996000036297984600026131526472300516843719501973110763254972416075]).
Lemma arith_p224_ok : arith_ok (c_p (g_curve generator_224)) 1 arith_p224.
Proof. split; [apply pm_ok; [vm_compute; reflexivity|discriminate]|]. split; [apply Zmod_divide; [discriminate|vm_compute; reflexivity]|]. split; [apply Zmod_divide; [discriminate|vm_compute; reflexivity]|].
  apply mults_ok; [discriminate|vm_compute; reflexivity]. Qed.
Definition na224 : num := (NC x3 NE).
(** The multiples of the generator on the way to n - 1. *)
Definition chain224 : list step :=
  [((13641763652444986164232694683700554833969343544446717008109483653103, 11838696407187388799350957250141035264678915751356546206913969278886, 2966624012289393637077209076615926844583158638456025172915528198331), None);
   ((7834957152104321840436311548087645354357016397337624261978139752912, 18387688941486896693314180608234157394110342327606209796024257770241, 474869538468298384918655164606373990117569330548407043967769662665), None);
   ((17118134539423770038850870723495131356060067438537015898988051487819, 14065129557927240249858914614678013910013270899103922531749823190352, 466418981405194772047450263835226671439563161789125411861941453946), None);
   ((24442726058895235593500430298523160545461591329580443421230707468223, 1204003138496355069500823929914045936291713944170149897615714862701, 5434208724273072397465691606715126915567277565181311780680096920706), None);
   ((18191567346523457226621813842968851637013204652835797349582533243654, 19272415748752860870495606614625531480684033691369304020832270542740, 20863039313030363843276457281545352342997442072853523735827974396823), None);
   ((21604438351554126081119705142601487929644694013005371920154824355727, 22862349844348150928153345762910614222681515741061181846699654606814, 18475007508618604795474272004069615252419162483963734110988435449524), None);
   ((2267499950441475144086269621010567369738799973652089096286346019319, 10909503514304520822063990564300648007134946056626039487542478177288, 12106225705874731521019082942631213918881995044099803924467358898633), None);
   ((4161719958483324451297237070185579151617028914547632543140323178817, 22779473573653926682445375831382871580310206979375925267514012526969, 4417952557883717253971903660033662177138389686146184970965302774911), None);
   ((24095127638430771279717660282862217710371071870137606292595058997684, 4749294987248314594480315840589763217140640941046804755262824535992, 16286903236304699906653910080230083473263317851745802832614098548654), None);
   ((13227853030457556162729426437071281346757033183188529401262336362740, 5140667943182452629435747195217829586852836759092209054290291394505, 14371189180799669793741080523928368343883369724249150643979217328979), None);
   ((19490592282414301200212445680750451416036527303360240772827102906927, 19779567464265604405835123550285590612889046425056165283983113822123, 12143641987111045571576572409142327583804001559887082436466505906237), None);
   ((1835401573622032788814454040113215201305116724352438975770929562124, 24876265070903597959296169869335051186036335666935395114304682473628, 24307566143755907152894291039002698838272269760808887629698119155130), None);
   ((2693458480679931909860604472320997304095764122927483995441256931054, 22433244838239105550996495424927052138981550025152242466227794268643, 22628231169032652106987081832846820912663353996986866802704991816449), None);
   ((16332687629439513263732245770171557528571803723968235504855122752517, 17259061950273318998934620498023148358720683322894932613685834796511, 391020241160827140342502334272889028654701159077977318310767109311), None);
   ((5311559457252431604613050806439540532495456631820097366055374028292, 8740299472812017125598150764362419700710447483367638774132409086526, 275015619677761284653406570822546405138004239704124444334417985018), None);
   ((724207918079121662063720642627922010692422808958743896236862818788, 9197899243725152741243707447717189542240855479661156722062796388388, 24144249793639615520230802758229016610807048189965654650813033073214), None);
   ((5348893053621635118566877680007943924455535462815166328894105687335, 11816177549010745569248074495496987229584212109185531476439063750978, 14760658750761248257019598695773108992393567379255197811808199580275), None);
   ((3862042847594434800249743715577600929823511243153819379551585421189, 9312963686852423562663075958074891433372007171205831212341179906818, 19168981540130923645896932714245313874608215681742439444235543785587), None);
   ((14904832676359961779161913253217218263253488910572484791144965575239, 21850411239240998340683865768783142891753911874172197325996806028298, 6073792279085906559183914900401402417251083254271502993695393880455), None);
   ((19327793686750537558757432614830416735343185244538887773227100913817, 14895885362413758658939671209482537560710484220249040094994940648935, 21113593846009130752698648264659453140699418898325634582467556153599), None);
   ((1145994509703614984703308157052704541122339815069745354114227354694, 6240001873872389582154234023907721817120151209288290910274100839197, 2044853814917439105307575725294221414694671318580266095312348551781), None);
   ((7029341988304629062808909996262817354758712229408478313136637572808, 13538466469090948664197339978046014685245272780901938057594600909713, 17766351225553609501048151274766377403612483075552359859723205974930), None);
   ((214319357761730070649575764149271021708417065502482884703144381963, 17430271588921642927310780082983441604193928529115278518522707761437, 17263764124699827929834055505781268962311867658532991051087478335142), None);
   ((17087000334457522957219545804988052338734866453107056575654847573554, 6717159312466752828511487844556470932687618424198081206822292605412, 18833529395280095656668529946273982677684464990547901131898430960325), None);
   ((22563592960776703404056741129394823866848229904184082790930788799475, 1506901093388596000655725817270446072557316951356957637956119169636, 14105755046583219062932150695789864177463114174957102841302815584661), None);
   ((17220090828918733665071749250270038822159861616586573680105727077764, 21329600246763164658464660938510145679978968420298274496694379827954, 2621199289526426819322374032125144709708911382406602122295747724354), None);
   ((12861398022201676979504077762033461610774435834514463174389050729289, 2697672616205581044075232910693146805724941961746565843228159996652, 6069802225837882579246701206824176123761815822653657287075802198284), None);
   ((22046515842350894104314370049473191364191051144243819836636271276715, 22258211950227494425653387221390968506653098657670712248377077003604, 5618614184501800708359375783695740782176531657930734707116114620766), None);
   ((25553846788607581539227322892664685600627282027159930035733914031385, 2462174414021900091648536989599722464972996145913003404728666265850, 9952042915936745133319500383942434117686538260402252645359669614045), None);
   ((17022804050991310433110023334602513533640556735736063599016035277337, 1842134615007901169787658140747239625585610367973078552604798387730, 6431640626569346703882507150745567367236620455219107191558221116860), None);
   ((18288046177979484986401193394196349044393656842656737158875588463934, 10135751122692253538916789505331505110633764751319961965982626400305, 5988847959335422587575856762521930162787583215003395874549416769072), None);
   ((5261260685584366526812155540073956268105586069618413931057555132884, 15155248239472587488506038751029170280171386394534034251506189128208, 3831530290965382091312689506721254922552166417681122310107116331788), None);
   ((7632664457239802132981537988148269042336707379206144569478767417769, 25557359726355786797533177263458370279082025207367820008566031965207, 16382586308554207618494039306497944307310434087663072334805786408017), None);
   ((19566930706222893883879702846979963112575390850495074376331623991838, 24211991624964862760873142473633127812316684323564954966546417656474, 856228405516511856505135384211061628217227414727475396344866223223), None);
   ((18095737656095970491083535964090113866869509692103006759655075491325, 4187929211776470806020664128346071886136421201715619519871171366094, 21381518855784123273758112459153140530867692276429826240063551706126), None);
   ((4975460496475934142135097405751684157343327694225289113091103197447, 20655981674063261291803220083897800565249479632595126264832554444566, 9936239147863920590848507360133565853828036378241094195821451951697), None);
   ((552011445766860759964166871004475633837855532341040644868476636967, 8051645499920937881928666086177423533995765701372846579240279990253, 8342972018171025286089227269277816598871508258622610001611013448633), None);
   ((14127083708699486414368029449972324581490873957772150701539836014817, 21356392382937749838456706534073056232652356642355312421050231139020, 4972007259129620927326950094446197252475795619030849088993828505815), None);
   ((11016204872134945155293003302220471429433570685718804139022236666899, 5855372293031667725805595064776849750526239155653790137859943384912, 23421927574019150460093057166955738742519080810881241822568219507418), None);
   ((14617845178653134567681784636493920343368397698288713633273663773844, 16339563029858625063149665693796901811719614415923305337218680764025, 839251268943590705167865462434035953729031678938310143099158122203), None);
   ((17847367945013930656442795601739362774547863652472192316213007866887, 8563697165493271226602457492611804459066418497903898836705407259803, 17021049018826868983486275774107414861259185761884371830264578413906), None);
   ((11892577588537773417831973110954178222152993162175386384741357047215, 21000570977600605542673902307049403975976974614189670434389011865163, 21859687999337526808005617122590513926900894512900959703284381470233), None);
   ((19692493908027752756015816311235118920475421683911234653851889523303, 11874281640327773776240356075042374427584532348468596946958106282260, 3071181103563658864521857505271982727155522668262078039988078351837), None);
   ((26124277409759589969572856708200843637137052186476017483661566444702, 15275418551838415309639376341496697266697562249755138226045199756288, 26374545262568226920463333297024632637281977831515229884899589529078), None);
   ((14224382764319859859832992220153922295096241756503421739000720487489, 4065172267888630162469797590113863320639631004107692246208732927111, 7141617271439169906508861752246050129354458411166263698751691348094), None);
   ((25117033714569270296705431577314498425240652839354514261649979531240, 6765991306545578251759427269065605669347005666514134695599715193399, 17804140089868972513147985936664755032018627538496910625094886275925), None);
   ((12031174133469497050988193467621251747345101483731137586038513127137, 15159957913143839243230756911093175398925394635691778055313306174900, 16041538892230293672201497893927289387138065744255055770146913426675), None);
   ((12030259185924434646094121917580673585999631204902272177490428271881, 11538617952171854957204340209581411397713150682006671917071632933651, 17124898682683030415946585576209528059584236807661138367925217255672), None);
   ((23576891073896382797551942841796447034919876000094046339217117893022, 20986930796935065209198060749290679252126500961377286198949855782140, 1782799165954195413043677375095244701766863995932578941940085871092), None);
   ((16999706796515178426578331367439454984681916743664207444035575502536, 8551015667606684341943702483791269965852345736140563196156819640736, 357772340864122825805849276508197861496207160725373154123371059538), None);
   ((3290459052283914796601465519146486630611703305757168768475059663906, 5421283768357999180080887529432606027796436865686239211455242346061, 23178982552322688868479295562559500205311187263230036171948608022709), None);
   ((6758176335691529672958113466095239921597324871566025553353072432339, 3329978568998341686392007559754176522493202728397957775261597402362, 20359449712695675884334153570824026174244549312727634710806974245170), None);
   ((6684637319307366362392876018960869150683376128185935573792428950011, 15708208857915303638375608448448011325031080990091606456707938429137, 12794240221114285007065490463901120384511235154164402501909937684031), None);
   ((6547920868328009804801446429493794536534406276979399074139719494411, 21160086108685361803578365525541405524262975286729058806170910934373, 17661003643387631300820516808002912044316765171738748794318902483576), None);
   ((4266143937716645298209468857192160271015348092414682145975644763795, 1870066350789080675701026927681977908940096700558091961887898538168, 6336984085189702089054850978453538073961141832271485338938699057635), None);
   ((1656968023500805210057728628838707520828971040659290963455219172109, 3295013108200948699027375666048440477621254924493929045676021169129, 16015228731582243728598256912690077339023463790317116297619110140995), None);
   ((26231282905765717310659688616290786048530962347109229790383643957445, 10099141260770809026522607269345312852146579398627666437361143098701, 1604281765139762903903114704014658678442539646935831118869978706636), None);
   ((13041596794257425531606859600592547140994034907589244846435759201225, 26097114421939085583083985094395311243964552408332906232443929254870, 106113793700783150985318145641963069677821664062617457456434210622), None);
   ((14545411515289451976286987812685862545913281808069994665184003434947, 21812434015739653382084378381360342928210077549445168890413193347617, 2335806577678369930745570980674575743646960091901145564387346626624), None);
   ((14716715074735912732172935106189315983441116105777253280133308533310, 9284122903271660381661997263494500105462988627907537885049928895002, 3941370864106331856654701531932120761123922142997754787122427656686), None);
   ((17628278401868411541951952685305681762600371850690253185069112925488, 23128233080025699404528092939644661172947062361884877656846568380581, 2189038447126319395351882487747420558918594928778904537742744707602), None);
   ((8552083069576878226085009676424782489217716546368688062270886812255, 4716879433440701022888122263844811702145595318508663344370435898802, 13901606491224871662086093965243812504035737054620859482940211176648), None);
   ((23402617628813612470794403831409263273902645585455848014961081405339, 15105323622585424864489444915247689864127802551807782694350728648985, 21872409276804557224499377166361297083001579622244383528857344461987), None);
   ((19276600849928579199445217614527144684425700915512986144426890328109, 9677981293028417675180058969484174013173348599852862763749433990085, 23413235228729952139435137446214612309669077915018315263522413176027), None);
   ((15045977217009780937675410275038134129273168522694036660170680466259, 25758307187361545139031676925538028919581306308652298348141183376904, 10745133032151636520517371998219646072843069173122122928120383390991), None);
   ((25420505588400736168391230602683755673321092811651792454295198039778, 25607354211174622650389187725392412539694657581029669158037212068371, 20462791731865059717726772424062872952813689376568880611820600739544), None);
   ((9226554160177428134412155683988936324418274054797970109067915547543, 26360293952892605067507884584598229015982027430061442494258116998769, 9592750215519066117599947921047387097762538618202366371463782466309), None);
   ((4750914422678116389554207955643410579445814623675044794132237544419, 24432016204293779798215667538813891860054409457199818230553279186280, 5635412536096785501946715399305538174377820917021410206760615681783), None);
   ((18691409038023534657806463559760669657848606048340843267951675213237, 26031259100544823655512796265369715003159632031100251412901132639740, 3906929723322190015729648552727029052455652355572210323086955377026), None);
   ((25831447033473852537472211293234473833836898195881745709340411931396, 25432206432121336874777483163287272548943193485907502387852569232766, 16063779474766704475042427859072336879921827551895875457459709515504), None);
   ((2398546804486014115842653988346379036492419722587214285191388090364, 6459208888147585786974508280615218497125099892253263290639812190467, 8373909032456447299898652345021755404417126491567886519538952959741), None);
   ((6999421121792498211346885883556051432817808810009192515690613354205, 19300776898735354324824095681719787731396586145016350902093660077474, 20478129084861482974589767983353859028787816939491083736169580775972), None);
   ((12222346271911479989355018924477326684063839467725534853440101602713, 2951812435257796350565307753787236190933078730032532771905869922745, 20881197692448122119462900321156309735665431127870808547747834922697), None);
   ((11661835537590211920036031172100013520370953958204650912251672449939, 11597779399216873732201704921789926836655438441556225158542192214041, 8278861116815926154947910086399731971211709555194223958716091781674), None);
   ((6749747262687968841985841027479193434593524673837862673823913042880, 10426086499862294537883160610416283991510945954265915857036469124507, 8312426975982345762861796463716538767595295633092049822880148721559), None);
   ((14786044366518284928229531260319211177526703347779683293424120801903, 16031164526338505820834118731142607417206305654891494571538413486623, 19854226366234442161838164102539574473025300786934210860600317988004), None);
   ((5102107484651727101810372673058814961948084090959419899763509657859, 6545572819532745796152039535731082163454635614032777797414669442427, 16662067105834366541884889167117483624687922603062192037591170198127), None);
   ((13377770825014428187579238440036799282214013157159611918169396575180, 22544933263623816486857614403443131708610452009279162361451546638332, 16645660439141932051322449029244968816347588348583163117132117651582), None);
   ((16972609686746165438113284101995051122159015709560583784500027452247, 17196429981054302495064837194545525475695880650236806928434511613312, 11164627922566974719747634621654033739059737520609092933954676979693), None);
   ((1594011992533828553743904551160604739893036810715881445696095486998, 20094524709459984571075308912210320072492511421983551875613330929278, 3661912411765017845491529722544634437026517924288421237207535501507), None);
   ((15265996811219118436070559404026083356172261264974251664763926049587, 15494474210210509263950167131482053102136251657392058907318510983798, 19670764855297421539066753373454894531423744722120064768594369433475), None);
   ((5468058255174533454463885289780783152332032993399999042078403549016, 188914218610805627675836866190253838305302534243656925372481924306, 94750678578213325501263748526491706087823277177009112242844336397), None);
   ((746468690426362430464091013216593045009980062675228673245168097049, 23611792199763150601247361357065836572996459228653454707809555223444, 6446390654151216101802189813291207369550505556911098683663649212335), None);
   ((11011812697741606161105481417559692666541764558474871502410803594027, 10716896774421341668321270567492961449928594703478231705243402034789, 273711534105536644183760290237073874449932413404514258034843751238), None);
   ((714140589357680999667590878573125886386362262005286433871494845687, 4501608707961841316234612917034628491906448626198166376674673218190, 20156437978894882296231077740112887449954437562734619587741305559846), None);
   ((6287587206988628142973390162579452124157651092452595634909539757423, 2017236121316141751536370968842312482423166496426461525335711808124, 22809870943850486525321143504980940538912964978733492751553207283911), None);
   ((12676636012042908881660298148283653390332190386705630663548969507249, 5021755867906838179917740634091157639548653013193759858832064748366, 5161799081513590230408537759065808337546827669816974191540368894467), None);
   ((15782975590520412203466600646724214107719786630376254217374323568388, 1262765405776571560694529075917854068032490708351302793947019100853, 11873453221780579242016373091808838283681516170597883688278690593390), None);
   ((2744730998227430412894094854787072744991634355040491876525815161182, 4830862425484085737465520540533497644040810770258970114358098910863, 24895363920683252007412426963643935756248355647758327796199661060696), None);
   ((11240596291591993760986054843686988727640194253028411072450612426728, 23043141224672486825580132578465486958763118489363509438369858480502, 20636282636388501747854335742443326036927842604378076007827055571433), None);
   ((9518671644255773043173767602776152076427450885300626586796802828014, 12221899170982036747944517293684050856377330666482651097239948890456, 8047656439736103895631176306760258910571221127358635296666092500781), None);
   ((17658205660043954911904599571361025980737961385831223408590399595526, 10673688452161673577204702396623621869326181095263496301638333466673, 16034531873065735940627392674367982169192717974555679885496493482810), None);
   ((22626994410429441478855955035419949060699711516722839792675871797777, 6609523408717627436344533000500567876653419612862021096259446965790, 8067771533307712987950094881538768705587823917401560606882228226234), None);
   ((19176195118727949468989977278774442383898642378951861831538912184297, 10428304931054446753432502700949855625376129200137314529999594801711, 17683252494818928740928369665958769338691066108180694492417269080947), None);
   ((11428381366379403205702247512247695366114085538356653949191244111311, 9597300999997657450243160578015540511590652257791088396042227171744, 25467972629549160015872356041648191448828050180647229340129705339116), None);
   ((18024662377375874441792637450322792755847850413051327881610588366823, 22702778137269112989918672844763515713785807724839652299902488212339, 24742598453193468976715219906044311969646256594708328071964016702210), None);
   ((20528514709034335365680747307848475746290019066523432131233742247737, 2539986182098730192792504477121120872248657707340990410782641579166, 25819762626862248812574498845913123713530257233686953202969163317000), None);
   ((19950210728078711367701564701264113797290064781085428077705491195186, 18958094639622621650279833769895778653505955010612661595741051196537, 10041170675885432675666321241187506153751060850715413434667452602880), None);
   ((17141279044143966026554952801123844097025601566541456084213877183638, 21562726145683064105748634891678625460777264656105261474872431825341, 20119946351868020058659241424303351050774483541749257148724697790694), None);
   ((11998506540901863190226624609121183579185012623895017835633857717817, 6330882792589093623067618234608941559362102754975953268777035526999, 447516697752276710400153475914232734499961968154152974102849401741), None);
   ((13451841982955449195669664113082105846602662486352313854812175592521, 12867591802781228679998331222701859143431733928565364704567258296474, 20438157848385018380543923348916612838953443131821460319633638180392), None);
   ((14364118977537856915870124305550255365307918169067275476280844779367, 4856499687650262866496858620325782585117036207506209411791464206790, 19353836300150561155757406136564487836650383074002077959899793361052), None);
   ((20195713677181230845977779297632053670817514661334135341321824204274, 6385702358148916603600009175845159701442060284559811070690776192275, 10494163478239643214276879788301250401735581097660227323692495735009), None);
   ((20908526687180307454932462057422104163103325410442022473095296883535, 24595059687489641447086037233620158825907626301416056428897321147822, 4699298994168807535526954859696225570613180282302382103598579754153), None);
   ((7013735186682839681630042962060060292340481640585256429651735167034, 1627881877963123638042947771223425531112897990998704973484269264125, 6317813856549581057349033114515877342766263123290722166491568731729), None);
   ((17715217241754409036065660663332555696835438815240467022920170707472, 9366524607674884141351607068932349095869304842969763615751303539828, 6024516081780562811672806530433426592324196664446074750078657612665), None);
   ((5147988988095903898412985655232546023734638817078011226624388829535, 19876581258804127553351924156959346441717239400790260426466376321144, 22100342422661349465709829801633958197459640867414500160958259891056), None);
   ((4868571058632855420173861098016135546032487060576247792242946051158, 12644927574400497232523099912796909004135397961135174894691823750422, 20341975265359998696370024872190622786664706734943757507381887866883), None);
   ((2303069812799907977013155990645318965106179885262759356471428354739, 5257794083227497869979542137358978579387797967115533533091777948881, 8970285607520212511614215631505540871484839016008381474582771240657), None);
   ((19195274843171736319614080595559316032460549514340915294717232742275, 17763825359000962479480227144503656904396698411826603942515117560137, 16770424276044713789977773253965737396917671065919279242655647257145), None);
   ((7142829967678510392933566326023794826234388220536207790159262773178, 19705461657473660222881286003918980574991347312087520478440293249632, 3827801735081879532328454275023731696744531224962689693668627770390), None);
   ((26619475581668200120636969345737122688309359176838274316901536414542, 484463764042393947740960064421244963219573378952447378442133645027, 11067237539032186784332515714227599322208035263568932869823042858845), Some (false, (17410414773431137498509462177842026438958799642791931846123591976757, 17525948702088841961930220388308425680322875413373045031606230820493, 4381325236051050468776698068671023888537913715813278179435008403134, 17158069011225001750360518026067457262307892471454534444679375715360)));
   ((19992444943957627147711490146282425230399029335998675300767439396072, 20603142378062167510237608099204017873967022384292396842699135762385, 3988435551417723248950277041619835815537313318866272406518782465820), None);
   ((17790305778197600785629746326834541203469241280075555904746642122238, 11627922100026010738892996212715356507457417943196510825997200837453, 8632310763617616705336231391474089639047217998919714753615107378442), None);
   ((23880484352616239268812757746897961128878191676303417323217606354657, 24068062660406241621863923502381830866828004613311841809167367007685, 26915413101550852760417002368894043676058621323339251373191508793180), Some (true, (2270651297119103201783914224662757921910558278569621972508555726153, 24515562885783427950313986558488982029218784725443327952189164212857, 16514480048012296462474640605776002845227442568498403342260778670576, 24501195116744510610875462761566111799910867277697398426965222727358)));
   ((6322125148009527265110175459275695208198101433341522240832516274284, 8265721081191282966734630715307003820438324841026971855082553901481, 3735973732599048853663165708253107810890268189097894705279862397790), None);
   ((7057538527692129836119004218586956300656743614365638240588763743734, 22652885889456435958898656846563930278109763403780636876047046542165, 17850368619357759008156512550348866590298354225104041979513757189644), Some (false, (1808043288208783914130511323445664005834668822421430579352522812324, 1830407808299417900623245002109387920464557133553102497722937356027, 25558006977861644316760109836837293865876925703294185860756150717176, 17246645191377840625880066671323776689758337032291203735380862087257)));
   ((985774543540465475107953127437120668405517051385380681266248825256, 15593122468822896355482585393492596221154465604073568160671273251290, 20628976438995910310123868395863898780314941912250385856176210210212), None);
   ((9228398014951167742923750712836157110334247776271563286544029466914, 26458893256907146803044148974675281145387814888345974539800757015522, 16882212134244166139791726248304339508412842526067107100638127329348), Some (false, (17336384867192638277860229404783396197899878229366219979632357568779, 22056194308740833994136084292743877715358481103644052224621427501106, 13941078771899988184540891280382614084495571926600570610514375949907, 4099746789873644572043835295473840224645594520861148141875468507130)));
   ((16692784591393061259940836549235865613017344607406891102217159816637, 5968525052571710647349845974829562754180690211327142847064010841918, 2919388714212392809257483443547124306811906679012689433366753937270), None);
   ((9201867768259083086294831262128136486845265812224293158480229175917, 24479072535823091253104633538792749878339543996271070391704726597685, 8780424159518946843674785817086544035378303675751278253930119008613), Some (true, (6410832597529018682363313900572083946528923439166049727394073264832, 7287486585962284416616339142175398955141607810899921294155321888136, 11674521297054191380869504259309636926458739215172220207605996167576, 8316590211760757332426433443131737591781266882885195612669121304805)));
   ((8517176680557835789535773872338844715009766414003688497104416348703, 2827974450618320875603066374731936973823527438518258222315965167506, 23167145936907811678538729680072177896583231503381193355535238044651), None);
   ((9692111886737516486309988615863024806145069158957298149408413820062, 5505875129916823451489775018473668284642902097157199944315876663009, 5034443783824606406068120525893392261772485489492380318159535487741), Some (true, (20993318540551716968780216986349518977894533276551760127653430688084, 10867905522342268099870221847267073414426433628586916317383605821456, 18284329796168132633980413005574922179093847887632659656006002503334, 19256063997428052204452727308695628822941095206369873775780422013006)));
   ((11865546186579850177330934845130208078138259713961124324108528022114, 2620995966597158854966054701690302052176469093349408421638642094218, 22320889213298139832968234629087995571556651771060562333100307381784), None);
   ((845129169775197057747555067535689574203904740374430489087554988531, 13282874723326582196330187558286338879780565667999630047477018641412, 16813515902778102783079724766030378711771960708714073242756217912439), None);
   ((24065129622892327124915406393623589069068813828267702562881200086666, 4969125189890492375681347876654230013745679007600513832372327624403, 20582650993348130107255883083921427982676157403077167919219963812537), Some (true, (16129692507538904681900811212086998375370677966056902683374466123250, 18927593834981231577208013458886595754579175390130582321302393642437, 25304848567754056378796596410260407711609935393310995923166145658203, 21919558555001586633306927152870951973112318997672560087896287312978)));
   ((22374076319422036628401135007400044257349609585875075841231801910141, 18725553685419103798202398500068247160070515555156148264190420206368, 11100655058093169255968909659555981080935616859685740089301437213734), None);
   ((24911963377335819912396586575615659634433482596924439257619986111883, 26891338000913437051629052755866270993796445096493656934736258607687, 7880336499396613428603773471090581230671280652352102805284848022162), Some (false, (4845635859161651202833178188988533499504750032266776190658832519707, 19127239446479821963651056530090880927525574715974491495941672857183, 26521916700704470413699760099746862983377878706030608227007707932080, 26161382972523554808401708514538075949335700100276867389644997601867)));
   ((4661611124572873388669719220389262347498835192863265854347432743459, 1935763057144386442152826119592434296425378171505712830794793675455, 1571365995542130363092511246737112293294673804087972414746298347565), None);
   ((1417347425812937436704055348804945034493315468959414028167242861265, 17801702564872612851345339783181686813833163399585773254885157222371, 21780167256251190392320480981616580685890709222260156190281893926369), None);
   ((9065834509984518841634600486685579928340954847136452149462284899927, 12183752260095295240282957088588573536572637429858148751683341510687, 22555530194310853996211979482763971091551358851599920740828566175432), Some (false, (2132196406389785054771553314862534506737155396730550838700320213608, 2241928832894066136453638090030855417720933528617098956916093381062, 20494833717601805298855424759278866958434310829663437082300031439889, 21606802883774002105417862656933610157957372828188622741942897223935)));
   ((22762623673497461726841920579063258754134431943682956427977137901186, 23484751607477603858152983002058794166923167716206042071347296129307, 17533958794137964160602384427438294394395545716983422725684658275479), None);
   ((18967046086678796692173532533902358645140098670016265170134795665756, 13849639743405811872723223493297901090050996304277930632673155356531, 24117750619605987006231916220235975489979598551808320461516499243797), None);
   ((25806034768389500031396835388055779432938780100437209253067690730603, 15672504773372580766102399850555868665075437166108676435131701404194, 8087733826078333784834645778196386346175104472251455870751578957147), None);
   ((4138524091428820541080514181306394478937790863891044094779562717996, 10283080361296293650515110491033164369471954695549072336899556253696, 11108911709087720215106526284754576819646962323481853037741474499087), None);
   ((5531642406335915131665943110596129909055004079025158612281625723569, 21648908515000155446514448473195850730529813766890615271252664711745, 9838526910899987565708553464170976738353358131967616875269952249177), Some (true, (21946296272458695660060830119393495542471633285989867937823856422240, 10578961621636233996610096085410632056156838489765000276494277036185, 21955188074766054957063053920944064074841664995995160873329542417541, 1153397605775620764910932496980291471033725423539695631249585791441)));
   ((8404600736763170807685122534470183136172664507653695734377710577174, 18944148825482341946350853093796761868406609955308887416517533706702, 10483859497284747658411113690152396225599612509270493213388711565184), None);
   ((1977515750816475978803741114037677576887807826950035997538093872802, 9773594748401999140272753576324779088264279851145918592745075179002, 16329326425881757504391705339842306374474673649555416935558962812617), Some (false, (16368710227533738572352863767324677640241525782801503984375039492579, 26117647020596324716274447681790094359955342308071447030176110055263, 21191578643934580959384616150078388669101523492669794105863575433730, 17244804039970730237772586565256304327919690975073785421840761822002)));
   ((12944676775879436402103090704966885807134073978071071850702076141762, 6884820146172861257087469046149979965565865145095981820233093604851, 15834851989802075626471688242759804818394677282632539847006381397628), None);
   ((10678567611646123366008828697648573137938774150499131793868608861233, 7967423099801122275622952691101266587057009976119658782780840596362, 16234627499702794329029764920034802180621921060147949211993122263966), None);
   ((5857037870711215362425937412978628204364929439590989380042347846670, 8157188720850312964998473401857141173251740700799583162506772744938, 7288093040780377231601762735140908195451571277664568281492531077271), Some (false, (702291547364088692833954452356062808880029407587711138242754456143, 15872459973227260816187587948471868610496401045373103985687294879454, 26551024556918277077761049522121019989826885015009647539817912764344, 9224642982167308671750594538700508939848628480453369507736938877165)));
   ((1098598825115773421365390053337514420973849389195760475554025836390, 6254302405078187733585489577206438555692602403817166999984709401141, 9135361340602838639892406577695737871351992079312241919867358360137), None);
   ((7929211680334561377284462144323919196098767413238179002079248515569, 3847232438230307696983023495694846216261239981131201862919085871541, 25612901715831107693694439190487232427467321008871564657138074381442), None);
   ((8119983530780981319597179084783495213612553849224725467445045310614, 26599930529110522593160721318082915451742451389174479901009876619754, 984014987628020264692705751140436651559406033250659183894797099917), Some (true, (10234255089678972351518421899224851683965761638117859751105797639037, 18275288688866920588676566399003982596959085149807157324205707057279, 24029511500538126081011767170718791203238083790706034030107005537519, 23587501019041238722468768159380429687363093681963349280881239306181)));
   ((1260690847168207047891134815158706089208131851661949606261811378992, 26728121068570536377601174131860899299565916742971719446105194068831, 3983086013720207272537721339405477190738225876262239601408621976709), None);
   ((1943694419168276703505066486109579113383720739951255722677603500454, 18288990500512254820066369476323818839084571287682103398510012677305, 12051868600293340714232894034185829973170042423089823111464169362010), None);
   ((853502623339959322027727961858841452421851968274629336780826725723, 458700054434407668122198955396783198515547780832461817250169724539, 4591236427712686171949788355465724117665423865103018481985653637810), None);
   ((7039637938279765453198152201392835310138306215569918342316455224692, 11075196911306227397869051512396501571673424060317403521575159153513, 15851693192056080061555580917168263717990156999562898024689547862724), Some (false, (13045344588903748171354584375294245688706007203701420889109222426577, 14574887009447816672247896654305963976966377212801129816955855573434, 11974991357122117654353751637355349283064084037174846521827584152445, 4331013679283884109336376416192786643994914358550430533755981937319)));
   ((4380673004973138615391902778862049029176346300612517465666624920428, 14485444375653282335869912449254551268791599936669783201496797936789, 12379524116195555332219933252322210323860689861434489793464637307221), None);
   ((3241640021930655123167005667533664521274760769158425505323084617789, 19487460732198482647186979103917487855974015814640028376913348768158, 16350624845162107248034377391331887226138557001468684904991792712464), None);
   ((20687380204921609055508876224865609711010147733955878097606016383070, 24979233761023171386666040434615208545668571271641237930305257465327, 11995670442368597080862273525339387486409045793239814384040465854119), None);
   ((26217564425468777152699574108392911985703041951645951608531042983175, 20438442641822589206420907860550876193169332475883826663873579583807, 3542344953685099593545404991481905626429677337439851803288363526891), None);
   ((740207773214690321777328750516428317450532431883596540289752048066, 17700956473721218109816937816634829933989234174753684413218917086890, 24449736261633156877471027054358358919649725103658145137075017831405), None);
   ((16666904938275175879764320417281512341104434624776404678529273357064, 18667090429870656538285667931519273718301443886097123649234725238950, 26916014272481109625227527676009207407401926063924836928681543388951), Some (true, (12011558069225621499133630195483443506174523898636461426703503721199, 9181141273562478043337299580042190239666017502348997546013057043829, 4378729120778493266905872725089715281025162746975621320814666629076, 7571172209195928511063229628816154214869404773377223282158931482251)));
   ((18608242379445493764042193049651323717665884211099049368427547328260, 10914577940684735030641205031810740752063735382836963112432679305433, 22953289221970378576409435066157748366247119252192978693220813058099), None);
   ((17698799308767513974621098350670008128572727675960091750504325731832, 14566465419101177063962286093293098299928011227298821173920477773277, 21683885043906261057032244051194602705904739806449610604038909926130), None);
   ((18069212758939851297121704088120766999772881761977486834096321679479, 1409592419770606470013416587032853532517432824941493496862152774928, 3104221853126850167906069368838766262817875177610824457740041265771), None);
   ((7756071836815524345165308096105354410580273075881695378903643108472, 18291073879445815896144917655049773706402169764465343506597412867196, 21213411597164625965298554485131932972999836221555103652036436886178), None);
   ((13953139422837351824812184545970723561973093878796249092112997704067, 12855659872032193865051905524991640567779155665924350842480141546298, 10459730231808619872427457457156029644688573824709374623494780296841), Some (false, (7952864411002170626739956011513347352173494951827093014367964141772, 10998916120535928380946862796660541426206757811555772459024746269987, 18357422939231382221293010191624512315924439740346363708301325336270, 9120523524152775210185249073583501550144703593644095843469870960072)));
   ((22573636668649341698628819870098481170118939819327446365889053035239, 19356871175701712597816797695230365834694516628656297865054067501624, 11310845184719820684018344893822460406235635089311001120439972721847), None);
   ((5909811800347064704147825374230764758659147157081344698312600315086, 14939072421088028712701604122838017495596081147805861350984902015303, 10203025526877392479733904769164304327699455783847570234324527982810), None);
   ((13023372252879086398262965845619128833885603653072148621715598997346, 15772990140746443771233776950267489146231557455309581974808489985036, 13631626211483007718531104120833248720041502112277328081044844582951), None);
   ((8600848296984871096069791092417400580757288729672233907133817117347, 7556366790060804089913825832879820695308867035287141392344484964438, 7977474355223473623102763436955557141508207864994798404208952077725), None);
   ((22790273661369478988239565748428790198018011850784833730819469698817, 14827797315126374095046049507787770067659092434007941334284844532816, 8059159261173278098502883562097885239360694298556881996188090604510), Some (true, (15817607722230881461621550739748742183728078027614169752624841111246, 14066331115154446605925902898539502341907242829510578119642778966386, 19146313852214124039443313623669044148857512410729821283517729580657, 18619337402398128747022988520938846677818351890901056591881409094766)));
   ((4917671174197573327950786957978921328199119488450040306541446921335, 13719809592372877813182143137127832018586550224172736637917252593239, 197031434969164176980661132529084889740426147781136923512477537978), None);
   ((16106803821724806122013105694198049068267711416030447927402507548226, 18390259275414197935819531902684606296064057781860042929994736150200, 2377087186336276568985990084496757641727943223408293961266138440216), Some (true, (23195928367738024446003601017113602496536941969368857974698887192124, 14878353465696672194582697574253932543243700460139668820714050936941, 15450689423361445315725047728354320257232317990489871190555656820128, 20524822783505835148047948813760922665853980628563375397029605800491)));
   ((14298679497935997662285157973920099232857484871356274895997018272963, 8001856892122948649249778390850678193015920713012318530199709584679, 25378161447163687427450266530372821366568779063299013788936663073554), None);
   ((22362319027031383163714112215035597397696131155965518388503128357106, 24451348315144143031031356652583503024898939182095331220635702781498, 17735406579721999503670763957221764130523001564092978512172559766657), None);
   ((10032103584180992561446588301641648993325380860281645030667696453240, 5917501335626371399243502882740810867424412288472554489034636475592, 18619178649481723572661574336541829195209219790548897584659439294482), None);
   ((16459698819342205122311037545142851843994256448321462816643919802187, 10810853850921459138232118676566163958852241071912630469575691468379, 671329682758975857398412855349165265703639732853243225028058631889), None);
   ((25311079531567664003583250876152300321567294302024175440377708874957, 7845851752853801748685493585017690574072944651480193458734864380101, 5804131813670390599943739036274406543096529257535887785616469922640), Some (false, (9850718665858029742888942310336002137986088583006127560042166129274, 16070517600303725484779871845613289474374351703336503702036326687626, 18949224440905461972481400735958174206399383989021215983254947975760, 9653098851105289807805355528489473994010254437170660730520791936544)));
   ((26548361999746982395817422488996246289431243158431002696936207305737, 26379825474060195057882222568199891996614051010750615755113285577554, 16615258877281846760682856714791762243639103685716968863026770038368), None);
   ((900210323312167614229500701370278489640885804335026573137189958382, 9580191227033764877493602509328611350237116541231572204075011853757, 9144103066250820277311449465084455199586509153699717674012799489106), None);
   ((20401988135058317587224227232308821651561024491321996738511090290491, 18293263875950152893815424397535986868607942993099804665192975370247, 4191321564148485773766869846432726434702495993493162462846156467384), Some (false, (26465024537437178409430022323121166774557809915860274540078415533796, 171613580395120223329213808440381205679612573367073690483326172085, 17873125028603027175272964974776225205335147518634193711201517467515, 7443886992242441327115579146350286137200082121167398592618226808016)));
   ((1064300554684016949496088258256484412212711067175194622159485213416, 12947459818314732672897732024429259163069984795975387010471445159835, 21649929226206217102640976667894356902776219879070723245636262493587), None);
   ((14091742777777915918572610294540680314987774314385732105181235923679, 22615274366696343498387035243791757438501678746587338237642888444072, 24234950989185163744600817799018232154780669041649893089480046515452), Some (true, (4780568774352342470622201582567343965394519501403416122077502153047, 7526486119927525229434512294055243541065582338845551781656298720516, 21637807255082416690834460489971277294874991836545800380160867145865, 18092143470307381621720348507464234570655185701489795313280577434109)));
   ((24875530186973544597646951297753003737326797844354019405053540202215, 21857885543018026587582495390860273307420041726826917676823970272387, 24177602169284567784764728793776269433949062196474470770205728026556), None);
   ((10064653793681264858833443695365780813819227432668538700125351817804, 676355575777305479275073707041797800958013955729582242179009770403, 9909133084486502955644133965013794258765938512842920813881274390396), None);
   ((14597149710950722550723496147231870208760098933128197305384510821967, 23072507430559695010746872543225941324761168573091503198134307597042, 10846167455957252768254683600535279092072793538105103060439401061712), Some (true, (5521320513436234448262011758862064330806145989657332863529715543558, 26159593688986116803375435525327756293868966822598056740028981534748, 13946659446538639908836537767776511234812949725089966202477186296987, 22113297145845724986903742103721485225258568176678330401283225195283)));
   ((14179896490788889674889177696995715143450867299751153995807844909048, 26153814586821318481882782071436590253042351308433916361413992050794, 12564314670728344379842870733199045112540791451473095870003786649195), None);
   ((43921682534088031208284643410658632312672912512001834793728983015, 16629838767115487994212695053888606276810798758425638295178186237411, 20720572911791487703429985041743172536079458054730790973942236743369), Some (true, (23052557311665377354960217456345908507376444235580290682761668467462, 376890992547747703381765196165752066349198963159547280815805028477, 21184185770918317456634295516144066860237292519659994635296034549697, 26753504822536643540474281689956760300532024055896474002278909564985)));
   ((5610374196692141227155331819889442578459971304569273317103034855037, 15870936746910925590861396840231440370877889315892836968350413371574, 4426501642159265668753314748230368086850945400827320683076520859242), None);
   ((23160041618572891251590218879263996246851506416712835058994296919057, 22427971303189165640322768416481909942432593691482573932569516675229, 17910127920076869965976671906028053333588402551782578889009235397568), None);
   ((13737504897764730302208965721922187826524657014071347543082403868728, 25280730479959175159501158749164787017523119969217004939698602038038, 15993387967151841314974480324071248852530065165656827113027062002602), Some (true, (13337358397214185682796371122221877405754555786843207533560319475273, 18938471264142517673373886635529980227601517690425574571713996051630, 11726243437296400698909187275398556993618369825208928504502629695469, 9976846955304657365470836277351549438259571022780975481541233631399)));
   ((1947770610951150516122171416495287816371669999543722507596548317743, 14720033233047039748078050676127288853214948051433531463767283240913, 661986485060015773264286109632418256581466392162598655413182779607), None);
   ((14706390041511748626552976173243840717082128019939826139974302555487, 205867746000850723966151255357400527369505419930557329313396930128, 25977007714213662640761206457971477985741649103172473675684665450282), Some (true, (3787579641717068105769748682613967399678337476018974906088395244478, 17767724543728610191542968196182405463044601062850117945397372045638, 12901532704560865027696896917029767740062508879430741555889862681073, 10015456861549398583926152204309249074209898078343939977410656310196)));
   ((11230036314255809911887825818764981157816350282140567613644196333099, 20296851283243194227100901831911298786403705738809810831272143846323, 11450706781194381510365559596497473629159833241069375104415443271961), None);
   ((22589503777909353884056311420820798177662962201928559787081742109774, 11144242157909179629119951069057837771747026474112948604255982428491, 15215005557408791457417545804026747818954271805113332129115476011049), None);
   ((23421295477903999008920952463571370734213336801671726143782495883405, 12561197647915065696643594955742799945894908756620699944122193424033, 5658236171719107259669771197811114027533586594275949322567659116471), Some (true, (21054577995621751897477550880005419624499039320164900585747890882200, 3946091649948970649486305287893347627960443547048540849008919472127, 24435575803960884813153516808382737962594044574478773374734714836393, 16642268077468524613552763126462777263667428194156306977938645092300)));
   ((15504750796738724674292912000671308506836654325712453764684248577883, 5808628629102585844467694285135453625933481074506333946892351043247, 16956708862972660629568997949851965693893943988726899262226944704902), None);
   ((3454951356095718694862098386188785955802950896244342551289973919489, 4290894812288333733910517546346590186611737069624996114682825006575, 5792632330749262968025882802722433812191017297004588671847818726543), Some (false, (9431071497120775708426857366965841977897108173270629936131319101835, 22857563173645359163761472858197526125046947032577465625282941019314, 22813272142170334184159921581739100024226050475667907370273646966136, 16759978948964841350519186898806370247196966586416101285931711527095)));
   ((23451029123786353917137421908851891514906352356866865404394182831744, 1061281962298609559957537626108430563673316316279036625326332411228, 11165536195883894332429886412580745194471332082836023990521576847707), None);
   ((5709127044500827808079684972219993393930285840853788610930943918131, 9296739606194307502285553217208656771425292428864830827111669634575, 23437027779231877248849300535486970254664030045827844013447850370971), Some (false, (7571168268237135834894353322860653909782930045894146252242942983534, 13247033339159478773037422452997954516529394842100193135920350730290, 24269098410495642878363777707329970431115658847946099650160307046719, 10465578977250555159558060956558239122847740709889926486270719158812)));
   ((25612664670398314576497429158885923364708691727045909139929015647922, 19281857761606879008318617856632962767040627303727487420577457950976, 19047337771454717853450441597100165089302384041630072209983995784703), None);
   ((17961940292558551225772413054816061276898428574047258527818795149753, 26111147495291875500158801604261381258906333039389686243404941549606, 4647290261558841688826262907956950581062355978441178479070453547628), Some (false, (19202971040285818657546733600934202454049516142851927812936210028815, 13726138088221249880908097899800435982822246032705379899087095079500, 865684493989168057284208228940404608847823598923799495045452372517, 10986110398929081409208323200765079221991879736396070937392475867873)));
   ((21796547320380547257088900711984894027679200796756680628016619569878, 24695539929827701971022480326560437960369093554845859193277088159682, 6870760231617584201406486544143978711330304232625542964964828146094), None);
   ((2524035698569799558271083308243129552405911128993178115983661523302, 20073915326032055183844130671676000884803182413921323070841528471667, 15833891906935728480139967941014590972124815548419008007339561351565), None);
   ((10999391742984307813202570378384964113973535132841930101169949579983, 16646165168418815962615290201070660595446698045176063126503709154668, 26845449432466697592854115764796404787231819265327241774982201860135), Some (false, (23274730274470796460750395977830323666227375387895052883939854930067, 16257820057100407565474416769214521510235158084942198923020881961026, 7925788203256713052273050988911908420125707693300465051505968261445, 6387511880726942906718237174250636113535046727941755251026121599819)));
   ((7822741889118409854657703095766737785190744539140249764085646223685, 9180010217506102682941397578223247913157652124883146000278882423075, 17988603220277830969427030972118566474476480005129308475908473256463), None);
   ((21571163582033225113786739877264796019534891286915102275820877375843, 1674828695580337157063514118781911137915452813405963140740215378328, 15787705096870156277310950637803900920059179117740444287944561101404), None);
   ((730624532813377043412494572292378636936433512813647577666946894445, 23142795386650362502728259173659456324858427088221125961265420450597, 20064582772240238399234965283884568612873938879834601343308686903060), Some (true, (23351321840225655981715652127085920415179755888850302205256242766782, 1703055998734699548555633750315374915748014470549309583504318572697, 4925893805005990591218125788807746200674998144500230036698434613452, 26419091119245280169924550354750452900101164486194809179088503230960)));
   ((5954871526110391325584933243847474342811254281410407723389740361701, 18510680323172948608598274782319810540174883424343737853336851193750, 1180411605874763502902826768072734828201801891969456841335127070434), None);
   ((11715679444670961822985006715332073621457689265297894964454207599071, 4140530105526060469450761865744310465839911372191628534676639971397, 7595956035626337866398059760957992968029437061306003659499585910349), Some (false, (14092620353393462192401195392488456805540124203425514003634982400529, 5890728387551054198178530862459753582850914921478104877798093340408, 7263996139539494730702371317538705843358889877806419263048217186403, 3315250941068612783478562635511492792688982763717748547632726106928)));
   ((6634662894354255074638108931133788257042270571642837579629302248078, 9264953357143292173600431038540017853838734845120253021274952574339, 24227561781473735076141756504590997125263528465479432480663917168015), None);
   ((17343512065900714928855848047867813442066184995898454401715936897740, 1868102337258670661825268216577091948203404265745455727917081455232, 15534079962892850766673540821080005686126175415432885428023306217293), None);
   ((5619935274216987799892075161610282534700507583135628959396428834863, 24904564443748648617184613438435991632508116830750490021596981459111, 7011307580911205268140731529315820897258504080894669710852022384366), Some (false, (26253099997867050783075707730954077979505618547967539264772090496454, 7855074905461661460135008514384284544096471551968991900367033750448, 15934650517008240234462375172865600413126974904769730628557476215540, 752221065116183383301152700319360134171821122806257132871297256043)));
   ((23499529205810323674674370265577087189872999701077542228337446957684, 23993845086224404635589210093166887057487690696659610761473937849524, 16766208884223161261855098898406020665381827806923821186025810548546), None);
   ((6290826855131340314085085393749110491937177863503695058526394733228, 22401064955927889403174074198597069495201082288551217840130620831301, 4032034728930533631261558871131369808351451490501099729099196726121), None);
   ((8960287008660157153505885606742062450034536984639373241137753461135, 12679667507811980610110501005631631304174354795160209761428962380623, 8596289286449318322701560645898737202105187836188160324513070901939), None);
   ((12265923678345244008463542538308644968719874883973482794659855284583, 11553682759676152465900101587636080552197885778129376444671280667537, 11154426961988342760018992435691043984385928976116983108492923701829), None);
   ((24000337989148289177329853344175880963782552164061624830215765907725, 21528794255521189544327606740518935241696468989424094446130622506813, 1134247813326235788707085819957687387710778915615706764940993446983), Some (true, (13829184466191876128586762923640469768080715182355776729407275572799, 7186197782185382865038680670450241117187145064287926213474263672312, 2741243391031753097518338808348562598376442721388268757310551970743, 2465152699895289742624963500157899893612873750284434745696258649982)));
   ((23157773596354283339320390448416676455704737245931171583646188490381, 10437856776459014170147619352027562120281477207745953566702546071792, 17593967830024187329253755603768313322371348331023376425230099741158), None);
   ((9195674904862521529292628502232066446847429358436323288876056593588, 259838735521498758719470921662400127909085683709409421050700033370, 15809562331514331060979315809978564920729484040871720203007167762129), Some (true, (8135474847370520515451167216687846974512162449017710007501113074778, 15846552571126261032178506406772536099050131272302142826449159432153, 24654264912598354008112750400370475204274278423579782480379966651423, 14478487253116385856883198598566952910582417428877374321077750389573)));
   ((20121429992785929889875076803762099318083810772332388049912225465132, 19628904092943974766260517675016082266705850471899050794749425801520, 17019297559167469274731990669109579473272488207380759467971789000282), None);
   ((23049446506319032590730914176402562588054282266164439105754580405880, 25649884419605934997066467822407861115263770511109356455680193280632, 24935441229168859871568514537749103785990698951939943292646450103346), Some (true, (9420573679826178483944589001138630223938954937067720018526538018876, 13745770252567129916054284336350938850874153161133985437316211965419, 26877136608130088837560391942049478379841026687941994743852439929257, 13300183471608536677490987912198957167317695855418229186329442306746)));
   ((16099227170724175082031048324962809352117839588471034061707753163975, 10381801331433161664364316902689403631397009648955209567628392195929, 16711928107188217437584711929515289949616009114851630793131053777004), None);
   ((20105437988492789259759228074653416374335638444903720177434452145737, 22328902669650802190579101385617689587634741137718782514552289447467, 8216227795857025708500844736403062209633627917348548566664743178976), None);
   ((11952984299438602584221851128953026092501181829534729668486455976985, 13269597564668617927662501035022856886104181397492930805563877715278, 12669469153197001280908739229607595568245774532143467295182174760980), Some (true, (26571482881826567478352442162795941239618174381179290414086557865961, 4434655899240912153166632659053566516868273161419605381318207862429, 7824069630775577444074837213703767534999347616136918463673926323435, 11452392597932722692769847405317131276260990977454429252752417166247)));
   ((14169081687621575073037034210415997055675591902870228197985749902770, 14453481390593449810386881967562081934358426273966520743680359604513, 16004946105257855245868664122240267536304266637887746319811504297175), None);
   ((1546375343788174904781011117213376898289613352612983001404564220567, 22933972732299430788081086642555739445837363634644300617143770399359, 13638614503293383904866568546547747410914087447782275394044031578716), None);
   ((987069295148732251640461277669849179965026219789798070877416624328, 14785833625003710274691365617801112264947822975587421779763104518379, 8171847127574874399967572215893834562905549713394344969404555540256), None);
   ((18082538087510499238177315764845806381825293725234981697809851124492, 1607437875943696264024854989967167723845774186354412963066348277976, 26416814147148081041827967949451929875676627184053904361839545266548), Some (false, (7382196098151388861605045286088079898462052099114067902750027039122, 17415608493747695964385189423816856117721125637538684402539255414877, 14215742925971181564145990025126046944282634870659827449217208632360, 8562574755591997414996735368015447275320847228785359496156801655608)));
   ((637017379484093151360028330074458277589923208714806251812811480050, 24426795498533690031342169898947419208493664027087368092401043037658, 22838759384907659099723386817019943380354589361013417301836268387820), None);
   ((5707276765917000541610984418202436505108930764401552906621663279625, 19277929113566293071110308034699488026831934219452440156649784352033, 7033137909116168824469040716130881489351924269422358605872723100109), None)].
Lemma generator_224_ok : generator_ok generator_224.
Proof.
  pose proof (mean_lift _ _ prime_p224 _ arith_p224_ok) as L.
  assert (mean (c_p (g_curve generator_224)) 1 na224 = fp (c_p (g_curve generator_224)) (- c_a (g_curve generator_224))) as Ea by (rewrite <- L; unfold mean; f_equal; apply fp_eq; vm_compute; reflexivity).
  assert (curve_ok (g_curve generator_224)) as C.
  { split; [exact prime_p224|]. split; [reflexivity|].
    apply (cardano_ok _ 1 prime_p224 arith_p224 arith_p224_ok _ _ (1) 21612292133080813265705917321661423461929784352800348826619206488344 13349314915653858323219444307883911469681367198572946384613691436854); [reflexivity|vm_compute; reflexivity]. }
  assert (good (g_curve generator_224) (gen_point generator_224)) as Gd by (split; [split; [discriminate|reflexivity]|vm_compute; reflexivity]).
  split; [exact C|]. split; [exact prime_n224|]. split; [reflexivity|]. split; [exact Gd|]. split; [reflexivity|].
  pose proof (good_on _ C _ Gd) as On. cbn [gen_point eabs] in *. revert On. rewrite <- !L. intro On.
  apply (order_check_ok _ C 1 arith_p224 arith_p224_ok na224) with (l := chain224);
    [exact Ea|exact On|vm_compute; reflexivity].
Qed.
