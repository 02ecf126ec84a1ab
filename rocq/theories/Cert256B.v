(** * Certificate for the parameters 2012_256_paramSetB: [p] and [q] are prime, the base point has order [q]

    Generated by a program outside this directory (factors of [q - 1] and so on; slopes of the chords and tangents). *)
From Bignums Require Import BigZ.
From Coq Require Import ZArith Znumtheory Lia List.
From Verif Require Import Fp SpecCurve SpecSign Primes BigCert BigCheck.
Import ListNotations.
Local Open Scope Z_scope.

Lemma prime_4b1 : prime 1201.
Proof. apply (prime_small 80); [lia | vm_cast_no_check (eq_refl true)]. Qed.

Lemma prime_cc139 : prime 835897.
Proof.
  apply (pock 835897 835897%bigZ [(1201, 696, 2%bigZ, 530523%bigZ)]%positive).
  - vm_cast_no_check (eq_refl 835897).
  - vm_cast_no_check (eq_refl true).
  - constructor; [exact prime_4b1|]. constructor.
Qed.

Lemma prime_4cf : prime 1231.
Proof. apply (prime_small 80); [lia | vm_cast_no_check (eq_refl true)]. Qed.

Lemma prime_50_c27531f9b1 : prime 674835817691569.
Proof.
  apply (pock 674835817691569 674835817691569%bigZ [(835897, 807319344, 2%bigZ, 68956115520221%bigZ); (1231, 548201314128, 2%bigZ, 104244327553254%bigZ)]%positive).
  - vm_cast_no_check (eq_refl 674835817691569).
  - vm_cast_no_check (eq_refl true).
  - constructor; [exact prime_cc139|]. constructor; [exact prime_4cf|]. constructor.
Qed.

Lemma prime_88_201d608255 : prime 203279892443917995271553621.
Proof.
  apply (pock 203279892443917995271553621 203279892443917995271553621%bigZ [(674835817691569, 301228664980, 2%bigZ, 188684732053507132343261780%bigZ)]%positive).
  - vm_cast_no_check (eq_refl 203279892443917995271553621).
  - vm_cast_no_check (eq_refl true).
  - constructor; [exact prime_50_c27531f9b1|]. constructor.
Qed.

Lemma prime_139 : prime 313.
Proof. apply (prime_small 80); [lia | vm_cast_no_check (eq_refl true)]. Qed.

Lemma prime_100c3 : prime 65731.
Proof.
  apply (pock 65731 65731%bigZ [(313, 210, 2%bigZ, 56192%bigZ)]%positive).
  - vm_cast_no_check (eq_refl 65731).
  - vm_cast_no_check (eq_refl true).
  - constructor; [exact prime_139|]. constructor.
Qed.

Lemma prime_2348cc0b : prime 591973387.
Proof.
  apply (pock 591973387 591973387%bigZ [(65731, 9006, 2%bigZ, 182166532%bigZ)]%positive).
  - vm_cast_no_check (eq_refl 591973387).
  - vm_cast_no_check (eq_refl true).
  - constructor; [exact prime_100c3|]. constructor.
Qed.

Lemma prime_47_cc2330c1b : prime 91314262838299.
Proof.
  apply (pock 91314262838299 91314262838299%bigZ [(591973387, 154254, 2%bigZ, 21778215185153%bigZ)]%positive).
  - vm_cast_no_check (eq_refl 91314262838299).
  - vm_cast_no_check (eq_refl true).
  - constructor; [exact prime_2348cc0b|]. constructor.
Qed.

Lemma prime_186_e7ba1b1425 : prime 50791017540450015071456350284045037169936855765408748581.
Proof.
  apply (pock 50791017540450015071456350284045037169936855765408748581 50791017540450015071456350284045037169936855765408748581%bigZ [(203279892443917995271553621, 249857558117621140650922200980, 2%bigZ, 10522302696844141833704654411382603439451047063430090773%bigZ); (91314262838299, 556222171232895964806580771387641320437420, 2%bigZ, 14932937865205459923345687700484942729103748242283129636%bigZ)]%positive).
  - vm_cast_no_check (eq_refl 50791017540450015071456350284045037169936855765408748581).
  - vm_cast_no_check (eq_refl true).
  - constructor; [exact prime_88_201d608255|]. constructor; [exact prime_47_cc2330c1b|]. constructor.
Qed.

Lemma prime_256_9b761b893 : prime 115792089237316195423570985008687907853073762908499243225378155805079068850323.
Proof.
  apply (pock 115792089237316195423570985008687907853073762908499243225378155805079068850323 115792089237316195423570985008687907853073762908499243225378155805079068850323%bigZ [(50791017540450015071456350284045037169936855765408748581, 2279774945345390344362, 2%bigZ, 95942782845218168071121580154439858459303856030010190829138617425420981635801%bigZ)]%positive).
  - vm_cast_no_check (eq_refl 115792089237316195423570985008687907853073762908499243225378155805079068850323).
  - vm_cast_no_check (eq_refl true).
  - constructor; [exact prime_186_e7ba1b1425|]. constructor.
Qed.
Definition q_is_prime := prime_256_9b761b893.

Definition steps : list step := [
Dbl 0;
Add 42689254095284801789099920966955649323954506845923294192568497202605919092408;
Dbl 51673714761052861266837783921944389330773395491783701753262161298699152129019;
Add 85204589357352587477619779936163249658221239758711236913574474000572937266231;
Dbl 45478238974420428805565060743855726520155458574604867087259229094193941759354;
Add 18971590088876290159500339878498080479247202729178253580237630588803346352676;
Dbl 35326446780531245928393247103971724199147328524618836259810371703911844594672;
Add 21730790958406183655320053010541810921888518465560581540338454303279276326611;
Dbl 104785401929822494536759363603823867126715681453641397053398916448720885105784;
Add 29778130244552924044244200944047629978639123377157437838474944503145869690718;
Dbl 77465294595325627431628095259744222442619479863754456390189356274079471376121;
Add 23420528414843251115856617366693032738528933300473953010753791494798816525676;
Dbl 13028080616399411925305948071101686055129923711645689654962739089598360915914;
Add 113813053310747088115063662232995676758661973591602990086294519637390235984493;
Dbl 58681796597764563976253153959185940652485060048772000583301995007931977785455;
Add 45604876736217072532399347166383697089807100200221945978834035008243671035121;
Dbl 111032562453991981402687299509806051810085988861241705397786567062100377278156;
Add 27297831152172123916115169540402428262873778734030248798814607775249113914674;
Dbl 35251142918540465618171104406520836474019957137368589366440216748818136966199;
Add 72413671754985357271840837936485091276060050305735304032718191962450632969612;
Dbl 21177645552683019203462871141549676661608868770663962437314853048129664981527;
Add 110508209262479072856166550975815399296488091664908112841867516299336414911776;
Dbl 71638738701428307943753492237293968123299306616809686296103069214959290636545;
Add 24149012507497997181020299803403552522409119103205895706314029194560320008347;
Dbl 36376859691496542726131147436532986749850773154972930117285606262411591769788;
Add 32860169007256367821630625326951257478912135574322935604661949721841268098780;
Dbl 56830521072188855575648846003083278994032185145494770358628174936636139233143;
Add 50058441965521288012411984761189271264742564568071738557829100897712677954985;
Dbl 115106335598246934326048278669342250995176469365628681655089857178002740407892;
Add 34116404680359904249065999223088326932545703510991598932424773344267994706327;
Dbl 45579472086367630453295752514944763508800104669315634647033863879778222798295;
Add 112440795250754858553077155812753217621005724328972282487560479608556067921628;
Dbl 71089629764733238700292251889066207912968927118736558276445912994650685672448;
Add 64678220790204346404685008024790868996950739889976788411143555491430913916463;
Dbl 87688920241050855416621524678252641333601436767559936941344807383063138415440;
Add 85061550919223242667037202004392095745225574354361450245575937374153088087799;
Dbl 92375577987480391712327842492578794779842969561523485808566571725077680429628;
Add 76804092232891756405413257951334841983667829097694011471168235866251770305662;
Dbl 42121237051834706175257326027640464712139821296845254027916285321774111817657;
Add 103608346492367958236422686048121872789158629639842489710155641994759238268506;
Dbl 27046459155622904379254345197958361450767848050618790140477951965390294480195;
Add 27478157171497469631668806892928845837298384726930745990834108815801800884503;
Dbl 75034590583159473381923987896764515939292663219880065648897257249419871545002;
Add 18561362419660331783882657879023279280909715954644001599047217204234524743003;
Dbl 104105967803453027082009740028920539667446272785165429315685188851029531558096;
Add 14505013748584566590670258755004273236104651140513435925186997711041445422728;
Dbl 76195357456504560565504131285963471724454940881970286637284311331758318247484;
Add 10573895181447997339724688784304544109921611495683332496925668986135115647376;
Dbl 108571408937972820960718994522030053495092784525462855663930565450310452086049;
Add 8381422650598728767242616763108131844355576364931617407404860611388405931092;
Dbl 37601002488237753801766004016543156182448696122417411558251928565866242841399;
Add 88954062539472003747092542566343455669848982312673593770674401414924231572602;
Dbl 15324375315057050068751541248814737984456692696949555840781097021620502463767;
Add 1786594303165241981696830086844732085486205343808443602228025706284524412588;
Dbl 95672397797542113422336835349988102601741599788959534720615414729594423596058;
Add 95605220151528598973725251973878858066411776272272392696306979251901605844312;
Dbl 29196147092611455620330962767343337120434358159539051667471749737526623825551;
Add 99268597528715911376248293973447152980456726185967248900946203801228544893330;
Dbl 38536055825283257992402320235490540181616434496756030712640349366134806241003;
Add 64700723465762631006710721496053461768333858540118814696816838283278115935107;
Dbl 112060087435759963162103792216362493079848776156161783278393125023933635501208;
Add 60417372942827252192468471456980979090548069127049048222774603115245321643240;
Dbl 88618692519380730601225139168194708971859130667325299254777211468463823958014;
Add 112001944012476372946151070203967364581177204757714678121956068215592598319574;
Dbl 73467521702220089605037087531357923804311992137778563802299007081841643291012;
Add 64056492980083234399382785655924287593981285425846198823652299839975670966372;
Dbl 1487582125593900224775681995414875675055698263695421911063875661144706704367;
Add 1096099200411207248586933048856729742233047237669984367760361501993854632547;
Dbl 39584429349741330252036490629698091657131827067425297546165554039647193216235;
Add 26522265065888429838532073790194789814545740723594452222858047191117348903315;
Dbl 6160966074778637780539195518347512119324624693394095856835812560019889408155;
Add 77728157741225194586272360555512166136677797699488542819985082402885864944599;
Dbl 78758448317653460400540678655768658099245956709367497375576952226985181846380;
Add 1061721604497228925003230343678498605666159402218302764420134318943509085294;
Dbl 63379485679587974165149775377827506277078944377032537007344536179547886209336;
Add 113567772266697207641010305368850858543801491728537025654414668943275519419168;
Dbl 107590876825326311826353212633404965449292132744613072395799123677537957060526;
Add 56429504885951045496997612519028483420826793399466080460682775471450567158210;
Dbl 109583677665968228794440425239341217891051606854848349839318200112290327921344;
Add 83496872368496198444357072700286573742720007609104675172467810505027719336772;
Dbl 3631444545990761521057103576494459535258507502196154248554699453560341000178;
Add 46052887526920356019416087835471224323441117700524492345156197621276963888525;
Dbl 95119373183311225825052433244720841828298135086411082579941652111042804100968;
Add 97875447825798204079109052486801973803323579037834741331693750487017244187446;
Dbl 35658901661973456267295143488920939090123810476854185238727861885324664060659;
Add 37623605649873057555264372786311037211301618570872498335629687426679274230781;
Dbl 112626247434703353413748578051256087332724784131308536039805458395662173035924;
Add 26686397988263307435786907641189381195329385602757442231252748890144631812473;
Dbl 88372400871259593018500661002352269336721891335078949706894775176091584184316;
Add 79443410843720909368204282859572883447222359541558691915197717046005314809748;
Dbl 25675958556034965770880035641828570709520750838491490865259852171626593188685;
Add 1375504112002755512488814959568451273603389330934274361461769984929803799986;
Dbl 31859169796109807129443057450415034433593642454251615384613613956466591602174;
Add 70135371441930626253447348544034491225496550730783347517210430885985973937456;
Dbl 36070665400252247332481149719776981970770102670136861186238111640966188287472;
Add 88897961521117808681129291174966656785634524032617085249754574077988446658152;
Dbl 62726558443893499767296871046788840286987884243963401979857528288951982695921;
Add 107196123066308916706252464233138173528624495459456558011644246383702835990659;
Dbl 76521180658418162140841163658876093545079516123152224322312142820367772582948;
Add 20989774129732827092947835232344431233465313750223503844974964831042500827685;
Dbl 84638391598860050206145165591883745159595773842136488417469990850611946709162;
Add 17828283030787009094349188485390128639911394680473602799576372423730936338228;
Dbl 89568877757026520635371338786145229056780472434604895567347879502198652542233;
Add 52560074618530632709220617042689807009931482619211762569907387626424878116109;
Dbl 101347577120211458920583045908623119338324425810758023145888748292345301079466;
Add 16016269663753162739927177961776093476228336300131315122713600770595683850158;
Dbl 86137227632284347760691352800838763845554150996616412114539502864272226583724;
Add 13876506679632557729078676219128868605949628064913751086092201679726070768676;
Dbl 47056684454464989217861535886196416174273115212878084743883861131309243962211;
Add 46223736028622491250413657068165535226703122857962949560991248279413070320302;
Dbl 28945879378767687984251281114518212002728877093705895908957576636239035333971;
Add 6480400264077909124166132831166294111163126825158539722348934949859772448269;
Dbl 94340142696340976713686345966433384078759649706601876877534626250422239098066;
Add 10576210067650733641339920968609029474862241272932019162687740675064798199573;
Dbl 26632500693549939272666178702291620036200643472155520495723156288855257083869;
Add 77115411372919497222391897790369846992207334272652146298750054775017359548828;
Dbl 57677839724890208118665117293540098248003650473934321876759440259118686816730;
Add 32008235803284864286354573317356194097581996904992072024713563810982676376082;
Dbl 81709453863411727004892912627347763713131874281834007589136841103925906532766;
Add 34184688875196259523605573598077240601217536441060042865126813631007067749681;
Dbl 80347805828134393313204955227845044659343322164697686351345226494179028405830;
Add 79297873605639794568609757979243770460320129310543184616544568375112458118077;
Dbl 53620490851471841197250927078982455226501714394376131928286437931364043921003;
Add 3211505438357388645734812780366898519247487628468135123060299080897346245995;
Dbl 33386218285418141321559229631756425600846441130641436578809599511932197490262;
Add 90428033898675248890691601315100884475460446857935128785536969580388366330274;
Dbl 4858472917702769623162293918300662128550191365758865508251701023944183849033;
Add 110228509298611968684536310940921408692858873597792048055217139292480690775545;
Dbl 112106218921510136612307745382364944916106569801378467485473984477028294655520;
Add 48880629430625152838909278185145402128660130373401788394943346373003943185618;
Dbl 48020379688305065624193690452885910135853120500307599311583268370619942349886;
Add 112745266671807772833907404534629729317307473953027491248281630549748934684921;
Dbl 73357095289972978071438917001032929828100945231358536666313996194075118961665;
Add 96682689416621150224401209103338703854870387171431388237377779332024671652565;
Dbl 87314963436894252109468587654641926827594249831638408789876280036285030795749;
Add 54397107079098249152848647357964687503134155555273364791574038545287390824473;
Dbl 74811022167627622739901346545204328286512340732671217605330804754860853816583;
Add 94357728437971411809347774851394015597397106361730121796006815132676599420011;
Dbl 3197713731320148766993310497645032237873373171644596566938390781988589445263;
Add 30074604314723699705693083831690230088623013182231034697119819092749466428508;
Dbl 44767259816766055204423007029490281690311392483077428627208130680069685309829;
Add 27683452796032282272609589946147781832723775875488866237425210759960815370861;
Dbl 109671102819132245338077842944870253715927130245251981784797308245839397626358;
Add 64288810144740139857880194875849953232295061878902838108197556713057041472815;
Dbl 115243228459057103017501598441109143365715835477609653118815853072557108675892;
Add 53546014144247915109575494998508069241469744735072450651661170972010592818058;
Dbl 108936178797163671499850960170321995808358679497860925282423645374227543080644;
Add 77851792640886899494811199614784162551626357805374564219063873835194073425736;
Dbl 51423123214515079375958577721125085326065809125884347877697644571374352337193;
Add 49314480266672143234573525314054172705520558783798948384431763316731115593016;
Dbl 74859660339330402135642447684157576205599945640374465715741972744686113966346;
Add 40497615024275664799938005180036639393046792343872590670367938178397968224426;
Dbl 43925464248426103251354062799816048731227921362505504344258758728079919725531;
Add 63724674373318393946688770064361027165823038452017705374047181515691243901735;
Dbl 114716771937043512699904247863782182207141096175457844442819242187973618486319;
Add 70421486885223898330004977794909898127517096506953358730450587085706137416434;
Dbl 86536628607901684587248929791993827735393870678426383927362172764401196057899;
Add 80029201995389851399188836295440530656211016093854406036010020690721694383416;
Dbl 4062589110254662446267344206270404529522340538110820130690670195001340646068;
Add 37963760702930958976693561302229806378283406661156652978826304594197721251776;
Dbl 81296920692774619247248038133756709958601587394980264574068105713365087554019;
Add 89375195657806665209249129831198016827559148508572075212109471094164179138041;
Dbl 35347860531238615487067689162586434656755461432497861530083281848433959977978;
Add 30242468143547822646875402449990380303544827317667841373218533355954255474151;
Dbl 32177267977378690112637813340963339947488063086916004232117186249955436682411;
Add 958583649685864953183325653131600941380380289487216188850233656043143919535;
Dbl 69925021704880623883272621747704229357637387828285166279609659804741538073893;
Add 81945117388120579118455321666260680087416560662157774876223550500255505038850;
Dbl 45923100054700994629428433347443020003144510184777307770136397311715847057565;
Add 103429738889600987239130434648611107830894035640122058035415212581768995790748;
Dbl 15611812860509411343693580744448490239909490899578684288245815498000543414169;
Add 51718470115126746954352195962001982747483383568453479108653205175148332911565;
Dbl 94422184603614258703491645593329063708921982227504743848885278994738636085546;
Add 36127879240304321635684471970115475251757324232870733798052812120708858380416;
Dbl 66077988538978302376711371976895108097325873367828478189693497646429404108394;
Add 48872742167324623251169542740548851869760349798713376099380473695018151093453;
Dbl 63851260192015120402452060338296278707461040902138128652063176807919707672127;
Add 29851461998968478427155238694556915096450970120418743848641913594163919689798;
Dbl 39563742331829721226749756020647293444182103769027208451474546580306309617336;
Add 108164539029720964173958339076041449836657862145374760279180609879461945172274;
Dbl 18608607402090393889230113218548616901630932535515482683565782411892040638980;
Add 73659851897784911936408968355355855897402370978608100559034289129545435864057;
Dbl 96891958860027846885695086308831062442308228037823546667621654202699630680545;
Add 58243174192039869841376847119384410502363666232190541918479495773510131290703;
Dbl 63191278318932440436746976723433556914070786205731488955937804714320720346823;
Add 2701534358050303010461666367339433021726014539116306802557009733788166558667;
Dbl 14602366014695430902929916229464003392122093160499471405123676035249585703412;
Add 28693225183282970551239219047738430019923117535648122042766186467618264900691;
Dbl 35810271205224334298561211647970460491614013379350046205663592506675466623378;
Add 2156396002913976616151927096070595874902595193748214936130378887190563796320;
Dbl 85209453958032460460622752490471308564587174843743909362626550443281960999674;
Add 9037878709422234312282807207233429788398410651657883098298604814262566672142;
Dbl 11174277044030577107990904731689002570695450427897781410159292269468125089866;
Add 81117786741454143156230642922090275665729185281755482883032590182435679598054;
Dbl 59652553539416363821493143438799781450436456057214296012106709673451898083029;
Add 12791008904450993640195333033905930645037845444031575690147769866041753292936;
Dbl 96958610379925990773407505295745404157159168872356787286472835382961468294358;
Add 435710208986943584829487869911574631898047730300754892699226595005747364167;
Dbl 26130073563675265910286641206014085917074331287144124164459200572061897048210;
Add 70523554194638859289152032265841295296133575295683049292511472008143446161210;
Dbl 14069994588807156645243972719736143236750606875291851228858201355596696708519;
Add 43909403497908544306622720550866048022467549153600981491886615178516858779076;
Dbl 34335935751527477772292320197544433790535926630480258249777004880467350244759;
Add 85833958795791099049025727302391152249714108380451434252894766965313688993758;
Dbl 105276869541903553271246364073839496987714090008035318958092651572463282231528;
Add 21763630349749906821333830434949157413644393401396222147650607227163897116454;
Dbl 21290673543849433603304782061877708955338429178787569236067242485110030639194;
Add 85771036083896851638086780337039501545008288476814555919992912893110282036365;
Dbl 108387007128591636249702773112165836265074142114246382139244145323332393698560;
Add 114630472858401301940144398423253510436200986420878194086050056463246737000561;
Dbl 62080070540889009306638111603299139594955416952677747112103299668598283298979;
Add 53671588865036199572068720407562947886748692643175516877392560498678039306934;
Dbl 58494003591911114375785116882940896210290203168598155485256625128085796019007;
Add 56720104666273335886145599174044918948298942599319249763989796066271879514124;
Dbl 80862731766201783767410361625198231018803735141467348949853057936341783093465;
Add 44732031857225091074276183682813530426044558718577177908986990806271452037546;
Dbl 22719767556351938601196149915471536327763465695402323200425548301974039682932;
Add 88650915051359711760652226584237163152983099123458064626729278462463726867860;
Dbl 45275619254777438434509154214176273024143995646707054292794613191766982929980;
Add 40952387944811243035468233111644299558798828735021271245419719857763724342964;
Dbl 7187982583318633780483337283016648819665587340622227847571050365291118755155;
Add 12156985004754030044093580097223230632847264829011077824144148505117839745490;
Dbl 34924237238741331503089932252760466053638879925522949788950406077286445273494;
Add 70279708742441102076630812990295332733638321456831547685147698468114971885635;
Dbl 8912682349486706486043602943513204896272530151232647616854206866305444909294;
Add 26493447669500481011767104223054687909136103767161446324940089615336567707248;
Dbl 97827144109012991116690630627493756525467161051881452157787631943350113725818;
Add 48711068153894283898341547894573847648702981036121357257278825347585248558461;
Dbl 53491447555245150494853494910519905103394938538388519044230142844854886400978;
Add 88430515646448410898028015108069107565069005770279153874471646559451856578510;
Dbl 52668937764381880940587211159882549454576145221734116056982219903508586398574;
Add 83435784125400835923062949784050097315070173914235166197443644200215613284527;
Dbl 85380714236855870792835944544991108053390083608518735383165910340477836030570;
Add 57530094176800308796692771555507363775452608487716259548847875613792079542692;
Dbl 60710688557405455002420188360409044468072170910252857784666710255655735598047;
Add 45148245544875734465826255339303087099776516510643528349133611583081987814170;
Dbl 12580882063438197901011279642867391492639078994054920822872533231687165266123;
Add 95477484460306171590168833457269832459695419879031371214107315938828971948000;
Dbl 100775454356211790810635450025186957171672863294193228979866679790500490593855;
Add 23262597556853203703931586201112754693827331636102267458409609600946752412469;
Dbl 38318910251903949103055511838837802167083137951490545170471257930452696116226;
Add 95778483036745308465387436902230063762667017344478696624266555212570115657604;
Dbl 35137546071184391035513621232917095881657151561540800519618687188282366981184;
Add 92144468638682675377911025834699203822038477119960901944391123785113586841155;
Dbl 19743452346167720588287109369456098141488399353018948232706909450214640610044;
Add 15922223236609802628107611432807040994239833243550258232115314827962960965039;
Dbl 48041525354106647113170719086778809150865829304359248732655693588127151082569;
Add 41792987720701212687090345172669408882594597169864170528846961891475016657609;
Dbl 91688391296561767310673371112591434951413613593468930225935922889478048500174;
Add 30574665707508659662960610585519111816938774693887312533487247375971576964985;
Dbl 56633020990043995249629229767529229489161273619560825191714338185231408762468;
Add 57992107646530105845868457382397958973657921812013067253594302886422719020399;
Dbl 103672447991138255700101515520466741442366447575288554413339861441770656027026;
Add 15101542380500894628974048933942853760811521403672597351303031508063299509116;
Dbl 37385687313319500685105077211699686726624650698402586385406571415284627592887;
Dbl 32490359493618018648857836897289019791602115083260209392367598417306329244979;
Add 53734504239223123905816844869947642084460595417227695433648608233756652889128;
Dbl 46361942842088783083047309207333279114772920354305818944323667506766344021985;
Add 84220878991337214080415773289158916643237776826794150782645199542444723911361;
Dbl 109562982101470010345954493770592404003681100578639320568429862444235421545843;
Dbl 30322025206693150711873243158033300344007038978382014113129933182067093441842;
Add 100079252191782274186049220831645874491972217437325432518932654109509921063357;
Dbl 39797892467517939581490981908974838129140132712308066697214783567940573982132;
Add 42357429706910883675920219255796785340839238650300690415055656383991755687647;
Dbl 26706219666962713782348960379847017534550754017566410359807102970194054006300;
Dbl 65701502052097823873911055436867848965375292008629764770843785995052066882960;
Dbl 113765456975832513794134759835209065603282439369488484684232493638967143649232;
Dbl 22385226357398327419552186351072799581916039430331040625965652640675450928367;
Add 37905267663287576614281933834793573203375915580353415225161540401104962091628;
Dbl 84341518985456410303660578223723037001681431506702990491229453231522195170598;
Add 38446473984931835943335721266557243555675753427068277502303441107241693950139;
Dbl 65376251764635569677514661877436285668825873107270078137586886878975615239254;
Dbl 55839069150550694500257260701509548939002444759751201440368300143607911775512;
Dbl 49689271340664392503096433732659655997014012095473896871564263126755981860725;
Dbl 54676077833226041561258157581939655824064679750205481783996587813245473126574;
Dbl 49660862295805826449968931670378864864315731366689715879905865481344373146011;
Add 70124389976996830012454644186466208606777204762312060995839069342191818118015;
Dbl 20776099248464949240798713720701790849572276592472150556810216346531304481789;
Dbl 94340641945958219213597094406514728204248436890050900484102133320742947691230;
Dbl 108420554953019456561941408569468387980315743410535748050246028224480939648314;
Dbl 41855491727131886299249961569361013359085768248044681787185129429276051679160;
Add 77690303703223666415989340743137534888598336059588691877005727445691733166212;
Dbl 84604120591532808305625059707863972227245803297735876527808641344043348429688;
Dbl 20124214604099841609241369375556522119786051868171581298083616639349056374739;
Dbl 80596601561353788560898481627492959585145093784127953680857928430595643906958;
Dbl 55962742080542405533268554867781079450562614590442679527189082943799348903638;
Dbl 17376300202510348556271682282533560995482512217348483920429339130211683252597;
Dbl 57932855837631584939675230393373927811116577064303656272755515462017074700389;
Add 45330385013272407134523728582848655982362336213713374470079102602115970822202;
Dbl 109176034055065831472605130412914620445586201039894386270618210848946120883914;
Add 76080692335039450589542257375318523229471363941541970696403086655057642832522;
Dbl 5804754058282329070607092420667855120281966429791354140564177375858021807821;
Add 14230770795226999832166873674281426034957363102068751103869676036299702108555;
Dbl 87652216204586654397663077841162199744337581135694764979506450853867157721209;
Dbl 69601124143632711871993898101519447360559200272325018812412230100382130583632;
Dbl 44845600261418312547994718649759583317312838566435468860046824629456963875830;
Dbl 66055525027801538277784605090462862848639542518819121196409060412007654895932;
Dbl 13828519078964329289338520810531591110451014903929627901117208784464797738450;
Add 92160495900089098619429196857131203576214282569383574405562266276938843925158;
Dbl 79531580632009065208607549686959955287940571355720241802025646643722762450797;
Dbl 88372247303801588106884257790108658868163647070496313783931266250201242377063;
Dbl 38141654240861411382951343315620571832353789775100291924318430391587219288800;
Add 2220447670405853257261121631038499973558824922373796914760832592101567503886;
Dbl 85716170664936767825419104351245054381199069309865354964549208312100645035990;
Add 40041806923052341460557664305326026743859654111087382714754162572014246580657;
Dbl 61254814795880955800755932730405629799228129470500643043333203070810806646953;
Dbl 14033790958872684132051810821403049580804645194819038822869063914783976744995;
Dbl 60045190404404810463765983235897068337421480957783356053020496974727254811706;
Add 42066744506341134861791207631702582317327360228790765357587221780768164769958;
Dbl 8011161330973697186052695959173037526270876932535821106373680392049717392386;
Dbl 68455853097826553036868538736330750745728814923537359009340555158513480843126;
Add 29133946578628848122410886745286020297600751783818304586268790718293797142436;
Dbl 92238084590188532262874458152235166886505078608431543597572301019922691325424;
Dbl 61611839431906950998667635558842081735027514837116353260720611147570963573587;
Add 49108122612689452513848856681101310694866304519357559159934549496072356052562;
Dbl 82019019198770952570565702516407465978099749235831164050100758283909964387571;
Add 6164926022078623712696140299828056379148219980712288527383152116427718340863;
Dbl 13169530488185843513125602802674493597877729780537986773888552345607594212048;
Dbl 67593332551685787514057847387567923997240840296921416263246360010739978261901;
Add 100001932751225090332111996864581467682925921162871387120087455491526765973865;
Dbl 107740815615870043764584200126022830622508729848945386013512658788785359593153;
Dbl 12031155232607223639346012735496070181199577742165365757216256521115624818060;
Add 72727028982686038114576357013330313386831105841976619762804545333519318168957;
Dbl 31544791555908997616591502535432914746881852264231859977841225746131275915072;
Add 70434134479956632479714183346713624569670124766245655461351904776656921547923;
Dbl 23372000315588101750191398887600565539736672406286011340597251126029778683922;
Dbl 83260068192845863015019551370565221332727881802971359977371585702574997171230;
Add 58364192873074615690874595617759984621748426872609229328740036590652063138485;
Dbl 11925978132043160848310209969612679038709704285850882866965921505004352514496;
Dbl 40617695590440594797525826626680409361103919762931152033647493223862212188026;
Dbl 111704039916215849741692327607383185052391156198455919817321063558006072323989;
Dbl 39400276407984321628639595695723455534651421293691592906129050954578404148253;
Add 11548153567066947363992757090701895513719239481975454946772551843860028616380;
Dbl 61773389064162914197958323205220420667455490416534690747315461824824854650165;
Dbl 113755709050271445641524228130490671785382336430992305812374116830551555326448;
Dbl 33083744198335499128566046507308835641198718339215995718717162625806582724792;
Dbl 28004577232151414140889105042705718209886043100735111883361380210445190296372;
Dbl 5261415805345566204446050530583888675290556842892530219723420968323542631332;
Dbl 43249573908023793446458569878275212677313090765336326637017699895194526159699;
Dbl 48626133836006552875641987367795734669239072904792272046304662810859628570363;
Dbl 86661774533609208670665911263331270713369059958930353520487181132924987990040;
Dbl 20306662338732309165170348058064835165957495303692266148279225926687209300992;
Dbl 20816806130214980087784202563857409603926922127529577961376430274616248169885;
Add 38205285546536907301414563286972888845292433697542149454393636617867288391985;
Dbl 87307789784407650660400285438095612429960488442537739286352542687944521899677;
Dbl 71290171004240587236259768868817210649222343903174975201968172591005668022276;
Dbl 115103087746841090969051496541768458521874587805478887562614174524585777568360;
Dbl 92559096016422311566272658440789483218407108371527194508885592045802814658771;
Add 15080185180917136673506565804589543160963862009467215633299509252610426533506;
Dbl 99013572292034448120316977332486048819138169845242149416273758056000803094563;
Dbl 9722044185592182451386230097644575759045458857883503025506817667685046116933;
Add 1013698596426500661941366743475493475790646829499534969579860427596246207443;
Dbl 77764485727321483198751369193415756789212691279489619598474964940739891461101;
Add 52967958225538262513169016051795470926767770086996257594495945734128424496718;
Dbl 15637583439361758751748336995939150140357571872346944539776467577427965902759;
Dbl 61729176313891073468418351751465842542399580031140031516737088925212064885693;
Dbl 88785952107909441936905080202309434757502820902272633752987246135782034853503;
Dbl 17749807863107971008496132530421750485677573165543852964287360673787245236183;
Dbl 4549902492726116120891935615941042092090092203365890034194930713017964473234;
Add 83474096760415187125174000085031728280316529506530398208725785783334007202610;
Dbl 21166791235265361947578599106429954221263128837851922622812921900899178780462;
Dbl 47988401954052226711386598168648509494005415764064381171952631782400385454647;
Dbl 94389569258060699625455883491053084180974404007099548925956621751631690374811;
Dbl 74450246743934836416585869065525746530471029485238635728742275937859630811012;
Dbl 84890425715994067597845268297004061029145440930069646068991455158408686128460;
Dbl 101772053760306836885633846506935923039057405738260771701164330949197913190619;
Add 93484992184060750751323466805174569742551118921747457397118329302587007325246;
Dbl 36020188784377375126602768580947285084135061094010240624489015792047154457959;
Add 35192003821493442034872557511757668736119894675861859583187495576771787727885;
Dbl 14092851067194524849561185774692911715671858730984802436401445742375792583719;
Dbl 71533729296184022885417514532442325648314615522769392103833507580556371329989;
Add 76428569738146608429541815690868392105716533472622247004336120460895378173330;
Dbl 97612599200907857819316291709153751111545874800306439981107302224143215788475;
Add 46381673540762193054957323893838307591710029316422420778299349688756515792395;
Dbl 12817048189014982840236030575908392681060447336152487020063368071347067869380;
Dbl 96338689143878293146071919564847966556546609806631287186699933743942487341728;
Dbl 106492593397001751071950810352590476507304942285647628672485656755233975925809;
Dbl 99496156304717338578380658328550931166997367406381720035844942198792176923641;
Dbl 70710669740726641326798331175971928995225154595386689757455103617116923173419;
Add 78391615555271310460668609997748482907656945769473031991219197216258345815206;
Dbl 107204564378600843700880477748387355519354625632155060575996369051187443428782;
Dbl 27319328338386044453659651922740510200238584729376822600775345808388094618476;
Dbl 13441178430437268311218425456395589690319304730718225530701719851223296356583;
Add 92443705939262476346189615306089159698029255056996702258829458475830079892425;
Dbl 16446173977603929648363315306441448446493014981133724917166687130118843508548;
Add 29320487053047889426078349033017102510914801873659390733842191759474672347937;
Dbl 21846386850641687367574347245043293634879333527424850946519455650854580644230;
Dbl 5662940856686817231037639388044915037941499738073352551997451929078371573869;
Add 42720782565376575620510073713666180057597914686535693138811247247726718241436;
Dbl 87543595496906618051144565325035298666189180128691628745720140244402629611387;
Add 91768721941160699769770660075959976663050659565276834682082091679538600668842;
Dbl 56982895108257680330643734173297443817029603672074391681196315725299609960764;
Dbl 48963727383732226189052334017947659511279475832142380935133276048699736243170;
Add 74684245415488257473022202032639997046180416940116181123180369781376507642465;
Dbl 108062685363029569265825057964839117073628587280571839121364058896499989258609;
Add 84159529684678303789926580296286600133001161879732269808610580030522133072677;
Dbl 58203632065427470277815002699781938713179069607897181890646060083670423589024;
Add 2353733985965256010197415245364658456332146264133997784570768777834942605151;
Dbl 24423918607518489070090987984316741199652001674074527632455011110841915619384;
Dbl 95792327683934530724064058096624865515344680814620314398106282533973981832118;
Add 61107045122400623458429215087269816788092934071422982390042578856376361018819;
Dbl 44584063751894755464067748533905587912320360415452990459542890472590458833816;
Add 64072008769653601762560509311005560754710925344725885666871814587516257296560;
Dbl 15482794389335010865300011769190693842264119482157746962137833198570565958019;
Dbl 96200243019311935638523157255521229882127113459381929987738639941505908495233;
Dbl 57678444932143978242634816699999647689137664683814098260290103921922262007398;
Dbl 90741414350825246748316998524912010398370140882792768351672969241859719271630;
Dbl 40417211281908983191912628391105612939487759134287579013117870973135638452139;
Add 48806717960997536551901129949454270878304244676676365823850095033801968371328;
Dbl 42482942059973066582511561329303192523805145047880735034592292789562041183243;
Add 74178808461755852856464337253359870577411317652569431981983420793345372785700;
Dbl 75709050396180797427179643464955425446857872026791241626475933572225150809341;
Dbl 27851454052886375232231909504807954510356485199489193623500832597507178797287;
Add 7833825619544777091106995061287598509833802116271260511686636903497031132393;
Dbl 16710341902539873933032808086373315389362428411128144226622620260029736154858;
Add 93827509240355870117969401111797438276039684251115637497384376740263106432128;
Dbl 76068431490972181668903365316561199584801594072083221398144358688453684136929;
Add 103318166855225553505702841482519676498345056082262866802094965001854776257758;
Dbl 46852742515385961465022694862870234421694082908440607678918619246152918525290;
Dbl 51959988667378928104860412483233414357146369408954198605074176326410775452084;
Dbl 90032319006648545358907218507185570676708701522382052471358487603759495267467;
Dbl 5656980349404619940328518517924638277178183299301775583411861575720133317085;
Add 109451239001137165738342067178122407786274879635689320364615763505217769279755;
Dbl 30912422373506547276754526227393000843408843291250029397286521608304904144681;
Dbl 71253786919323555304185669983510866090467148009974177879047284998141204842720;
Dbl 84537260182474367398348511128358979658108816257081217286396580252715771712243;
Add 9012640892796034212287643113495029881701901518441367953209662748773835684499;
Dbl 95243753257690111458833971007712087212194036749223669981696682413525239467455;
Dbl 27561783773274881645254951639563755817598799341137761412606174857150547738949;
Dbl 108201756377565117407212843508281167107516363827151887115920359454954485664164;
Add 39538085765265741417643413637385872023111001503341855119944397481134670895770;
Dbl 41522086600237288935130994178281773034884525274081016551857497490898096183912]%bigZ.
Lemma curve_checked : check_curve 115792089237316195423570985008687907853269984665640564039457584007913129639319%bigZ 115792089237316195423570985008687907853269984665640564039457584007913129639316%bigZ 1%bigZ 64033881142927202683649881450433473985931760268884941288852745803908878638612%bigZ 166%bigZ 78334273580064143438239427671470042428207258830274166205323946846730677456896%bigZ 115792089237316195423570985008687907853073762908499243225378155805079068850323 steps 80007180055865027453143959765114540155402040520991070924993287495456297108515%bigZ = true.
Proof. vm_cast_no_check (eq_refl true). Qed.
Lemma p_is_prime : prime 115792089237316195423570985008687907853269984665640564039457584007913129639319.
Proof.
  assert (E : zv 115792089237316195423570985008687907853269984665640564039457584007913129639319%bigZ = 115792089237316195423570985008687907853269984665640564039457584007913129639319) by (vm_cast_no_check (eq_refl 115792089237316195423570985008687907853269984665640564039457584007913129639319)). rewrite <- E.
  apply (prime_by_order _ _ _ _ _ _ _ _ _ curve_checked); rewrite ?E; [reflexivity | reflexivity | exact q_is_prime | reflexivity | reflexivity].
Qed.
Lemma curve_facts : ec_disc 115792089237316195423570985008687907853269984665640564039457584007913129639319 115792089237316195423570985008687907853269984665640564039457584007913129639316 166 <> mk 115792089237316195423570985008687907853269984665640564039457584007913129639319 0 /\ ec_on 115792089237316195423570985008687907853269984665640564039457584007913129639319 115792089237316195423570985008687907853269984665640564039457584007913129639316 166 (aff 115792089237316195423570985008687907853269984665640564039457584007913129639319 1 64033881142927202683649881450433473985931760268884941288852745803908878638612) /\ ec_mul 115792089237316195423570985008687907853269984665640564039457584007913129639319 115792089237316195423570985008687907853269984665640564039457584007913129639316 115792089237316195423570985008687907853073762908499243225378155805079068850323 (aff 115792089237316195423570985008687907853269984665640564039457584007913129639319 1 64033881142927202683649881450433473985931760268884941288852745803908878638612) = Inf.
Proof.
  apply (curve_facts_of _ _ _ _ _ _ _ _ _ _ _ _ _ _ curve_checked); [exact p_is_prime | reflexivity | exact q_is_prime | reflexivity | vm_cast_no_check (eq_refl 115792089237316195423570985008687907853269984665640564039457584007913129639319) | vm_cast_no_check (eq_refl 115792089237316195423570985008687907853269984665640564039457584007913129639316) | vm_cast_no_check (eq_refl 166) | vm_cast_no_check (eq_refl 1) | vm_cast_no_check (eq_refl 64033881142927202683649881450433473985931760268884941288852745803908878638612)].
Qed.
