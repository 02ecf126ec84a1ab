(** * Certificate for the parameters 2012_256_paramSetC: [p] and [q] are prime, the base point has order [q]

    Generated by a program outside this directory (factors of [q - 1] and so on; slopes of the chords and tangents). *)
From Bignums Require Import BigZ.
From Coq Require Import ZArith Znumtheory Lia List.
From Verif Require Import Fp SpecCurve SpecSign Primes BigCert BigCheck.
Import ListNotations.
Local Open Scope Z_scope.

Lemma prime_15b : prime 347.
Proof. apply (prime_small 80); [lia | vm_cast_no_check (eq_refl true)]. Qed.

Lemma prime_11ca7 : prime 72871.
Proof.
  apply (pock 72871 72871%bigZ [(347, 210, 2%bigZ, 25082%bigZ)]%positive).
  - vm_cast_no_check (eq_refl 72871).
  - vm_cast_no_check (eq_refl true).
  - constructor; [exact prime_15b|]. constructor.
Qed.

Lemma prime_6a1 : prime 1697.
Proof. apply (prime_small 80); [lia | vm_cast_no_check (eq_refl true)]. Qed.

Lemma prime_2c399a2a1 : prime 11871560353.
Proof.
  apply (pock 11871560353 11871560353%bigZ [(72871, 162912, 2%bigZ, 4247524225%bigZ); (1697, 6995616, 2%bigZ, 6392729694%bigZ)]%positive).
  - vm_cast_no_check (eq_refl 11871560353).
  - vm_cast_no_check (eq_refl true).
  - constructor; [exact prime_11ca7|]. constructor; [exact prime_6a1|]. constructor.
Qed.

Lemma prime_c7 : prime 199.
Proof. apply (prime_small 80); [lia | vm_cast_no_check (eq_refl true)]. Qed.

Lemma prime_71 : prime 113.
Proof. apply (prime_small 80); [lia | vm_cast_no_check (eq_refl true)]. Qed.

Lemma prime_8ebd7 : prime 584663.
Proof.
  apply (pock 584663 584663%bigZ [(199, 2938, 2%bigZ, 495546%bigZ); (113, 5174, 2%bigZ, 351471%bigZ)]%positive).
  - vm_cast_no_check (eq_refl 584663).
  - vm_cast_no_check (eq_refl true).
  - constructor; [exact prime_c7|]. constructor; [exact prime_71|]. constructor.
Qed.

Lemma prime_11d7af : prime 1169327.
Proof.
  apply (pock 1169327 1169327%bigZ [(584663, 2, 2%bigZ, 389776%bigZ)]%positive).
  - vm_cast_no_check (eq_refl 1169327).
  - vm_cast_no_check (eq_refl true).
  - constructor; [exact prime_8ebd7|]. constructor.
Qed.

Lemma prime_68_ff5638332d : prime 149534060761757266733.
Proof.
  apply (pock 149534060761757266733 149534060761757266733%bigZ [(11871560353, 12595990444, 2%bigZ, 61680273913378957716%bigZ); (1169327, 127880448122516, 2%bigZ, 68038899055771849444%bigZ)]%positive).
  - vm_cast_no_check (eq_refl 149534060761757266733).
  - vm_cast_no_check (eq_refl true).
  - constructor; [exact prime_2c399a2a1|]. constructor; [exact prime_11d7af|]. constructor.
Qed.

Lemma prime_a93 : prime 2707.
Proof. apply (prime_small 80); [lia | vm_cast_no_check (eq_refl true)]. Qed.

Lemma prime_799a9 : prime 498089.
Proof.
  apply (pock 498089 498089%bigZ [(2707, 184, 2%bigZ, 48744%bigZ)]%positive).
  - vm_cast_no_check (eq_refl 498089).
  - vm_cast_no_check (eq_refl true).
  - constructor; [exact prime_a93|]. constructor.
Qed.

Lemma prime_2326adb : prime 36858587.
Proof.
  apply (pock 36858587 36858587%bigZ [(498089, 74, 2%bigZ, 6573041%bigZ)]%positive).
  - vm_cast_no_check (eq_refl 36858587).
  - vm_cast_no_check (eq_refl true).
  - constructor; [exact prime_799a9|]. constructor.
Qed.

Lemma prime_65252b868f : prime 434415306383.
Proof.
  apply (pock 434415306383 434415306383%bigZ [(36858587, 11786, 2%bigZ, 18906146143%bigZ)]%positive).
  - vm_cast_no_check (eq_refl 434415306383).
  - vm_cast_no_check (eq_refl true).
  - constructor; [exact prime_2326adb|]. constructor.
Qed.

Lemma prime_152_f1d39816fd : prime 3179810722570773882487420182434062983086216957.
Proof.
  apply (pock 3179810722570773882487420182434062983086216957 3179810722570773882487420182434062983086216957%bigZ [(149534060761757266733, 21264792157533634350055532, 2%bigZ, 1131198889788821689777097254823043798829201810%bigZ); (434415306383, 7319748351056742609415994571396932, 2%bigZ, 2735321266448532755245222384371173933381523782%bigZ)]%positive).
  - vm_cast_no_check (eq_refl 3179810722570773882487420182434062983086216957).
  - vm_cast_no_check (eq_refl true).
  - constructor; [exact prime_68_ff5638332d|]. constructor; [exact prime_65252b868f|]. constructor.
Qed.

Lemma prime_189_9f25e30f0b : prime 611535319489737880361765400867656717933201264526640746251.
Proof.
  apply (pock 611535319489737880361765400867656717933201264526640746251 611535319489737880361765400867656717933201264526640746251%bigZ [(3179810722570773882487420182434062983086216957, 192318151250, 2%bigZ, 471413934487769432374251828280751092679839132827820112756%bigZ)]%positive).
  - vm_cast_no_check (eq_refl 611535319489737880361765400867656717933201264526640746251).
  - vm_cast_no_check (eq_refl true).
  - constructor; [exact prime_152_f1d39816fd|]. constructor.
Qed.

Lemma prime_256_1bcc8a198f : prime 57896044618658097711785492504343953927102133160255826820068844496087732066703.
Proof.
  apply (pock 57896044618658097711785492504343953927102133160255826820068844496087732066703 57896044618658097711785492504343953927102133160255826820068844496087732066703%bigZ [(611535319489737880361765400867656717933201264526640746251, 94673263789516324202, 2%bigZ, 35234120789041054753050344290272704651564156926587979179037569654741169670773%bigZ)]%positive).
  - vm_cast_no_check (eq_refl 57896044618658097711785492504343953927102133160255826820068844496087732066703).
  - vm_cast_no_check (eq_refl true).
  - constructor; [exact prime_189_9f25e30f0b|]. constructor.
Qed.
Definition q_is_prime := prime_256_1bcc8a198f.

Definition steps : list step := [
Dbl 0;
Dbl 30882358224548665095065631529706544089666904821100905049502873987427030862721;
Dbl 40575864767945929511827694771565818248291439409199257939582831256180255611193;
Dbl 15386230790040021036767975190248542771789058892264521060443746856898694758612;
Dbl 804941902915303615849261546744210553956469308844433286665069445264187187711;
Dbl 22441842211641008153304961875464201343459425146366912739865404838705861132191;
Dbl 28919942032555374737923773223509258496300729697233228243150200666892430040537;
Dbl 51948545348328891075926024731990474835846175678297906649537163850519743749719;
Dbl 19260508582669357568466460590619072472278822595416395764426084790897291354289;
Dbl 54138697799632502613386557022289336885465325518711957643478608071309633644689;
Dbl 41375829564986207850381611819505080443925570102141918744836407632938236315302;
Dbl 36124495935912566991074602093570409833283126001192415422119293669199440525259;
Dbl 56094084694098735737128237290822072564497289004225669597800008532331950037478;
Dbl 21180701734777216850304130801858318903906106964564034964912986462855041518110;
Dbl 33479403406839560740696902555428140575435595547273943075036976746575223390605;
Dbl 7676875767138718843379775874126905284454838933596350036088612392946713122171;
Dbl 23852254036133908927895104020841492357623577075796094258241693975589823923336;
Dbl 57177737974962780875044213623508521804290782150366364379057128385787278169777;
Dbl 29844342174335840580810896270252594051499855984863600283662433331157994079692;
Dbl 39378329272116219213610757877787550134830971264232348697561479975222670986447;
Dbl 54948183573775627512076809799788268978626344280504672012847084809071276659648;
Dbl 42335019651390482488231294352356025908688586244491775254857501504780817871850;
Dbl 5015101052213437563506174448727003745807981516055115129192925637054811439106;
Dbl 37999640874462321009791795285724229345268565076782147876291661483921620575120;
Dbl 36943105215055525079602676163651766014035437773083347044460327624818782659815;
Dbl 5325830101809414615620916266689092264834343550570993408110176960863688424674;
Dbl 22533746562455532742311103671748690725295849926467326058804825169424689325039;
Dbl 36684526447726629756690149469407481069795886560477247111976207087950166611145;
Dbl 30901135855790566861100042396148100979669282942316331767543571148349659587235;
Dbl 4797881891151105932507655522409059751173060780760463189082466376666807016430;
Dbl 13941879895113033979142003342812136262492451625334338877516391640081813087990;
Dbl 8100861159010393870471649419430326536637393440321448597164593623955827751576;
Dbl 32137704203004017041055783761938379456643964630907729280289983167541121909470;
Dbl 46391392544384107692182734741311548349513672852754791365555964221858327128356;
Dbl 6232712965846579764522517658338965691987620838006078220124956963480075343447;
Dbl 9568470906905682513323481957713220900981892378904859085595974118914684162948;
Dbl 29706246953161858899409062154129784508528631497664532177440517780193295398729;
Dbl 39657814922533555741012640551472169773280836625393622743921035813704174658294;
Dbl 36257097319713405744882288873986388234824294058821404992106223761510943170269;
Dbl 28641168480822081837998784359588657040519055835866517848985974299121874136886;
Dbl 42922279171729259629881156669218115963446390394533483508734587453183315179352;
Dbl 51981852116085397094377969416142893233472730878848221595575326456740068209015;
Dbl 45995676763866660481882299428596069322934513709818203717931638406872503437624;
Dbl 1984479656563664088597169480062403748875443578808522816477860354534454794517;
Dbl 46139954641284091125788433294356827629786812187072520849491186008077447631226;
Dbl 50199315061500856355494569050274646144233211620506223482346697706989552940128;
Dbl 11231754172410974452013266428365760259618519691706869442837341077965706109537;
Dbl 19851445972118123801534488190726678370341531420485568642708699490375081383134;
Dbl 11969516465236593995907949278524149574015733182599980075931788483162037076549;
Dbl 28364995485387985442031557365238053046711666996662739563315991721562670815942;
Dbl 14915163097656792154375110974293460933015529037039450823718920042581029902210;
Dbl 14756424404143567125675721914870584192702232069144690385262827336242875910947;
Dbl 55426179725676345606205568477006147526484591823201023533376803477198264558143;
Dbl 33066170767930661510747518212215380165461860610949255445256520496188622072706;
Dbl 51335537429960138110103089722534468064009321554705292320112278254915590431706;
Dbl 7451081852984894196235675861095448714707862056890729375665902060942005243716;
Dbl 46355507863616083868875500869586129107895797593564293399938891445090341022913;
Dbl 28591332929966115467047508708089609599824183255105291471720575547139173536686;
Dbl 6378158648704136484407451985551017257394679179591115767307368009361596734440;
Dbl 12904680807744231936517280828519239626992498433978295122105104663198845345600;
Dbl 15126896337410238960864959278782118383693896772949128030176170663581640319943;
Dbl 16235474629537508414342191087692712229168161856626410825649852378803061701132;
Dbl 46773825832275392031284052449070110313575698747818178554889160869280653998235;
Dbl 461883058513003056750907815420938566007722481118249025308838434650687038693;
Dbl 25846284440101849736862533350287516789078620598700596827416754467584885001117;
Dbl 51968126959273962938864967259369326431292454735765818094740197384842835845700;
Dbl 44437541989779743950404891772186501093594610831968819791724371715439162260247;
Dbl 29827189282178747685007644309765539185043795897838069985547456978713989874947;
Dbl 10540191262637549022002230740064206326566252195972268108640638275855507883606;
Dbl 41183387769894730698929225442131888916415626135436863077926894762835781005569;
Dbl 44245738190246557382348673777772081639132477146773375276102382041322347545387;
Dbl 56006398673592695212279705058442717503080521295809609233537414451358506652481;
Dbl 30977070284964415552657507888826189049197750880176908453642392218122311832662;
Dbl 49683670221968114596687802705976799792371228064343591596192387270542032082625;
Dbl 25542989520240432502276085509610652628976240877870161438237340642687125930395;
Dbl 20861171174026172289673795420851933947797502595886506350352953437695440689997;
Dbl 49183001829232196930870119686351149083938185596082436830760149995290050890154;
Dbl 45615249129160923940459362497657738604689440555396703488424055085940228574376;
Dbl 26267037638305796833935548850122067500810376790187710253493308239227515810553;
Dbl 3700796886531414851586769295092145955482451287238970048246242595685641027684;
Dbl 29681603717658222040693557615996333825331674479673728702060607483080392617355;
Dbl 36297038289154656255841730404990944884561134056117832708702126234510928941006;
Dbl 11400926683548549928983747248071573546786074109613249978107629202911871888704;
Dbl 43724658556667858816822347823873390221229167801408234948119411824159692136201;
Dbl 49003037157730081625360543415320852371029365633876611628695063597136954987746;
Dbl 42357636536346264384026571589372524643156957540951342487913904947677343012638;
Dbl 49220554970749361627656416810695442936123161110812935795818977541020279144943;
Dbl 19097681457770876761734845740628898134377418252661171220219982516784929890051;
Dbl 18154659686075847360561875474110891138618730394187984662894065070859487465602;
Dbl 2288412504808788449876662033099616916338289196687239864923426241534775890804;
Dbl 53691910393698549557576577962443937084736665344255495042608502428957292357403;
Dbl 26456599656960964196980639068213685118567543054235256036632237759221714959234;
Dbl 7820631500942719380200899024454824478798975808359034350192105536809791389531;
Dbl 25368390158385354627059513950597238993300964539460510811915583999671693196436;
Dbl 12163909752962264079470670693608391461861901257262719351734520161522323685666;
Dbl 6673760904267949896294519000438315053697503619216511663664108856966244072995;
Dbl 8043901877002195958049512991675322144920870993491024665084699947229812217331;
Dbl 53582773928999694485774912742943151597241750838845178212997421206125842998095;
Dbl 27854565068501269795984382391284384033617370432484754703971241610534641753101;
Dbl 22570029580266604978816848480209777230254112890204903359144686905702037007104;
Dbl 7438188021438128308579700827825227487313371051893579725242394022765115515052;
Dbl 35833278102736728583117370112436287222032550857583524216856566369732098847602;
Dbl 55547867867418046734583942861971244263418955566346170940964212186730874124301;
Dbl 15249303760277237545889961395465973296519117678877756812564340920361066972881;
Dbl 53787755288595724251403810666525373678825023751773153644696906795574186757987;
Dbl 30854110678926051229293013990616839770973927115760437963319365683885794875975;
Dbl 49596787837894508146421822091469402836522055119272975422363435855873519068387;
Dbl 20160322060493804256456147930961906238408750479854653280519589746325536738340;
Dbl 15529910021001248430850560528189346385382844092925933839005523171205094064385;
Dbl 54899495798139352973249036296600166958301899272365789696768057571325222485592;
Dbl 56782307616896186675543145583303395325398076118106935426533125326348089094112;
Dbl 33310373570784701770780611896936884395656317776181043159241442133974236034987;
Dbl 16448316110798254620784842530079738877434197103709365223094955148438056339496;
Dbl 20307099871769553201426459637789197425073285434633187484740052537261812613282;
Dbl 36351204284804407286214093332165060481914174451044757542670624894302706791585;
Dbl 6152360070110449272946660626558485779923697755863529691419187600066601927099;
Dbl 53912441989949981496799306271127890191423209656064654213153344561186137081132;
Dbl 22128741147212170638631692473571499502460398276263017163117708939954644446092;
Dbl 2895690796109628297163885905421615935666446129926223052914833115574324491229;
Dbl 45248206681892194070108779767071431879761786172011037958893754532555979117703;
Dbl 29031343957733124614455270498834580049994723450550442893119695843907365986034;
Dbl 41463006200118832518517634478632462269995610218248026424760423988417092924246;
Dbl 24792304859173980163381935107264146605868740246971658696908520222881971393779;
Dbl 51114640481151886306948724083671870864124218204194622947632034824041709151311;
Dbl 11843261556091866791557776208815171863085103808432511387186286920120235662342;
Dbl 19960953282501934285161398796823673459379774699507323101933329788138165156170;
Dbl 51672300186826074098613882914950428391360325359659294038430529496685749678802;
Add 52308279341008436429687855407937052901281292813857374443262710054340863782149;
Dbl 5135652144649968655381956396816318184550943241084801294328323318206617615547;
Dbl 32382292811734937564355362622900973324613252593023556990713261828675409644084;
Add 27468987216166170176747817690028776720890434745449013678367380535781050687484;
Dbl 56501418457062378039440395866868973215208741095917461862351151131155747274767;
Dbl 24321079554897567738041531993881288380355673379286814741906318119146086928781;
Add 53137525316315431924192759291801144982098539516320826099923332331994477761477;
Dbl 57574528255738809828264469351139307167926087681015690975476467456606442826297;
Add 50580092105230910377350288992714330011084692087589634068423899716038898244416;
Dbl 18156145246201686221235809961641844479769805349763376919468695021964873786740;
Add 54079019139664619349813321215746939498123917613197532008310189434478391408965;
Dbl 21605652481423718154740795272854125834988911372119624592554105064411245157378;
Add 54838695930010960913411748799447537984512442884227449677632156739751357833247;
Dbl 56009585500379434284924818833875035153197341495360878245565896512214227950585;
Add 38564639494781896291289697592675833604418953429928666780723362117797241347503;
Dbl 24928534742474272572153685095315095612476054843987543638093050708744171851424;
Dbl 53695269193466369525511727653025744738126173754114707874388911321844624600145;
Add 23180119520248424880053877937886896714886352611136914293519049530186439471036;
Dbl 51131896170453398194016274500471103039416339250403488158602638880278724846074;
Add 40916081998995741673380482818609885152987928982547708055742088004490121958202;
Dbl 27925620947744750715972348208931846314316674798672126764637280196411749319214;
Add 6560686837325229852045080027360870940534383050008766192362248742364504086500;
Dbl 27138163472333148412746361345977319731761412739169126497506083911326865067387;
Dbl 1478486993462352605947595424457670417624111445590279887284330086131891942799;
Dbl 27040431960795498735489855770738902775290465513697793206844487459317381581289;
Dbl 1246522346995562206156627151583111720906750380915028027511731776196719190040;
Dbl 3251193622814937413380058605279600415928166841069927002768584012280752523130;
Dbl 24216321186849903986118014531107793100266548064669568651056745172561136080781;
Dbl 57270660409290451208084062540364696883843944354976827193552141048571838218378;
Dbl 18212420062766457833203862322354163583179120816003496992977828400170680593932;
Dbl 11109954821774393853112660874827159817493871520294917921091508959703476296028;
Add 7896220522438448369928637289960141279873789110611622193093378228138386190861;
Dbl 11931499048895078516438648531049340400681962800312334826444358298185939334775;
Add 43245425536842938954819308414603192649452153179136271887465454401295778966351;
Dbl 41408962871319554208630963314182223085081128832760505432495593904188645697576;
Dbl 30416989983065202505500491350041286580248160572981536725798391179447725573068;
Dbl 45795331624948506806763886591375596638550657064265867424171369655647906327771;
Add 32592266360767673471190923117667203064639039098500219405170671597070894371312;
Dbl 2206349160659103098144303893825486484535719848272779718100280738275558543795;
Add 2666936866361148276316974507470381269188141967413582223904612539933779803595;
Dbl 28191142318193804082052700105442586132311457779097893905723319478529812766498;
Add 13392967867093366584905408496757107258094158025372659703697464586792268706773;
Dbl 11808275942081010353041372818364875306395701748285128678839131564307808269940;
Add 45073088805244853656936831727610933549470879267102071644175717128188752769589;
Dbl 31600719450524372809837771995518668495432181765624014592845981511236339245546;
Add 52665594963359531627354910876536942655071589981852816578479659679024230300895;
Dbl 40890564691029273519214745477261985192261246392251578074023529346271502590784;
Add 40864867939990431294873828545358521754376636626167142123651047280571643263281;
Dbl 46783308189536237373935019727708977641916950981245630488441222605497031562826;
Add 34588393512230370087435095089399200743426741882191278274826888737050557687521;
Dbl 47554879317591996426327124268487049191032462932343986610110401605528242273743;
Add 56877530365985859697517561674793564990493851216509581676602776569178314086329;
Dbl 7487375885147156959686999508524622308619769335886186710477963860209304462771;
Add 55177578762072539661139163787413419319497534387804931202748145770857029027287;
Dbl 39915876982642611949469619576695801651176627045001703695714591443461038665730;
Add 25301853107119117895421368089288344537578469336609706677772935905083415678372;
Dbl 57498465328049874244154318647164962069948346716886707786667093159052834792261;
Add 18563142832546487237868185464904892082042445464193223824536360610132976086872;
Dbl 8010697525460996886918941653039117873718580079937287413320386837686378097315;
Add 21822120984093152898426962629979100166248875317859342917645603362705160585194;
Dbl 21207446431472809358327193467587040342370589020277096130735339010557345366399;
Dbl 27427505329720200579702188982400610146089836891673854020598711040944620225224;
Dbl 5455784421091451388999493776603862613034936264888591783688235656498895732800;
Dbl 1499373732507586946842227300049834951499339965216028168605122053360709659248;
Add 49892796420615053601469607072989856380609539892420701516811145441647671656584;
Dbl 41382203351280745870801727710827135705145396499709244124954654790078530801483;
Add 57817219773463794319548658418894572117201452995896469268975005624629723256259;
Dbl 27244134418008461430193555584849208670893464193458856866401993784102673726930;
Dbl 3310965454164472426044261832172433202486644640717380429206536111886371750121;
Add 49695729473259386581148776235789562158083598477294311485145702584239763845449;
Dbl 54282689117059953468121358204331211358113356910753213141768056434336754818255;
Dbl 54403515370257930097756395568578505938114486030447714250246725399727074369218;
Dbl 5107641440061954030225416902548975985691616875559065531577852964854722805936;
Add 39748894778153543541985790429355640549061003489085674498767232213166772516480;
Dbl 10820012128932556166335510612029971116751819097107787182330611495415764742354;
Add 36225470136393204274900906122996867753122850637045245502703032366471486294912;
Dbl 31678599980190602444877158812046969607036420226795761609347449677850874396508;
Dbl 56650949911615984271335643698829631692461460415922001971729117616198088312283;
Dbl 15285615088612945868528222355521481976371793758724391829421501488075201552076;
Dbl 15598401699840598738596741110016862749980519917082164224455373110185665999691;
Add 2666372034478319316552703802621817478341189905689309115303044555099682206885;
Dbl 41626450131302608402707093224568688787725871573541413369793212263483792097725;
Dbl 36631761619933674268993610547894242525123720331570659532740805450265239505455;
Dbl 26178661904593218385509802313774063184369573715575229353185674461845269589662;
Add 29579159995072543799803207113129221816206137210803166042795501257460761153222;
Dbl 19052870219630908672510472445103247368653057694408222501814654938027028280045;
Dbl 26214563899029752512712775484811818665584787809642204329541874913356304916207;
Dbl 15593679865501890881821570655151699515667359818407405542931670459114899298254;
Add 50181265559223442426781570518538243829080854533955040151631280289935556596333;
Dbl 32258363423027841784316469353032598597890969760930748099147401168416033127668;
Add 42257416633819366863368260597237021894447708511583164974554106104526860330930;
Dbl 43052292827032364143842628900236128672829024822168428504536821122407677645947;
Add 14442380220475293890020744066707298809867430069863472837230564691893552451927;
Dbl 1893389741854359177715448660276800189707044650630007499090960181246701979831;
Dbl 23365885166267612171274491570804728600557690447100876762265610200148745751561;
Dbl 54346210142335250280636188632891029401124482449601367455675707645773520555744;
Add 11218926082636351429461105246830793497608035372446805334337157813148693377042;
Dbl 1356684811671471037681911944970595809227624418802640759091982320970371451559;
Dbl 35122056281510779491271195049522951968107193119884400008667897261505853315998;
Add 43028341833629668585802792288729440500262918190728037061970903239239122071817;
Dbl 44103330633724492140184840368400050214118063012189105307071660335841916943320;
Add 34879187261910483919417107827790648424021801895277488635857608357911138104395;
Dbl 52570359653199457951251484066053921410437978658151794377359754778298700196926;
Add 56081350070776422223783443506690067253091174784750878258273035717888970685559;
Dbl 29723319082839365559325111791453624301383746711165039867409158167508815336089;
Add 53953950903359705168604152888778868334477400116797827604413926517728477628680;
Dbl 13379359197752754442625471891501527474865872599416767111398722992278183033702;
Dbl 52595393194853812667240266799917835109893437233714289125183824706622062103857;
Dbl 37541334140573156965826475706938131737242733947973628588133785352272407717110;
Add 42062795172684732473890185266101458083879280003514901252403214114060075977645;
Dbl 14598827467510865492848567555903568872930215712209946888680068393236121824847;
Dbl 2322382582030373652792248464943667470691613131267595442495350015529101806845;
Dbl 39543533586011957744214165178979548477789661910887617050768828604633177235131;
Add 44836844085361359491001734707000018279086986794299826901105093888265752469122;
Dbl 35766237574949973516767531161494342641247241152180721600199307044572140451967;
Dbl 31652562032298307525772753095806602024538588007987395613415057275535626610307;
Dbl 38704952271579019611318859290770783696744486313395220169489678864442385020307;
Add 44324299893040596524653298786011525948673342618907763504258734573340192784822;
Dbl 20663197317320813968664022273935744865837980555453320357701883597391760046384;
Dbl 6691608849569886492553708766271751779483869144890881698469302550849930620483;
Add 704908063313795492816183566593403525429602847772214171317360559956230039427;
Dbl 47937253481842247091408294790200128716653007720424215680957646783510968472739;
Add 16048509439381988394646868058592268750991633185704375540932909847505400555182;
Dbl 42606227952530936640714751020254042587409388700363699424354529582221281287560;
Add 43172806827300183369320059910353897672862801202944028494961801304470062869467;
Dbl 50838241774770487112247537816066863600756936886986093805710886348078409148895;
Dbl 29527300301926743085439890071508340809372582905889959977954420979938645047248;
Dbl 28669238838052657734006331531621267870838933866390856131349414419193526902994;
Dbl 55900710878313703583219846267551941808614328118231620685877319157864058331429;
Add 45965954415715138172204270278177670178113916753852561758767236495897040958474;
Dbl 912928618567982056659841293257547601764044889287738869856691117067317484199;
Dbl 24409247272164826027368603568704699185463360406168620498580746757077518231940;
Add 9834619019339511446125369921491971386061777874086669784077245785399631545862;
Dbl 6950731367273420119449935386423585537696400355691168679986696030100076869393;
Add 22281741164340168884377740723658021966437434235668871131314274917963335554753;
Dbl 20567996905310985303593335862042592961906087270578955774552048463757903787075;
Dbl 21674135575225216984342649204326691844421454939874098346222143545407097428700;
Dbl 25009943790671580669548343995445891637129093171632280329764736112531399428629;
Dbl 36151498002401800727749470143804988795854808599433157199233685285665350870427;
Dbl 8581601193190045153906523975233767553208913114445719066170673496813397101798;
Add 10875714656959961436334512224476943063152530356003724568086137497287224558142;
Dbl 11892279754427508120666440418976489193687515401972221468206113165415354722722;
Add 3183024581082716533242150335052258627467758420999829417364448751993815604184;
Dbl 41252573380412017445380683273696557475394521133781710384628149322723654941946;
Dbl 18517172907579296854727853993828357590601175909054244856116839639793152310642;
Add 11766814078397152627712172397008885428021506194173199532850973116764498146518;
Dbl 54701840189036104522069640174685458218298603460423543791305265235396928008870;
Add 17840337710570168456686607384667039160937012249313919754905655992093740741758;
Dbl 55574444943273123734937629566386284001629192782619298114106604562609219966403;
Add 33766879773943086392858271425079710340079170873754301144326476063824966908737;
Dbl 43726777914780520087638938849368461860334774407279114170090581378331958868896;
Add 46477050386770624561640588423263052871688524382109876185715102136089300543084;
Dbl 54264388208998548589133498315892336905606088905663406477595297347798019212962;
Dbl 15231194033042546460176101061843612072205547620510330826302448683464479819668;
Dbl 21249417198420641639925854256518451875638089091146192541923826251743299973384;
Add 25047096845178222452073074754034983218040878881213223361144557011613865724437;
Dbl 54179149769968403700630080422250746153044779413322541658398497742251984000113;
Add 7705667653361018205702201916746865115611983880446422357325499444286769017365;
Dbl 50446779230956159194907482290755490160967397649169444782894048546621997393893;
Dbl 24226613887331053422501430372605574834253291711639210794180935678228987511073;
Dbl 16322256858005785447786533448756858235962776133067085340497498744152347947591;
Add 2740044140558671832160279610282365001261834997828077969711369342492182793311;
Dbl 34489507460360336250495434742506263149469031263714993422161093339587389913106;
Dbl 34245970115384731820974242718876803395916002593632899348714933972968433595618;
Dbl 12100859196595037683423264421950219461341746388684727671326782007596931248231;
Dbl 23538136311782353848900070187301522620141536423222041741136545313514739232237;
Add 46645520645925757570715230080425252800740797951754498556098905178721010749976;
Dbl 38147475179559471068266812055110083582078700989625808387624216069065205376776;
Dbl 909427849265137661491236120348266775546135749156094402786711636173784417811;
Add 7496395119662970241939436775199851477859644407564712118411856700342219967698;
Dbl 41638170634530704679312918708336311411342640037330933140721262266146624225384;
Dbl 23969385135545918203362226340975673496402400482170699724341430951115395431548;
Dbl 36625511023937313407960677513398178264553699334447667565838884958156831569561;
Dbl 47713226185274323517267256409322388446898685464546352109582167497455120798764;
Dbl 1996153008289753231292144573722688789201204695075839850336961919517412750250;
Add 40808719765968089326488298981829929779486153137752969136500066295705182832286;
Dbl 30392672113564921917745825203350749570044339692772959550289057260583887212473;
Add 36821036118161112982115625114753056194665889639511385702354627961377335885608;
Dbl 39803916431416423710423302601014954846015139915424454240250884879125201794736;
Dbl 51939025548391347361437896751075198561501713870769438372179752227126244485079;
Dbl 42595176021326641689594809772361554721698623222179321492924872744630344761660;
Add 28526318798389460215941507904074860919395301233877248168918011738381665408422;
Dbl 1896335311106140388288305116316548702732543082768469915833443321308649272784;
Add 54992800760357486040278944870993788417334120049967111628800332747239544981842;
Dbl 31620152786778391009393427845550598843532791834134423166812628455148577348668;
Dbl 10402447168701361760193763868711192646903632521365819117593611491824603943762;
Dbl 22033441650645859707904648918843191360905885080736583508582945844461837143290;
Dbl 12325693644266816103936609389833180494502202026664021683102795191284789663686;
Add 1216317772373748206234724566328661670468628877307793540455466505113257316017;
Dbl 37622068463211195751680661988134851474422275067522458114900072749859445395444;
Add 4823590945820712562218207568880929053923797185836515332635108508068351276246;
Dbl 24061841837706482375864927908844221018088621600141661316335591305949414676200;
Add 31316425605665407757677782373387373388739952652991037027963597089886358366219;
Dbl 47425289915040694614589513229448785393671543318518635532663790473539041328406]%bigZ.
Lemma curve_checked : check_curve 57896044618658097711785492504343953926634992332820282019728792003956564823193%bigZ 57896044618658097711785492504343953926634992332820282019728792003956564823190%bigZ 1%bigZ 28792665814854611296992347458380284135028636778229113005756334730996303888124%bigZ 28091019353058090096996979000309560759124368558014865957655842872397301267595%bigZ 42008287493095682992707326455068436266335036856386775771196763635752255032658%bigZ 57896044618658097711785492504343953927102133160255826820068844496087732066703 steps 21107304970756653106860455144092687334975550659490818136748208922221602119071%bigZ = true.
Proof. vm_cast_no_check (eq_refl true). Qed.
Lemma p_is_prime : prime 57896044618658097711785492504343953926634992332820282019728792003956564823193.
Proof.
  assert (E : zv 57896044618658097711785492504343953926634992332820282019728792003956564823193%bigZ = 57896044618658097711785492504343953926634992332820282019728792003956564823193) by (vm_cast_no_check (eq_refl 57896044618658097711785492504343953926634992332820282019728792003956564823193)). rewrite <- E.
  apply (prime_by_order _ _ _ _ _ _ _ _ _ curve_checked); rewrite ?E; [reflexivity | reflexivity | exact q_is_prime | reflexivity | reflexivity].
Qed.
Lemma curve_facts : ec_disc 57896044618658097711785492504343953926634992332820282019728792003956564823193 57896044618658097711785492504343953926634992332820282019728792003956564823190 28091019353058090096996979000309560759124368558014865957655842872397301267595 <> mk 57896044618658097711785492504343953926634992332820282019728792003956564823193 0 /\ ec_on 57896044618658097711785492504343953926634992332820282019728792003956564823193 57896044618658097711785492504343953926634992332820282019728792003956564823190 28091019353058090096996979000309560759124368558014865957655842872397301267595 (aff 57896044618658097711785492504343953926634992332820282019728792003956564823193 1 28792665814854611296992347458380284135028636778229113005756334730996303888124) /\ ec_mul 57896044618658097711785492504343953926634992332820282019728792003956564823193 57896044618658097711785492504343953926634992332820282019728792003956564823190 57896044618658097711785492504343953927102133160255826820068844496087732066703 (aff 57896044618658097711785492504343953926634992332820282019728792003956564823193 1 28792665814854611296992347458380284135028636778229113005756334730996303888124) = Inf.
Proof.
  apply (curve_facts_of _ _ _ _ _ _ _ _ _ _ _ _ _ _ curve_checked); [exact p_is_prime | reflexivity | exact q_is_prime | reflexivity | vm_cast_no_check (eq_refl 57896044618658097711785492504343953926634992332820282019728792003956564823193) | vm_cast_no_check (eq_refl 57896044618658097711785492504343953926634992332820282019728792003956564823190) | vm_cast_no_check (eq_refl 28091019353058090096996979000309560759124368558014865957655842872397301267595) | vm_cast_no_check (eq_refl 1) | vm_cast_no_check (eq_refl 28792665814854611296992347458380284135028636778229113005756334730996303888124)].
Qed.
