(** * Certificate for the parameters 2012_256_paramSetA: [p] and [q] are prime, the base point has order [q]

    Generated by a program outside this directory (factors of [q - 1] and so on; slopes of the chords and tangents). *)
From Bignums Require Import BigZ.
From Coq Require Import ZArith Znumtheory Lia List.
From Verif Require Import Fp SpecCurve SpecSign Primes BigCert BigCheck.
Import ListNotations.
Local Open Scope Z_scope.

Lemma prime_18d : prime 397.
Proof. apply (prime_small 80); [lia | vm_cast_no_check (eq_refl true)]. Qed.

Lemma prime_2b6d : prime 11117.
Proof.
  apply (pock 11117 11117%bigZ [(397, 28, 2%bigZ, 9701%bigZ)]%positive).
  - vm_cast_no_check (eq_refl 11117).
  - vm_cast_no_check (eq_refl true).
  - constructor; [exact prime_18d|]. constructor.
Qed.

Lemma prime_7e8ba3 : prime 8293283.
Proof.
  apply (pock 8293283 8293283%bigZ [(11117, 746, 2%bigZ, 4828471%bigZ)]%positive).
  - vm_cast_no_check (eq_refl 8293283).
  - vm_cast_no_check (eq_refl true).
  - constructor; [exact prime_2b6d|]. constructor.
Qed.

Lemma prime_15d : prime 349.
Proof. apply (prime_small 80); [lia | vm_cast_no_check (eq_refl true)]. Qed.

Lemma prime_11 : prime 17.
Proof. apply (prime_small 80); [lia | vm_cast_no_check (eq_refl true)]. Qed.

Lemma prime_5bcc3f : prime 6016063.
Proof.
  apply (pock 6016063 6016063%bigZ [(349, 17238, 2%bigZ, 3191248%bigZ); (17, 353886, 2%bigZ, 927939%bigZ)]%positive).
  - vm_cast_no_check (eq_refl 6016063).
  - vm_cast_no_check (eq_refl true).
  - constructor; [exact prime_15d|]. constructor; [exact prime_11|]. constructor.
Qed.

Lemma prime_52_f5ea14e433 : prime 4490362170434611.
Proof.
  apply (pock 4490362170434611 4490362170434611%bigZ [(8293283, 541445670, 2%bigZ, 1480632575026203%bigZ); (6016063, 746395470, 2%bigZ, 2699636031698810%bigZ)]%positive).
  - vm_cast_no_check (eq_refl 4490362170434611).
  - vm_cast_no_check (eq_refl true).
  - constructor; [exact prime_7e8ba3|]. constructor; [exact prime_5bcc3f|]. constructor.
Qed.

Lemma prime_88_7a7113be7d : prime 200499081756742501704908413.
Proof.
  apply (pock 200499081756742501704908413 200499081756742501704908413%bigZ [(4490362170434611, 44650982292, 2%bigZ, 168115841024595681516178109%bigZ)]%positive).
  - vm_cast_no_check (eq_refl 200499081756742501704908413).
  - vm_cast_no_check (eq_refl true).
  - constructor; [exact prime_52_f5ea14e433|]. constructor.
Qed.

Lemma prime_96_eb5c0c1e43 : prime 46916785131077745398948568643.
Proof.
  apply (pock 46916785131077745398948568643 46916785131077745398948568643%bigZ [(200499081756742501704908413, 234, 2%bigZ, 9477092828071769108793679916%bigZ)]%positive).
  - vm_cast_no_check (eq_refl 46916785131077745398948568643).
  - vm_cast_no_check (eq_refl true).
  - constructor; [exact prime_88_7a7113be7d|]. constructor.
Qed.

Lemma prime_142_90b9fb4915 : prime 3931736492670839143743017191070058480879893.
Proof.
  apply (pock 3931736492670839143743017191070058480879893 3931736492670839143743017191070058480879893%bigZ [(46916785131077745398948568643, 83802342417244, 2%bigZ, 2566593664141214535466662438264396744464726%bigZ)]%positive).
  - vm_cast_no_check (eq_refl 3931736492670839143743017191070058480879893).
  - vm_cast_no_check (eq_refl true).
  - constructor; [exact prime_96_eb5c0c1e43|]. constructor.
Qed.

Lemma prime_243_3f440752f : prime 9063250566477473029396601832239191284702116561707029881813448155537110319.
Proof.
  apply (pock 9063250566477473029396601832239191284702116561707029881813448155537110319 9063250566477473029396601832239191284702116561707029881813448155537110319%bigZ [(3931736492670839143743017191070058480879893, 2305152083150105162169335156726, 2%bigZ, 7034126162643125672724792241857791056533965452745999145488939042823913632%bigZ)]%positive).
  - vm_cast_no_check (eq_refl 9063250566477473029396601832239191284702116561707029881813448155537110319).
  - vm_cast_no_check (eq_refl true).
  - constructor; [exact prime_142_90b9fb4915|]. constructor.
Qed.

Lemma prime_255_556c360c67 : prime 28948022309329048855892746252171976963338560298092253442512153408785530358887.
Proof.
  apply (pock 28948022309329048855892746252171976963338560298092253442512153408785530358887 28948022309329048855892746252171976963338560298092253442512153408785530358887%bigZ [(9063250566477473029396601832239191284702116561707029881813448155537110319, 3194, 2%bigZ, 24292368581643473196453972151497998128099747861554138537523049931172797022302%bigZ)]%positive).
  - vm_cast_no_check (eq_refl 28948022309329048855892746252171976963338560298092253442512153408785530358887).
  - vm_cast_no_check (eq_refl true).
  - constructor; [exact prime_243_3f440752f|]. constructor.
Qed.
Definition q_is_prime := prime_255_556c360c67.

Definition steps : list step := [
Dbl 90324253375753120740764308424364721068138373561552028851808111342297986363904;
Dbl 41733229270913449137844659067132010655151024208088884621431275124027078492628;
Dbl 18332082756248111837520160643181754729096769803109844669283763663967092521687;
Dbl 30454115580755049817035774566459106563563022233675845235621493530592672805449;
Dbl 98208445655209322454387695594758838126276558412459322214293267074855613175807;
Dbl 45094536432485162245364260958026281263868391010641551810595548368044970399934;
Dbl 114924445748867788806917750782215855250485012317376226904922683650682789493394;
Dbl 74852065598370615317625257855949543164316847016387444768513906662040698346242;
Dbl 24978233557616278100085580199180508797689786472747331583962607080558689534997;
Dbl 2318262647867492099361554207385556818684169836406645128763526587089077316157;
Dbl 1874766196242148263199438617432032070077044371592205224436499117262256701447;
Dbl 10817508472905379808332499414541940904453440658120121768556740116300533774711;
Dbl 89054705629027873464192485259101973143117841925384452304183572909197758444501;
Dbl 109940899108440615054290288518421170161219466619048831716674633474323953851429;
Dbl 28418676884307791060785845276600599022138107359964510708369105777706356128975;
Dbl 14865305357721007195622238647513624620386226875931033631401031023352603892037;
Dbl 63019501785870840853157602820550144688043640946552326989728114157290167832333;
Dbl 28088166504130906234980659149801912839326888356622585138569553888393815580849;
Dbl 13887664072170926689674846745073811144242763966472876751441033894120078171442;
Dbl 47305439328039377520235698002636367240198505988544399479799214622839662463418;
Dbl 61518264997075693854611304203411184916015180605779877301430744216987645303562;
Dbl 5888103618921540271122115913996446180035958403417040107698336240650900986580;
Dbl 93576924644633711295534171650494741955278453663623979899486244434329930485997;
Dbl 12052376656505574376413948553077150478385600250516584637815473546143443865088;
Dbl 9306515632109110860566146750950464776703905873672627441887417689943358220348;
Dbl 1890863064508775119985447748737235487315375194674250240500997297278307262092;
Dbl 106271212278285374430174515968239370407564306192538900657520904679797060358911;
Dbl 115291039875587935870351490086034520687660847664109306942649475018849869329279;
Dbl 10467544478952075822514667657642774283457756043482755457714409403924665047015;
Dbl 63723449504379623061140315629524824398921524948564148671406806312898815819391;
Dbl 108597739801225511440220474125559170050987437699292862059055544266569855146345;
Dbl 4087625026606595693134008539467610273832255316654345523726065973088297770136;
Dbl 43281810627263304210441094517290936431779182678767449157329885894844229961512;
Dbl 45880293273952066544158013539002556917249256535827394578182446657241294247003;
Dbl 18642565676907521012840330841022767431599462452056054415582847300130609685893;
Dbl 51176965221181856889490942091708054230226130450672378032880585888933115952932;
Dbl 96670466386584573439816338701814003776634644750988031212203271013485836985820;
Dbl 73006309352837050493193081880154992454030411092007315227043280538998636800209;
Dbl 34420640530828766142578312285022755675652699043904751285381814095936392842119;
Dbl 85229884362744795330021956965736820702756994335846975717042467864219099531788;
Dbl 19898997890794018567589150270038256246406611961207973744584228488397778652661;
Dbl 64844326300264811451904129898764953933260300810383945840973923304187572805499;
Dbl 36913636146454843497586800574209804570863976425926134504623964839800714823964;
Dbl 15962617340798975759430131637895628877351915074520835046899764240407400044463;
Dbl 79798327360971795696119377584662496864000674032086360979425133120724768627080;
Dbl 94489130639232086645457679814565841041899576433280915374708919807549388972320;
Dbl 39326305122930285567524026424192689854957763235886394805258300508701671689227;
Dbl 93399373661002215404193900842479454728168383164333822297439552400970856490753;
Dbl 63542067821638122026653769556766085094148033238119160098168889380424416552905;
Dbl 49177832656558098412698083214094147388962701679759140343537019340760436527346;
Dbl 25846675210677484443596440895012696934221731144431396767724666077258092828391;
Dbl 998047948626044394798467072044662995605754178286444604697763844635661314970;
Dbl 62845990817404747965044914238895228993736509835324831933019327827293209052095;
Dbl 24432113208014571975738076501110454835608903523022766134011799114788914206139;
Dbl 97492171197257619891039457321455985761108308200695438178679955825002257576768;
Dbl 108737149699290604437965465680207292500625565358740072482096090713744665606498;
Dbl 10813289527705647509958651845150579184231239202051372444299661822868693186965;
Dbl 114602198748321410515186753336836385189477175496972768463787827061282657573007;
Dbl 1379929553995256088725503697866180728848203178232103593062729357190093606270;
Dbl 62524587894813688673078427310714273515631787355278424070067682657967239271986;
Dbl 44467016244415381995391476445795256504035707299195276187640712454834560697963;
Dbl 101769065993338845866968661620894425588028995157612409878661579726612878451771;
Dbl 96811215611036408162503583821331896194323694133124456114620767159711252649701;
Dbl 58227532667511063766771085262452563410089202067667928983118722133713423297357;
Dbl 94312362077837036852603904660490149416481551636772121506137244680450181054391;
Dbl 82177832240759336680772633028348892692973353441976219443776230805827954060708;
Dbl 15678563581153126060025165283512205133283430724762787042452964077465171264736;
Dbl 46607444598527939749242120171357917617507367609488054083944665625547750818354;
Dbl 15066025828921596071424646466359183516885386446863786430537159483107904204414;
Dbl 77401040711500881297726119781746369183622273744640667146599268881663203309465;
Dbl 44875924433705684549906176257937276195773547507244942898627625412346495264682;
Dbl 14339223434357420278791251779993363673191874386168959524781821925250225534229;
Dbl 56957331261782353559929891458857105488302913232616466349651843056732116167429;
Dbl 113183501229310521177729898610417162818328888342123682103268454416399511450678;
Dbl 22679501672224968097585378808298797046500254194413764054296551220121056667280;
Dbl 115337703539891438993743485724537621736589658243712856265392804352845962950211;
Dbl 21191691640472684269551440006917992996802794541936195086837752129344381124527;
Dbl 23443830141498611127164973994760098020039912714189003459828053688339101625395;
Dbl 115051577841185721790345152869336793316614390454442705382915246836899291358697;
Dbl 19033148322120528797712819517126060203539316423886899152755551698050868591844;
Dbl 69358619138011968837300514138513804587077054327275914899291625854874958629570;
Dbl 28424943351103084075643797119705157554986089100349248509285748934710725823803;
Dbl 8172319788471004524627941138316801161839624830372538392390523109802117927871;
Dbl 6349952651465829292597429705497576513422557173922454118654986953527535374258;
Dbl 16198170169742470789326735827166793957581451257351325499111869793405060982443;
Dbl 67519620205057969128543077323933604033713035033575023367527296932053381494347;
Dbl 100960550175321596216442464144302412279613210968385968042040552347681762527113;
Dbl 61690771094187853341693666913182863829998083164224810131847668369145707549812;
Dbl 67563646516123232448919098625044812137726100590484845835988077227179755033304;
Dbl 109216920506399235854159775565843059922889728804330846281213755613593965432736;
Dbl 51132010307302752053631696484683433018350732442589845116859665371362696079544;
Dbl 107568924683171018969361475219284973360155936943155517958103944547028496063170;
Dbl 38348719306115070791988430036575429249130874286230577377128290813650451055603;
Dbl 102384986865797777039109013972162031103985323746915690031550807912902983586659;
Dbl 8037410935589972283553874544149070022720858177975769808363738869779941821925;
Dbl 28303162005851991326026925168348885747582143783379500747824730707428239994725;
Dbl 9889659754952612091228314137764906944647509649797234099151163201776262957185;
Dbl 70502389278860791199348159060545176715388666933079527453880632487914762561007;
Dbl 104607069193587385306974316033283341914932246589234443791918634035649628094742;
Dbl 49716186722505726488358451000652373925183652845467433294939021122994165259385;
Dbl 23912122198522755133103629962794965056025165042388504334799825170478875210395;
Dbl 87950164459982322138757336094088897270765446786496974131333863966956607226286;
Dbl 93290708558977842022497738179088811494370623562343641253146219170928185290781;
Dbl 101299553022724036356586267139593711706102905269898075182471035895778483856622;
Dbl 35472345970245082956594747694202022505403141776037477881855565576196802155181;
Dbl 32431818434496116481344304009080748683637906205644733599710951155243997520421;
Dbl 67391366268027214717991968853675538574290353268033295762393340641913915180459;
Dbl 78304394303494879999621705207465524810470749606491117898265921434829879329050;
Dbl 86480024379041075352309043031286270065863345769066008607240426869990838960412;
Dbl 53661472869519268580686361023106448450740295275766812063269984142452795822076;
Dbl 55856018564892049214706121278666314195285437460704496750774477906105004023582;
Dbl 6213569850010955281469101003803858839719715422440657932142497738111213516178;
Dbl 88954158166690120311791058683228611564707258245202236634243758154786546753208;
Dbl 63001031261549732379432337220675021919774137994092688934458545863124037298766;
Dbl 1777081154076344721608474158919217786599771304872155246719891362790220028114;
Dbl 24079656101526512215630018914380653235429994705684843089462095752839267621593;
Dbl 108168585136159861950555318698930784821367453105796353876222672705171346613144;
Dbl 66813225490178680795820478342415818786664518724892720726512964017467096151117;
Dbl 12186972111051420576021476991200585908719519659239729837745790033727061868284;
Dbl 89072103619725778325302315436713501650110553743119627126365550876422600723515;
Dbl 114406677882706045230381343370461122415821419752475813959817736401594512497471;
Dbl 45760990652049873035553338464447602581791312542954459705565967895992184110380;
Dbl 94167221079992918558956190984671828914262569045299396902997256413858750968996;
Dbl 88011964578550243063688102855337701057967735522692630185431492639013247263082;
Dbl 24751275373791614668090751130851256739232783329793643988682980784598769177164;
Dbl 110619137598153388158191826135805821661012987851412514895453867945708012781761;
Dbl 5043490221357552140473840891869100294771492010408140816461104465673636789099;
Dbl 70875168948958488810989422331914381772229670248918445538002177536489695513450;
Dbl 3304621891934247996614409555709442856539161072210654639045436750485470501086;
Dbl 73357122328931815111886392830439159672771676719860482631184411933676865183731;
Dbl 65777547603397239708703914100435759039631322558691384494046969844532697540767;
Add 72568781571758836148130675516552003281050005281347308658498882702734350983709;
Dbl 15722289454109798312677657305481136207203911499683302582543221026383916863428;
Add 36589942423832584909721078559771161535258642891901835886567849898506537546964;
Dbl 94676780366224154503441919760017932908228056499381300317793318771084860365763;
Add 48492893131335999681350359555571278896174811629377381933831809867848045849714;
Dbl 31205168706474440159388493014365106296832116577747652799264827842196841733526;
Add 51803255661886534305059803515063177150287347162437002101813339597051023232229;
Dbl 85876429206567058003718556334061648236233906190799743727493751908962223013491;
Add 82030358255667352476326529929951210430692678017948533623061367020927449749067;
Dbl 110129327798151508031630909880464492920500100389370209342441206806070416844334;
Add 35348923315029861227143983040931586567989263729586684179618179073301519492014;
Dbl 103703407106999329208347171548795364473777213125042698324039358147205245383516;
Dbl 36462284419931027599906274839778113425814915686843752661129800345958711120860;
Add 78948254692430318921387786441477408876143990108936613866620104432842451888695;
Dbl 36771085349442938174665591144385285166394503546448843494355645699999456104342;
Add 43992750087830613221148761044575529758674963040752717383987818517715073545787;
Dbl 13966799414202656198720126536317223811625370055281129723413168536741001117011;
Dbl 23661874629355550930732018635286441638904314460230670729289304411954507228365;
Dbl 107225202453313071886958785633455656426919695243765434030166012617735451062261;
Dbl 64260604592722385130235189932784648862598785482650242125816277723928747298510;
Add 59059481540198237341548864072267145605951745514176933656267235792729368348436;
Dbl 56668654851583377629965571807991242243098686862600918849145580454930215119460;
Add 7901188427159245768125536038679349670794517699571507009489255945305886442352;
Dbl 45111827564454047259643963317502521351657807523708689304891839665149194068993;
Dbl 64939900751272122856324147159057441691210215844133736045087235699826307249973;
Dbl 77742312287931490563942453922088317080704221153987002788498083117214589340531;
Add 76686383630524196359365695278742270694685346039643520497166421570203891497644;
Dbl 40948623662922035160904845686020057774682229153721772721742053272962819820713;
Add 11833729271227703542742129569769326461314341861494403764793946208300882224496;
Dbl 8166861586520715911804408849010512085284089445644865133684200764529166908581;
Dbl 15222237633202696084289233942270727973770381286563013639692485094783128537132;
Add 112678548223113882713473861369757933245510641585893977207459006226585900194429;
Dbl 104789522135759224658907992629027907284905650521565375566951195941378625621762;
Add 47948685100819541106739751696233151637284284454050311763048519019476392848606;
Dbl 68303527438851969419874800340144679988857974734467611533293733216546559235067;
Add 96961337544714192091265376944581025506458610994244800366697663915899242586811;
Dbl 34480151619985688110513495506930082566505347045587792688415209396529383180035;
Dbl 80038406492724140224441006242449020100760385913402664780143487388643149986610;
Add 50211564409752082177448529671893041215814861749062577262594344555712281748501;
Dbl 2874818908755591472918818657676256163877457260875976737068157886422539796953;
Add 52015372672042782951996207588418567936111742762967500642402521483141041966097;
Dbl 52093503915320662671842619543116824064355955889058889641586246689656864283413;
Add 102163906682390441624771272567428311026563930689378007238585896243539272226942;
Dbl 81755297419300286812774849213793514895491328741496137592075392941411369381687;
Add 78082040964804717454193225258479946436047223893689837677547865788966547158167;
Dbl 79616228059392310431276167539946609478385183479436270067222231246465125025732;
Add 13356406489056134662847766961499379644091652854672772490653835865163718772711;
Dbl 52112175672753667014589694572830885940455055402937514580432043056868921346237;
Add 33725181252729588744071992328948426486694943941247413983638436186546463285722;
Dbl 53574000791919641700069266887389987071576637247090035936452136980947558290831;
Add 12363454120675128049012814683637553503181814798691563041433931828246386545508;
Dbl 61646960111261769751209172216481145131161366400562334298093982202598650401747;
Dbl 68683893592617956116454586193554332128325740511956641383115163537415426016175;
Dbl 19700027842995065482711743549570484249115899724221635322705347927553249204137;
Add 9258129235204271649741375986655475484762988790132882912842160452805438538164;
Dbl 80869200453659021247902128020065393745544046775619734781446383899442213350866;
Dbl 28652063882965856548892833720460193414755349926828302157235243343961208745103;
Dbl 24487150658997442360451110247422981869492222432417419903105277645745647784089;
Dbl 99354746101572698702843548939524213090934576699215097290396362844505401928826;
Dbl 46939534828241682253406204427203986444734894380532412877647590213069412645966;
Add 86578837224252551553944912221930239881414544512253303341851820948023522536644;
Dbl 82401692275248526503781785242115473754902783869669287267459333442233891514352;
Add 93430273501765377711252405814560578106544673660799136439206310908635608934501;
Dbl 81374825697434427974036535814147092172607078503592129065852552206088703333565;
Add 39289928525160159553707350451065082250216937733449119482579509063320021814133;
Dbl 62706508974386154801241771345135815583309524462245330907976686023300281010996;
Add 73197610652466837745986367629703565904997801050640117446687868828635657076618;
Dbl 29064205589801213121160565196371513669390395167792675034438036483006902270196;
Dbl 7335693145043970187034103427908373269283993072520470084207117504066965623929;
Add 92624441966556181799026393016110039263157523674591969232327389324421047039648;
Dbl 64293210199996085581154443586790254682213711151842056767088822615516996823058;
Add 42169954655908850864999085395436942991801107095887221770970571628281305278882;
Dbl 16301494005800917993460346608343025200318917816120382023990527019941640296805;
Dbl 43334590274662002626890130841549757838112487176153229131260413574632814620685;
Add 66816225352162893880497920891020597129849803888654198905932408232921330372315;
Dbl 66005595250331015290011758689718868173151409458370105855169859371441545587936;
Add 56294300220930703712703901493031622237042353335419908985220133925343440105433;
Dbl 55797725461323801405241025260611068766862645348267493417531811007266270175020;
Dbl 72490037309253103445845112681232459073523885536710371166334551917365332458622;
Dbl 25160665367167821076184387091295623945960370145115690621040624564526884334343;
Add 111956363386095040989054545069318544045701246502643107242251025323632432724113;
Dbl 103366889255769600032250376233151514734946739863305645357916096221245141215619;
Add 49200987187329204756271679313449355912765679721439959763137689403723160124248;
Dbl 60966691673424961033169147606716411197964849578137938269117505214241459530670;
Dbl 110277593164113540662999410263243320133798574820276220989417306153507988036689;
Dbl 67825011225910346917743599125308037597740961274830457731890443324349996261629;
Dbl 22683489210185904104566685292940895495732393219987762722005851463699208756757;
Add 51139806975229868255145823642386819046424668735008477927774660405411356799324;
Dbl 31898181033765885560562699411115969789663385155215242777793864453394095078096;
Add 54765352795797549808292382874685304907433977423073307252374171516535260293451;
Dbl 92458285216523545764764175498272861162095314188193429801693944782230860137553;
Dbl 39754863184128199216881168188273380138118077523811235203904468020105029432731;
Add 100918044779308463702838571544363303137189705211005701642168600334917169631934;
Dbl 112822999215205865784694263229803123128779268988199014487625728162434539123603;
Dbl 29424150047896479484672843008071974011000770208286812412585377139021529504645;
Add 5061173218707261516933943560774859270110626311676737133295641492626990456811;
Dbl 108416592432485427097738190778088548341337347708429437796961340165455708170938;
Add 39724291292132716374340953923140507018119735787364014321522180029132307363147;
Dbl 86507393315688992881079416460614195196418562334670303283050101139517539460331;
Add 7666244359011267426641446653109438137873812334780722151629292336539646930927;
Dbl 57761332962035989146095721533264692913461410016489546436695179759736426141750;
Dbl 5596093942508564762024007470342302556424324810758681796646677007504076655798;
Dbl 6654818729646994953428072668327376172961511536144801578204729633002501732309;
Dbl 86828790597344223475559722312494864939310085348537574762613201508664348969318;
Dbl 71559604926077379721302012213270653564353672001140492869270827369617098219700;
Dbl 18889024805524023127283453426293385605442935387317763496493200036417293735326;
Add 99168682350110871296489370163315775626971732447365077266876964058679591906870;
Dbl 99945775392308140442427087227126496327648394996297579787374253470692247547455;
Dbl 74492373471216183955531076216006103641350494254454329773602210805070181195237;
Dbl 81061378221566577021226571125046469685234360039274137990017387103416566691873;
Dbl 63686084789598107209157539518721351276853064434830754499063828147272598991722;
Add 53801623158151955458577504051901626352035430570624301650479621377825083985925;
Dbl 20720363400104779916977588768778139952453591432970276325511328354810983081020;
Dbl 48814573316620779891272085041932523403426778808306329455953627445401098805482;
Add 98875520986879068465612589760123781967072964713404021250468488023506265356950;
Dbl 72899208153359077662855084177301258031775792001911532989238130571314264788757;
Dbl 46271182528732933722278080195539749452667144307464480019036671963066391654806;
Add 103134547093154904423671604313910555712643080194561430905776653511629392506048;
Dbl 27779483258992271884584693383796018720291106938103965821024666571108579079391;
Add 41121742414418365582682118031786561231677556655267485240940738769255304066586;
Dbl 21451476992929723538719423040608028151221725935239251976770017338276806841066;
Dbl 62401124465114448519430732294322142251312534097283451141978039836726799603616;
Add 99005483291059855280458856259418412315843750536947680122854251969649211388507;
Dbl 5593856568829568265626103749456184193487307753067246265346237397232439294014;
Dbl 87863299680080286165406453236601044668181825266319460092750641162012144152696;
Add 8784484481900919487543753133210919118218308755303974600416621663575633919832;
Dbl 90032457026778713726355346153174822697447090606225829795892169935512220763545;
Add 106709771708507008219370961372694203376700239277507978491202297288555061674217;
Dbl 18478399109755141874055881610733652063492388334440838944731138437484916118144;
Add 113661673714992459334592608960008118020167145993315666769105981271819872328187;
Dbl 4755268888381603176425708958664108420767381246760718269273711562027427985022;
Add 56833529015506082252674754678640229706413382972348206551653640767246850655133;
Dbl 89128128211239710508815283499412391146200555609376698686511317668936271740302;
Dbl 58661535179216689974602831905458347155738517631066917418120598234840270122884;
Add 3498300129259263607313588371020546516913203697177549698485968207494468164123;
Dbl 16309217714391553031102707020042808388012762633421567033161431534345432112541;
Dbl 83611261823945573646998499159885125258976781090028713139546022575549371139465;
Add 96003175954574220764896923355901286699852865306590192054544155807926860320047;
Dbl 110811383792989780456689922258940386371776683154923372275834122815226723854140;
Dbl 44776223384959198887751351447468316315271238397784386043016177396512735367441;
Add 16358420295245012032747551632353695177573647770152918509543703658273215282058;
Dbl 113982980152119490192382427227203095938640475431815799219247773629107888902699;
Dbl 93829874321977447674168518890841071930126785922694721907862681672644632052545;
Add 93299924583515985476037683052157219036048202736837066628495756922412978864623;
Dbl 28653768090402808055462528094885370883048232127769121697922617327066993500023;
Dbl 27074369638050661313289677745926984471828830830376738738861866663702446374101;
Add 74548305517048486669082466633130518112336575740099547099467660243484766296186;
Dbl 99234655017156123442962472771544024774936079859818534303747851076030184267588;
Add 111802646381365025344461937385578843700564050976874503543570240926294552890377;
Dbl 77515916520174311403953807106958996644690311407255405522162901091045457108044;
Dbl 113141136500588091658019424908950705187382664682956564488139108156934559424270;
Add 93559624805691947152719285470776382902692035516160017391760973426642207348783;
Dbl 16668277111401353846467203470794722665520085754013481993555881677372320363506;
Add 55107849398270685615582065623939579453075266121393061309642647520197745448284;
Dbl 35783065098983233461741177695852121566730807339280081775322095799896966820750;
Dbl 112001367720182242580835858467478178614780693650143638733736121737680909694688;
Dbl 31410037182314198322033478294326005175230550993065470440411951505386805105723;
Dbl 9519588278381726961577852490926387094362684992656590377579344289352433820815;
Dbl 60825337978314962603052123578156479732002364795663824933446340622559275458273;
Add 15033259323258982998696123333629678586325666451710961676843386731254811726311;
Dbl 79348103121947506970070840873059140256235904236931589083864023611947447737962;
Add 72696866381900591235285220148948294428142277133647488799954299487733964227992;
Dbl 115497067471806182463040050621570644067229899741038651239533623969117427014160;
Dbl 96283049635615041287547365994167449199834011658741059149046016629378543199484;
Add 35483413057490792106224735267271275614418906025600477102785178456189237876673;
Dbl 86225368151595055510216614293437676447819144568970721335709319005412864800342;
Add 97792425955185523409695623648018500634364673326982825777241895163878833857530;
Dbl 95746392778921466102165001661407079710629669286707889213264169024190141567340;
Dbl 20201519715579215575013882527104377112554900024085354194686790932271294781723;
Dbl 56308696127569432065096911679771556671194065915676043985583000469074987045571;
Dbl 73304075810226537840294354187231756960225758359010497176434989562880533621436;
Dbl 103780718749346017802904503419719726320549025738757105321975183788515223552931;
Dbl 46678647796746417326041754051424084670311659955289438553347626126117797642188;
Add 28166284656674747337039139838028118504898461716802424665578543785669715463975;
Dbl 94825094709269644949416486648486495907124788711171348343724964911986323010312;
Add 31093606459686521150984212359001715677216317238436021819964160122496174788254;
Dbl 110230567648467374085207247827723450658974709510789066023478191684447708217715;
Dbl 20136127298275479750123727080472860798587798751980552873996554995621038459749;
Dbl 86918524932174348826744433482203246740721684596986976349947229082904039209045;
Dbl 67699056674623146136377579372667298731293053109423403612260913470213272695384;
Add 40612197728396503384358647937856446124823779310046961729147781717449904776606;
Dbl 103689430123869486979620204282851890519706573037315428793663477621100910066194;
Add 16406619702566334353064027188263364279035478560185031404128948827699955839756;
Dbl 95668828856103869014227597963025481419371003369205348812364225261553296839587;
Dbl 105030930943248274241733390667136866987996213667946301286658327393258385021221;
Dbl 113501313099786983513209304885495587174367170076088833397985452925818063191993;
Add 69581814080143729083406081764985253241842861387514304056129386846275730124059;
Dbl 73463392056594336885309798221758640309615160597179744127507990066430673233954;
Add 37144026637519141873975325158280322469573987742072970921377395124143958497335;
Dbl 8057123874250350106958240720639420155365987078804665430746925770329208079826]%bigZ.
Lemma curve_checked : check_curve 115792089237316195423570985008687907853269984665640564039457584007913129639319%bigZ 87789765485885808793369751294406841171614589925193456909855962166505018127157%bigZ 65987350182584560790308640619586834712105545126269759365406768962453298326056%bigZ 22855189202984962870421402504110399293152235382908105741749987405721320435292%bigZ 18713751737015403763890503457318596560459867796169830279162511461744901002515%bigZ 18389032234039155322238749536971910304593419060130893832004093007513614593667%bigZ 28948022309329048855892746252171976963338560298092253442512153408785530358887 steps 54847517333236632392193920649226099297737970244928419172999224532171976698047%bigZ = true.
Proof. vm_cast_no_check (eq_refl true). Qed.
Lemma p_is_prime : prime 115792089237316195423570985008687907853269984665640564039457584007913129639319.
Proof.
  assert (E : zv 115792089237316195423570985008687907853269984665640564039457584007913129639319%bigZ = 115792089237316195423570985008687907853269984665640564039457584007913129639319) by (vm_cast_no_check (eq_refl 115792089237316195423570985008687907853269984665640564039457584007913129639319)). rewrite <- E.
  apply (prime_by_order _ _ _ _ _ _ _ _ _ curve_checked); rewrite ?E; [reflexivity | reflexivity | exact q_is_prime | reflexivity | reflexivity].
Qed.
Lemma curve_facts : ec_disc 115792089237316195423570985008687907853269984665640564039457584007913129639319 87789765485885808793369751294406841171614589925193456909855962166505018127157 18713751737015403763890503457318596560459867796169830279162511461744901002515 <> mk 115792089237316195423570985008687907853269984665640564039457584007913129639319 0 /\ ec_on 115792089237316195423570985008687907853269984665640564039457584007913129639319 87789765485885808793369751294406841171614589925193456909855962166505018127157 18713751737015403763890503457318596560459867796169830279162511461744901002515 (aff 115792089237316195423570985008687907853269984665640564039457584007913129639319 65987350182584560790308640619586834712105545126269759365406768962453298326056 22855189202984962870421402504110399293152235382908105741749987405721320435292) /\ ec_mul 115792089237316195423570985008687907853269984665640564039457584007913129639319 87789765485885808793369751294406841171614589925193456909855962166505018127157 28948022309329048855892746252171976963338560298092253442512153408785530358887 (aff 115792089237316195423570985008687907853269984665640564039457584007913129639319 65987350182584560790308640619586834712105545126269759365406768962453298326056 22855189202984962870421402504110399293152235382908105741749987405721320435292) = Inf.
Proof.
  apply (curve_facts_of _ _ _ _ _ _ _ _ _ _ _ _ _ _ curve_checked); [exact p_is_prime | reflexivity | exact q_is_prime | reflexivity | vm_cast_no_check (eq_refl 115792089237316195423570985008687907853269984665640564039457584007913129639319) | vm_cast_no_check (eq_refl 87789765485885808793369751294406841171614589925193456909855962166505018127157) | vm_cast_no_check (eq_refl 18713751737015403763890503457318596560459867796169830279162511461744901002515) | vm_cast_no_check (eq_refl 65987350182584560790308640619586834712105545126269759365406768962453298326056) | vm_cast_no_check (eq_refl 22855189202984962870421402504110399293152235382908105741749987405721320435292)].
Qed.
