(** * Certificate for the parameters 12_512_paramSetB: [p] and [q] are prime, the base point has order [q]

    Generated by a program outside this directory (factors of [q - 1] and so on; slopes of the chords and tangents). *)
From Bignums Require Import BigZ.
From Coq Require Import ZArith Znumtheory Lia List.
From Verif Require Import Fp SpecCurve SpecSign Primes BigCert BigCheck.
Import ListNotations.
Local Open Scope Z_scope.

Lemma prime_38f : prime 911.
Proof. apply (prime_small 80); [lia | vm_cast_no_check (eq_refl true)]. Qed.

Lemma prime_7f : prime 127.
Proof. apply (prime_small 80); [lia | vm_cast_no_check (eq_refl true)]. Qed.

Lemma prime_2944217 : prime 43270679.
Proof.
  apply (pock 43270679 43270679%bigZ [(911, 47498, 2%bigZ, 40063376%bigZ); (127, 340714, 2%bigZ, 29140643%bigZ)]%positive).
  - vm_cast_no_check (eq_refl 43270679).
  - vm_cast_no_check (eq_refl true).
  - constructor; [exact prime_38f|]. constructor; [exact prime_7f|]. constructor.
Qed.

Lemma prime_3b2dd473bf : prime 254171968447.
Proof.
  apply (pock 254171968447 254171968447%bigZ [(43270679, 5874, 2%bigZ, 222904748015%bigZ)]%positive).
  - vm_cast_no_check (eq_refl 254171968447).
  - vm_cast_no_check (eq_refl true).
  - constructor; [exact prime_2944217|]. constructor.
Qed.

Lemma prime_46_88f0b33149 : prime 46767642194249.
Proof.
  apply (pock 46767642194249 46767642194249%bigZ [(254171968447, 184, 2%bigZ, 42553420990740%bigZ)]%positive).
  - vm_cast_no_check (eq_refl 46767642194249).
  - vm_cast_no_check (eq_refl true).
  - constructor; [exact prime_3b2dd473bf|]. constructor.
Qed.

Lemma prime_53_ba32cb92c5 : prime 7669893319856837.
Proof.
  apply (pock 7669893319856837 7669893319856837%bigZ [(46767642194249, 164, 2%bigZ, 3229231731397822%bigZ)]%positive).
  - vm_cast_no_check (eq_refl 7669893319856837).
  - vm_cast_no_check (eq_refl true).
  - constructor; [exact prime_46_88f0b33149|]. constructor.
Qed.

Definition steps_prime_63_b36b4d4c3d : list step := [
Dbl 7043726726033667911;
Add 6158461709201375196;
Dbl 3177061016893693576;
Dbl 5640677344838964473;
Add 344971657874710479;
Dbl 3578886485306325215;
Add 6766368281566571419;
Dbl 7641336265583862186;
Dbl 2452792754871223540;
Dbl 5710086388250830433;
Add 2789919617960569377;
Dbl 4513377136103467420;
Add 1755068926331517094;
Dbl 4730263393545997924;
Add 6324960471008362606;
Dbl 6497056764519352025;
Add 1571953909783476206;
Dbl 855309035980262846;
Add 6632031124527872662;
Dbl 4478619602053093001;
Add 4529084311117082171;
Dbl 3358629886775816987;
Add 3296228572485433871;
Dbl 7512944579852638374;
Dbl 6713266921154595410;
Add 6310771365453343857;
Dbl 7799262524255371185;
Add 4905164951292187250;
Dbl 4774662613586677711;
Add 685571405484086912;
Dbl 2795837468719715131;
Dbl 1439231898355045091;
Add 3011581159889407362;
Dbl 3372245817404520034;
Dbl 2885725199049063697;
Dbl 1808962768387209821;
Dbl 6471956080929345456;
Add 3377205111393082177;
Dbl 5533014681832367373;
Add 5176607339552842816;
Dbl 5121548271488286152;
Dbl 2336836742251039015;
Dbl 1435485637283444537;
Add 5512950217247479995;
Dbl 4998886589777784967;
Dbl 2468643356075096056;
Add 6126560841432953654;
Dbl 593955848538569310;
Add 7817636051565579469;
Dbl 6121711846141337489;
Dbl 4093485506993881083;
Dbl 1746823334557742186;
Add 4844350688055686402;
Dbl 5539691162018379886;
Dbl 473203375741418795;
Add 4061026760798142433;
Dbl 3194988926763627533;
Add 7202999865191156370;
Dbl 593590770582246683;
Add 3931452526029258694;
Dbl 947822540916467012;
Dbl 5777467539879714972;
Dbl 794844174545756783;
Add 5028803576714101859;
Dbl 6802858340580277090;
Dbl 6099076287677322916;
Dbl 5554608490561631949;
Add 1531809105004874400;
Dbl 7534216724859560805;
Dbl 2795323923735347514;
Add 6191857530254923228;
Dbl 3713231707162243655;
Add 7523082098244420431;
Dbl 916604356752486841;
Dbl 2754371775309122487;
Dbl 5137164594849960949;
Dbl 6801924416444526677;
Add 5496104101816027441;
Dbl 6990281022675109965;
Dbl 4051818373849318414]%bigZ.
Lemma checked_prime_63_b36b4d4c3d : check_curve 7884650330427575357%bigZ 3184353524561380803%bigZ 7558185360697732415%bigZ 6588119614503772128%bigZ 0%bigZ 227461199567096141%bigZ 7669893319856837 steps_prime_63_b36b4d4c3d 816084995756030034%bigZ = true.
Proof. vm_cast_no_check (eq_refl true). Qed.
Lemma prime_63_b36b4d4c3d : prime 7884650330427575357.
Proof.
  assert (E : zv 7884650330427575357%bigZ = 7884650330427575357) by (vm_cast_no_check (eq_refl 7884650330427575357)). rewrite <- E.
  apply (prime_by_order _ _ _ _ _ _ _ _ _ checked_prime_63_b36b4d4c3d); rewrite ?E; [reflexivity | reflexivity | exact prime_53_ba32cb92c5 | reflexivity | reflexivity].
Qed.

Definition steps_prime_93_3c6c9fe437 : list step := [
Dbl 935745053231326356187929228;
Add 4325719392891645822989749433;
Dbl 1206838940148491854344719538;
Dbl 2071721256997255443895397032;
Add 771789780512292498561077835;
Dbl 3147292804067798413692634775;
Add 4215624420484700005348635997;
Dbl 4619227128923985776125703773;
Dbl 339884943478889932288592383;
Add 916294169388930003212120122;
Dbl 951856763802049375946500060;
Dbl 4348248070688140320972407251;
Add 4543197585907160867709572939;
Dbl 3717840750179481520035046413;
Add 1956523901366523862098311614;
Dbl 3666328859259489400331123134;
Dbl 706237459850392020357084397;
Add 2531386835130901673191023269;
Dbl 388847363040564495407058354;
Dbl 4941861248354689774937726245;
Add 4446663524738484800616092398;
Dbl 4550560622586425342087033029;
Add 4534121205121001808780565868;
Dbl 3230411253214949370879983436;
Add 47743423831560828129712945;
Dbl 1102343326090321800986400263;
Add 2489004952305204782212451728;
Dbl 448130528236876444369981102;
Add 969198822636218944131285858;
Dbl 23924584374642814261581416;
Dbl 4464352049550532580062904794;
Dbl 3809471096124305536209581307;
Add 116103546465536564168270657;
Dbl 1196051357437013498774148469;
Add 3488633845755040269409168758;
Dbl 4177193572863609430346570802;
Add 3441694647683841716382295443;
Dbl 2006938819925334975508135951;
Add 2453048302906600943388050132;
Dbl 4357342318466047675268069796;
Dbl 448105392130740625034467225;
Add 2334829235968258719689699192;
Dbl 3888648503769437349936085027;
Add 4787603096547302281186891688;
Dbl 879122102066222227340786345;
Dbl 3644937275064911416917155139;
Dbl 3702745085867057104496077595;
Add 3932050859219256489787592352;
Dbl 4013715565656913012012036660;
Add 2127966148725118113118907363;
Dbl 2745974150579928897674619539;
Dbl 1079358284611287848860034755;
Add 906134291979437055071223803;
Dbl 1433322940768969720203720216;
Add 4027822676355053663529166884;
Dbl 2073118327510316507114750279;
Dbl 3632463251558207714178841872;
Add 3942144171742862867630484634;
Dbl 5003036907026149224677085440;
Dbl 409105468336699789982132132;
Add 4319205193092612555879260206;
Dbl 680242580616084592619285111;
Add 508788985177607022020273850;
Dbl 2724672994446000467111903110;
Dbl 4276111188050760090225370270;
Add 429334520658768053212287353;
Dbl 873388213694403846783219034;
Dbl 1410540607759772922513513306;
Dbl 2478561968513247411816399655;
Add 1676054258189677459295190704;
Dbl 4151837008207261849054353736;
Add 4887404307168177399721643838;
Dbl 1639873748181553304589056106;
Dbl 4787372413941289786610575741;
Add 3380769346539076631527381282;
Dbl 4169354262713423131582236031;
Dbl 82800557343740337283616365;
Add 2973609204081596702579189486;
Dbl 1835340322529913945119614956;
Dbl 2866720247381812956986345658;
Dbl 3240343158045619386634738048;
Add 3309118205178958039387383012;
Dbl 4622481086373845675331908432;
Add 3142655096860345014256786491;
Dbl 4912779303948780297603771729;
Dbl 55053629835124425299959022;
Dbl 2795976126647297197192184598;
Dbl 3730107334955911802823747957;
Dbl 4413875640822103812320462779;
Add 4156135897183314155598852661;
Dbl 92090645625415569235217496;
Add 2449385808802105430885283138;
Dbl 1195608711022742270189714976;
Add 1481085046570425318514805430;
Dbl 1196599290671171817082903109;
Add 5019540331638369361303103003;
Dbl 860555152199921587065216597;
Dbl 629179951944874330878701584]%bigZ.
Lemma checked_prime_93_3c6c9fe437 : check_curve 5020058086484032835519767607%bigZ 436942928595386948402996894%bigZ 82653704467158084119842548%bigZ 1972421186568166436660244174%bigZ 2408334451655323044574063355%bigZ 2516291848146419113241565499%bigZ 7884650330427575357 steps_prime_93_3c6c9fe437 4415855043781138205210780009%bigZ = true.
Proof. vm_cast_no_check (eq_refl true). Qed.
Lemma prime_93_3c6c9fe437 : prime 5020058086484032835519767607.
Proof.
  assert (E : zv 5020058086484032835519767607%bigZ = 5020058086484032835519767607) by (vm_cast_no_check (eq_refl 5020058086484032835519767607)). rewrite <- E.
  apply (prime_by_order _ _ _ _ _ _ _ _ _ checked_prime_93_3c6c9fe437); rewrite ?E; [reflexivity | reflexivity | exact prime_63_b36b4d4c3d | reflexivity | reflexivity].
Qed.

Lemma prime_127_782370a557 : prime 138701427562337247608308796327902356823.
Proof.
  apply (pock 138701427562337247608308796327902356823 138701427562337247608308796327902356823%bigZ [(5020058086484032835519767607, 27629446746, 2%bigZ, 111915290914019844081085717069420124174%bigZ)]%positive).
  - vm_cast_no_check (eq_refl 138701427562337247608308796327902356823).
  - vm_cast_no_check (eq_refl true).
  - constructor; [exact prime_93_3c6c9fe437|]. constructor.
Qed.

Definition steps_prime_136_275498868f : list step := [
Dbl 53649134298215772365138949268679400471826;
Add 51311827805636052324616110191863540413621;
Dbl 494703016685669588973381148595684379376;
Dbl 24246703503480471801895948352301217920848;
Add 50407523547380119198543060193343755902834;
Dbl 41673172296572164376811146746762562801685;
Dbl 33869082443256993048756838122482609350440;
Dbl 64212207219769651202143906856947998863479;
Dbl 40961392963971862202167529556656396123497;
Dbl 40457704990533129920726407733743485556324;
Add 62494632691460281814737080451693254809044;
Dbl 53561776004786712858067975993960674024836;
Dbl 7107234833854801299555219730591989621808;
Add 21542207004542277822522736397886344402122;
Dbl 15416594897934687148214952745841542956380;
Add 63725047257022802605680088852892588476255;
Dbl 45458554790645872210692018728322849382497;
Dbl 13367722253142438747298806600232535672761;
Dbl 51944817473249314472030636626056110502290;
Dbl 62689669262228858518577226346019736562571;
Add 27454330078753878541104709909060502650613;
Dbl 51968037400276341984949482548644136846041;
Add 62289672348625719818395385283572545917358;
Dbl 14119048447484794662143351265007830649159;
Add 4693098160144900075794244956273930115644;
Dbl 19049647159234386809070978517946911919751;
Dbl 42321237479956055914839449455368649196631;
Add 34016926569630665337139954656827739866068;
Dbl 61011764541280465117252813901782022642574;
Add 20932024056387538148535015154014983811805;
Dbl 35885608476552745581782266593810106933277;
Dbl 1680580807497436283102739533337895997893;
Dbl 18279011635167113202974271260666899572493;
Dbl 44831243348634705018430487246511734856080;
Add 55260340730845174163400240369120373464008;
Dbl 47691217823261056303198120251566244969850;
Dbl 62254685342449037594875512629432669368063;
Add 12653553454431268558092743396125298512070;
Dbl 890834620106255123811558252208137996096;
Add 10626987350967307462775812154758073170340;
Dbl 53306361101630335596175259550506233545409;
Dbl 29158928640560039199924426875418611837029;
Add 8181694385925682204626808532904500733788;
Dbl 2916477002674722451601530204001872478791;
Add 16541354001457463833877145975534507819361;
Dbl 53413631199136717761165965917156659757190;
Dbl 56743096026288279332897112387850822099173;
Dbl 23571718520566126915252685797000186059738;
Add 42949993272816564479227834610975973511317;
Dbl 54129253375908061335174925664447124505274;
Add 56261160613172880916912937191253056234158;
Dbl 9713516654190483087949417341205658047411;
Add 25601886930114707431759761463939502139105;
Dbl 37619953282343121178241529130751879979183;
Add 2881383167416159971972362431888650764521;
Dbl 6310454273469076109721912735122943447923;
Dbl 56934650259440335739698399386531308578242;
Dbl 51416387591073014556228723334221424362813;
Add 6489861256748730464539899563653292978303;
Dbl 35890851455330093368372503222693398334556;
Dbl 46587247078739106910485119793865340661020;
Dbl 54212488912584732333275579213111925135440;
Dbl 3535457085263252588122540789726461732308;
Dbl 11999393901556665066381328400293407703835;
Dbl 43452566002654876316797385631345999548957;
Dbl 49822021386862733345358061538585667536139;
Add 22642923047194181099484172976759164181654;
Dbl 62976470064908771812388985538620174022981;
Add 40796584402191650670479318571550944135204;
Dbl 32548328547395183764710451190114212343615;
Dbl 60460834998335629203389481356318719450132;
Dbl 29426477851379079916050661631932361258119;
Dbl 35681648116013547916644280385280676338729;
Dbl 20763664792214521610910341775924486674234;
Add 16255763118705888193732526442712626545083;
Dbl 19192938535757924403931403643426780258351;
Dbl 8879568331162635715163245769777709040254;
Add 42886985360556551280775373755639367648796;
Dbl 36194012522120930069921149777312488222488;
Dbl 34391617958503046067666996786324530421330;
Add 24532299776722173897003192659609303040410;
Dbl 16964234444326736110012655936510151687806;
Dbl 57994222657706512003569231243265836838147;
Dbl 50259376042723389391074661330867291972348;
Dbl 28366979333786242886558410420877500020188;
Add 36517840295214198419263365998122122419235;
Dbl 16963925135429492456729311842856019519734;
Add 63672969982681933893314995156095117571629;
Dbl 17230875751173549745199958750085308812654;
Dbl 55840797357515613424369276273872248017810;
Add 52193125532332603908349194518596578634046;
Dbl 23274328206863521727769967473678703121478;
Add 18371684092780854676720080705901019507160;
Dbl 15540335763306007252612479002018957153603;
Add 14546656002736219448963813830292236508872;
Dbl 35535030988278056516589492591874168307542;
Dbl 35781165099613473763821506109452636696915;
Dbl 12791780264130791725538034466984678531051;
Add 24496777747922982860981737989819049245161;
Dbl 29413032178202642635824066380502627781571;
Add 64012229507980674692111456982945932790386;
Dbl 37448525151693809027994237573713653605630;
Add 30618129403621650854974430856191295409425;
Dbl 1734095802526464144550705405534063497599;
Add 14276051119091741730263883138153995674504;
Dbl 40533879317119101690041772108643725253894;
Add 62953210125649149700689213622107120527661;
Dbl 17187503252098440172645734292048435765495;
Dbl 51217572747277020017422361876992763584849;
Dbl 43627295762779937702295285348668592057844;
Add 29918613263111628990523106516691246518723;
Dbl 49162601161333539745468300490582752269038;
Dbl 28258634936579203614886276875460635188411;
Dbl 23135063814853516322407065684112495711730;
Add 62990443214500047434242033244816253810015;
Dbl 3912047180575320091033602714981515984644;
Add 7904693251275938576182708732512541845595;
Dbl 63518940727766577179448188727973649363852;
Add 22498008743827899339876631060111872046970;
Dbl 14752639862305130249934232547305936046784;
Dbl 24188651433786686299759678570177482433197;
Dbl 65591908542513092492449566683511180315431;
Add 49919965860418812935069971474382180289719;
Dbl 12029263484694284091261943212988452144854;
Add 29083683233321065945234502757395817324258;
Dbl 64465356731055337865262629422714686182190;
Add 27381116437026933955009163089024422827171;
Dbl 3277348300269809660196346835775877813255;
Dbl 62468906672888152374200715947737662075026;
Dbl 26354364490447557705513652484527569163674;
Add 41318060141955159273815291803357747815888;
Dbl 51636680671013065658307280684681791854835;
Add 38547781657009702010937277714117185109728;
Dbl 35202147501664043064352428032067630240968;
Add 48891763821768913625342706970902720556123;
Dbl 60847415575680821036839507497700304956960;
Add 37079351270955651920840155868564167792600;
Dbl 22521833934885318830082918666240305764250;
Dbl 58923461769537236824115215078846166785189;
Dbl 8575698557700322185350371123833481023881;
Dbl 29101827687336396669620968536302392271384;
Dbl 49778162938068112867337607011170767879900;
Dbl 16829540128613868475344810264789960339900;
Add 41599922187113084325139007714709728871239;
Dbl 42698627998900941685026479802693800002642;
Dbl 34751731692393292433789495305517319984871;
Dbl 19735630784955900976744950419625008984304;
Dbl 5279454861932754623113294017163140877910;
Add 832400302281521555190719063950636429904;
Dbl 20128595794576177968250638099574291572216;
Add 58975200749048658187760086608128342472743;
Dbl 39301734300849862919785919361457118171955;
Dbl 37262509054539029283529115081190095452762;
Add 6768514575042340215198233874362938501667;
Dbl 46205940315945982519127904493881453866173;
Add 22146069462570316856724904129084347442406;
Dbl 14325687342737028861316010978215583440593;
Add 14417819394971610321054503295994975933259;
Dbl 55781152786883002643401157634821052797943;
Dbl 3074584786535948735022106952195992898139;
Dbl 14738254585243753781199768703889633119731;
Dbl 58386634057914969858874309989664720705624;
Dbl 62780661336118547698667029307863257223619;
Add 9302965131941242477712574302753658015467;
Dbl 18265820767607761333075935376663785333113;
Dbl 19091959367555642731030422809128277198044;
Add 181786908747132195077059988975897762472;
Dbl 33770885053171923709419881029936188091993;
Dbl 39920641464906968500773516618066048760565;
Dbl 10062391950806922032102636540176401717166;
Add 37136107180032775357906931230708047241593;
Dbl 52451419442815241777213493377964299402445;
Dbl 56431064596466947737149668838179447258621;
Add 38172315450034054726725360769378514675884;
Dbl 27867140290090496812413859103079802252690;
Dbl 31089455379275898964770351024144205760545;
Add 41534654773136078352635295783333043964554;
Dbl 62661517655773061428676571297635899932588;
Dbl 21480329427687254446953409271596811919194;
Add 64046966894154936282469282339635171332048;
Dbl 37059982296757241941904473524358810910585;
Dbl 20908449766552785396587156675258218357747;
Add 8552380213557824637280702000578692166261;
Dbl 35921816042784410844793450208157227096382;
Add 49118833694015336084185645816136115924996;
Dbl 22862127029404663861375593213871377023928]%bigZ.
Lemma checked_prime_136_275498868f : check_curve 66021879519672529861372849986405540595343%bigZ 49811073600383830661892994022178338902556%bigZ 17368945816021351227516972951591462353016%bigZ 22648886872793849984404398095138430682136%bigZ 21148325416555803551962545768060003161987%bigZ 28190887353243094256410475340967877178615%bigZ 138701427562337247608308796327902356823 steps_prime_136_275498868f 30915658228492580180268462239281080093094%bigZ = true.
Proof. vm_cast_no_check (eq_refl true). Qed.
Lemma prime_136_275498868f : prime 66021879519672529861372849986405540595343.
Proof.
  assert (E : zv 66021879519672529861372849986405540595343%bigZ = 66021879519672529861372849986405540595343) by (vm_cast_no_check (eq_refl 66021879519672529861372849986405540595343)). rewrite <- E.
  apply (prime_by_order _ _ _ _ _ _ _ _ _ checked_prime_136_275498868f); rewrite ?E; [reflexivity | reflexivity | exact prime_127_782370a557 | reflexivity | reflexivity].
Qed.

Lemma prime_156_1aeae82c9b : prime 48791093271351274982972595359853504177526811803.
Proof.
  apply (pock 48791093271351274982972595359853504177526811803 48791093271351274982972595359853504177526811803%bigZ [(66021879519672529861372849986405540595343, 739014, 2%bigZ, 38367356373988857467185468060312811319594465821%bigZ)]%positive).
  - vm_cast_no_check (eq_refl 48791093271351274982972595359853504177526811803).
  - vm_cast_no_check (eq_refl true).
  - constructor; [exact prime_136_275498868f|]. constructor.
Qed.

Definition steps_prime_172_ca829315b9 : list step := [
Dbl 3381248989842038994143247086899496251654459986464081;
Dbl 834464239058434782347100584358510888381667786825010;
Dbl 1604346168629702088812063818352935692439109911476193;
Dbl 2274207768284738863834963967647800550306220786308978;
Add 3332165237396698489668595711280039681173716097618944;
Dbl 1486681418289682648533160171240526539654513704109289;
Dbl 499797346580381933080525594901740577273150988851483;
Dbl 3040584395468053741428784783134612879660266969643924;
Dbl 1847278354785753389447984378915279704005898082531294;
Add 2344402807513602160701484764268798791704488301788427;
Dbl 3077766048314516222325217657741142944781878750320298;
Dbl 996126828910927291501033490283583095157489569192591;
Add 4147512081098014813943867222622580254151917171221462;
Dbl 3600126971026076714045993839998519853985861669798008;
Add 3414979001506740307401739085556874772475401021338437;
Dbl 1337868122537882964040292863000032170955215574526930;
Add 230544263166916123011843369902689072342169794715686;
Dbl 3319855182722337960197319841081940367334446449531019;
Add 6516460398249655703926734072120160656175917207187;
Dbl 2328918896730808752347689623810876251577744590988722;
Dbl 200254082263376171960196769371679603947354730511271;
Add 3964202275622280402480895216237533380460973128088937;
Dbl 2951993154945557423904751145716602493044050567821218;
Add 974570893112319091354991207648031606884783321894191;
Dbl 2385161778561922121749964924250321378530485817406527;
Add 1537780109683188697603486825180645406830998482093544;
Dbl 3318976975265634711702258941253803736326841302352992;
Add 3622086670641519418524620687954450555398010804267441;
Dbl 4340160602406008654314162068313235437861027337421708;
Dbl 297704885216796775586067915416072698558371891681874;
Dbl 1325275214154950578833803580874114874212224751926419;
Add 1936637682893184423361106961348650061956485658608429;
Dbl 2642040600656497218727978987848527139723054501645243;
Dbl 403227695993425482373156315546099290334259659019418;
Dbl 2290328082930002159859358218553196383988835484004453;
Add 191735218963035705583502414456824584490985200787266;
Dbl 968535721518410263873070198717496347480467426714885;
Dbl 4182025903032936202208986535864090421463005490644282;
Dbl 3488090463883060977081458824031619220121788674991163;
Dbl 709898368999890928801875534508554004947750321814305;
Dbl 56430311069915981107877335755166868611140294973894;
Add 221945799286329923098932862497764027528478086022042;
Dbl 4303740505125812566763226496941295667123169807745952;
Dbl 531314017258812029463411443306388020168405809911382;
Dbl 3244499381087032544141684477926084962312864913835113;
Dbl 459449323874338854242923236650798677395587202157356;
Add 3262824097775980914607432095619833258359775539869640;
Dbl 368474636486451369582346899460061992955927980021960;
Add 154806997532983390478524289091900651658367483890055;
Dbl 551952481828256491187158334638937567648711220427746;
Dbl 2454067728736243534035952063762099255243730019155146;
Add 4243694419126667623246078784870747307808808589761380;
Dbl 18516632301556792073590772431079022146139147735727;
Add 3272412008388706001084821422995299141997506032364334;
Dbl 2120029985133486414088558212949397367848793119326479;
Add 2979617565774027215503311530888494783728333237114552;
Dbl 642257522239989734991840033483070343692046466160564;
Add 1059088322212099015840725668454284104323545773949478;
Dbl 17034519368440473478840915360750784504851561461673;
Add 766136196376688942454823675175301835138086419957942;
Dbl 1487401708205528451382513665410496177333597172775767;
Add 1514213359119672551553188878632957164864771119853189;
Dbl 1806682432845300195939002767066327514993591841776265;
Dbl 3999693252722136427712203055730618810693732504539271;
Dbl 126944872169987257620156843367675649160082948672194;
Add 773073507018265506333267332559461744317212121089693;
Dbl 1681275263771616682725825324737181244197216370253352;
Dbl 1208825864140390749673090670304208276792285576617513;
Dbl 2028872148989283327902423955376306532372673167217020;
Add 4045610094539086499857470618896156427647428082028938;
Dbl 2509897277999022142700912994160239490081141972726316;
Add 2073539607533943738041523222071437512864100944876106;
Dbl 436145881413344103228730324886852201545098425759747;
Dbl 3902635924703423882811552273607102706388177193174013;
Dbl 3853055701274178195721118849008988615270739515557389;
Add 1162432955130790155624805181240897323225042698327748;
Dbl 3189159558986209998147973550835381663021704743190537;
Add 1477356674181776888228759751008377631757793812463621;
Dbl 2485071016942495046502127250968116426170453168976878;
Dbl 1961593223605194716475065531712156688270406202871714;
Dbl 1237682664975518627499224849851755002946795729919543;
Dbl 746070702133280747517455144002692750945896072128519;
Add 1596470853318063678141513283451111883190280482132315;
Dbl 143066506049652747043226012444481803041106193265315;
Add 314395156074412512013165323807166895966921565393959;
Dbl 964749414689885662447743216577250797941611021663288;
Add 3707232232511378601192598815573615909588989553856700;
Dbl 3242037218953983005980112290579259690614064051231122;
Add 2967379267178969307986176558596073469597312139525202;
Dbl 4289295277006348165258308702582301472662162507754302;
Dbl 2355798212619291334545290969282177436681511780303200;
Add 1962433622159358759995346625756746761489499090963427;
Dbl 2395917373816039671122457315771488712237604128356674;
Add 587645667311432419738460570397120771321288541019032;
Dbl 2291053271391699000210894912981800541731337376953647;
Add 285084442222043541669227749998024965491777816330790;
Dbl 2505609477911951382700636279491384708062526668335628;
Add 3315547037100525236727848247493738878977918042900069;
Dbl 2170095628038016513087431032403747863632470341398943;
Add 1461174472554949532153324120168913952344153649026520;
Dbl 3216244957066448416728385473793324123615001943175460;
Dbl 1785992611380767075806639796612619406722161225764699;
Dbl 1460458640306414340232214555635396926212565595736455;
Dbl 2444642964074108451189435893318115858842879171540764;
Add 1251128299228835965124512330146649771067217369469581;
Dbl 2968680186169955016033889241314698876198928367439040;
Add 1439127701570489546338897742828505663533709143778503;
Dbl 3694138233724993997148926412798349259845900879242183;
Add 1564777664313326515608479295511536929767989031312979;
Dbl 4216492606587097534508179749681806170626379591008817;
Dbl 488847631121498609743405875099148949162801974017952;
Add 2854335658070486146359083047765212869916620696473188;
Dbl 3179408324082532012486942581537080040827529672386446;
Dbl 2277931642665512726514515013194687919838094104892216;
Dbl 596799879035389882432053139032643064548044081166679;
Add 4369319209844104961929329082376488384458456135847488;
Dbl 2470813170952912407695449083751146092531234524239303;
Add 4085543360170345638490495482924738791867541572429664;
Dbl 1750787332072983685137382779129753800224852845138474;
Add 3604363142062556987993367610181515590584523220045642;
Dbl 2335111419805155660022154884417133006186097614967794;
Add 113012396396603179961804056688365090858202632933067;
Dbl 126418024445495276954445420054389849550712789018741;
Add 1854910581217066734546779287610738071610838750545592;
Dbl 3406799994763061927142032146026108442675741968453024;
Add 2565513282237239181620801961551648704569566418621082;
Dbl 3822842762407230818169968163335746691966076206691858;
Dbl 3103532969615896262908885416740066056793068606195713;
Add 1138936926440556423239241279659801483347802354173931;
Dbl 4070827544916319463377118105347172691515850394954106;
Dbl 1211994505010840110187089143145356638558888523165439;
Add 31016067579743811377327720643396528214785658261276;
Dbl 272140779595746866346574635787516465290734037461390;
Add 313327513241076142042926084683095470828677981319162;
Dbl 2559662512921575734221742422872738496691087480395303;
Add 192684146014141310115203512412765661801946063664587;
Dbl 963315527516801047172150917230554290545185459025513;
Add 2636647512769630053540293449035293859949747066550600;
Dbl 888151676486955620870864485478071020466124582106398;
Add 1571807383272978978133887224252818656212681415405120;
Dbl 2797306688631956338618645363035693849844498249122010;
Add 2296747071186707336801559435329102616923436755159714;
Dbl 2759791856037544464125631411614900350829120215951289;
Add 195949115179517250494820698210958138841430355144883;
Dbl 3006791590632721772344004460810441822780750445545938;
Dbl 1012143721271730630470578757075378729557603445530041;
Dbl 1491749850251392511814464553160322403200054853970693;
Add 1262592912812743809452838280340431285397355722374843;
Dbl 323466421898531340013669002724207582905493083025792;
Add 2110096566323727301280367427262036298084816915437901;
Dbl 562827043464730585300530239542442092773899199109594;
Dbl 767179543121148227780398063483463695812760091181689;
Dbl 2515027800207056068422668333636177721885363289860819;
Dbl 844140172529427950455797267108668365584076662758846;
Dbl 610955166111565348956301021135229593167664465857139;
Add 1895328870400930186029042943105635469005421160388889;
Dbl 998580639362566014619309145093251448677417900005286;
Dbl 2530501589847134933644336435242294295080072550467522;
Dbl 1382207277342848386340070922559616526185809878455835;
Add 583251580286911235939594745205174956287901446666708;
Dbl 3035868663878210976340980252298636099487573550628096;
Dbl 3356450375724113332739151547974887461706213741672920;
Dbl 2228545215696844028897046038739477082526094874131693;
Add 3981087228993438526248375638353519251782074731032875;
Dbl 645035690311233359172552527598989962141780219158541;
Add 2855070035000327129127354751053458829237112039513448;
Dbl 2481148458948094959621723204142653961051682167999118;
Dbl 3405393846364709740914479565725593827393694340166884;
Dbl 4040959174883943998595147936700626508656911061089238;
Dbl 4055749108178577265664825750154075358207258379666636;
Add 3080641294114207775453039311316121226827383456907454;
Dbl 2587977177297276800523872322245112130438782554199055;
Add 165975551545728891592793212025774615257075505971373;
Dbl 173628302830467635673734474177641609375034422813130;
Add 3298991762607627046838882193608564344166407333688135;
Dbl 2192114111691732555108051236709856812466251983919928;
Dbl 190130920198168002374418185126557907963913894106560;
Dbl 4151023442237684775451189340800136064813870461145081;
Dbl 2915079421557114733087714607780215737943244775530199;
Dbl 1396246601512240792364488454745915359596560498843179;
Dbl 383417556013753050147308768464185780381926182368917;
Add 2916881333758017155782100438798331031980965412725420;
Dbl 4115884355078669560360582977744763275883195100329062;
Add 1653992372635928333822026657067554753329968087334398;
Dbl 3998991187828191519566844824189016659892140634988439;
Dbl 3923365613299348252399862482356266154313267988560824;
Add 121259399720015169037128436438659040758318416111657;
Dbl 2017002096982432109001089558599470447302624871458502;
Dbl 1961768063551731093495601920658686909755525908242666;
Add 210973217328333155495116873362357257253141707078620;
Dbl 555605099460428270541576431713713688418399237249684;
Add 1058220353539562161062496652851625969278620738255309;
Dbl 1602780472988012572615173443352504937861527987311381;
Add 1030319814412353338287303440344721083732799980807726;
Dbl 3065487556917949429353817714372621133897397570310585;
Dbl 2352834918568823506868096465493591323844403232783952;
Add 4011701629608426756502359183738687804668612182353402;
Dbl 2940052999720706168900967832102440945908398479828480;
Dbl 1878342106314053134176170138240067093740288871120728;
Add 2634025024896204026913898758495522805782901956800003;
Dbl 2394832012238144645700533732784681515041777872288089;
Dbl 1409358746563499637323247375777281403054165830892039;
Add 450339740243799085100545105241675385658282621933535;
Dbl 2786008593902939679003067660621239426405678951022851;
Add 863386216224394072631674612282260432708194817084865;
Dbl 3476657295489033695089368097996671086875841607267350;
Add 3282181804480236909008729141348307760703655113670571;
Dbl 501201576995022587311216904734215457486378787991897;
Dbl 2523004140213774223774368204196792208281791109347326;
Add 3829051365448593918423922550945581990395489868625535;
Dbl 4339744426882842223041497257999520647321411811935523;
Dbl 2814527059813856481712149370187545874182707803688839;
Dbl 3283039643601517696309558095163859963870351300660407;
Dbl 2207083246677261352282114567255198612139306562081609;
Dbl 1944998935034266324976338174585245910293163076742894;
Dbl 546428905860460584178215418600819740859776499325879;
Add 1208808957807792716881807550203653917367027855526297;
Dbl 2498282972412478016300882773378765322818219153181969;
Dbl 3505331731635176613236319502125350062388333215419542;
Add 208660185839420891066765584157282902685649686478503;
Dbl 3050412118838049290076757835268008437094489848309770;
Add 2264059364170460080625887992377321626793838794488837;
Dbl 1495743825216069780418379405526713839222943402485780;
Dbl 2562985499171895102735640619077043902865886759793873;
Dbl 2256605060947100539362957370710933668879000762538941;
Add 4035143782651313543093421358429172247674685398528015;
Dbl 2298799350884033346208226572045345448159169633319598;
Dbl 1581074153366203153929133761087368572916093746767703;
Dbl 3655965643472821942067517583959425660109817490508584;
Add 1441908801015838893829247791173496510550231614458747;
Dbl 713173264574641161727979178382789620287382261282025;
Add 4170122501614345598625925154485133830840779015792654;
Dbl 2749908082569281936397865076009958008183702894308907;
Dbl 3619505582068897327261270183137384461864734138883636;
Add 4207209426497048232773906808766924693881973574391243;
Dbl 518651550831235661944659064238637953023639421523123]%bigZ.
Lemma checked_prime_172_ca829315b9 : check_curve 4394857726416966094091256658667248478841938449208761%bigZ 0%bigZ 4073499570119080851727612430476003615871449152196484%bigZ 530390526098733580251272936054564657943019664306848%bigZ 2225961986545566398748420941928195741678088465380202%bigZ 1723348726205266254027139282981326648234644447509651%bigZ 48791093271351274982972595359853504177526811803 steps_prime_172_ca829315b9 1572032520433364684091378930688445926895629533605314%bigZ = true.
Proof. vm_cast_no_check (eq_refl true). Qed.
Lemma prime_172_ca829315b9 : prime 4394857726416966094091256658667248478841938449208761.
Proof.
  assert (E : zv 4394857726416966094091256658667248478841938449208761%bigZ = 4394857726416966094091256658667248478841938449208761) by (vm_cast_no_check (eq_refl 4394857726416966094091256658667248478841938449208761)). rewrite <- E.
  apply (prime_by_order _ _ _ _ _ _ _ _ _ checked_prime_172_ca829315b9); rewrite ?E; [reflexivity | reflexivity | exact prime_156_1aeae82c9b | reflexivity | reflexivity].
Qed.

Lemma prime_217_cda44c117d : prime 159350446746642880105168948809239329796043177467296996811103539581.
Proof.
  apply (pock 159350446746642880105168948809239329796043177467296996811103539581 159350446746642880105168948809239329796043177467296996811103539581%bigZ [(4394857726416966094091256658667248478841938449208761, 36258385746780, 2%bigZ, 110732959493244899966647660553043293910279082245869221124588722156%bigZ)]%positive).
  - vm_cast_no_check (eq_refl 159350446746642880105168948809239329796043177467296996811103539581).
  - vm_cast_no_check (eq_refl true).
  - constructor; [exact prime_172_ca829315b9|]. constructor.
Qed.

Definition steps_prime_240_78e5864f2d : list step := [
Dbl 227296848737353789046174267701306075159705581124399163085847263633249382;
Add 959111336861742746032683697714797515445189728024625709344129891210634952;
Dbl 504753463216979905989469809217160630808151146820010840576222611280878284;
Dbl 554903056220094453845595446655687160208703855791552946644957458576493271;
Dbl 192913918767267294905017525769664007015307332973908746982883824720911253;
Dbl 638260553210050809315953600028677840108378025332159514323445585418833762;
Dbl 712633892551549193133509112623521481046222513081769906681541891363207452;
Dbl 359990898574238903732587109146257341859077710661047609654851152609860522;
Add 684772250228396531549188314154713169424228243574592867039223815323190189;
Dbl 989994882237703702559376736580258348453925532699152862731748921327381304;
Add 95029452263336996258109494831905335366280532396423292907824802447224401;
Dbl 513678689720762202985146737101455537042601349722676271460387460059094045;
Dbl 441745914176656291034085995167042133128902499234396465072924486666103526;
Add 749074383149726295523204999830458160165850192712263328912591019275023149;
Dbl 759005813742793936636206347046793686334713780468362016091804953735106445;
Dbl 73260521492939503479272530683975045054121077506738843756283432848918103;
Add 283651308681555465899952611020671365149234937045614521066862158648914082;
Dbl 714493914572679522950863281281264078915921043826541250439950201316637153;
Add 97399357847296394851675236759601168575993842324394391740538290614598588;
Dbl 191161411490092227817820017577640775215065652329753540025235599692651069;
Add 316275346965411681031562026582362662374066265709943172444690885091041174;
Dbl 291074804474906781780386695693147306669859286791293461523493171756369226;
Dbl 89632981554630089122629274043438683537853488907685457262284876277611407;
Dbl 789810559805260254316768316069430351997244563709598478293359972640255591;
Dbl 641159658266088056534168541112579187274525036282777226317395734506044338;
Dbl 173063796104749524315300940747684867984390721717550754316695496812527634;
Dbl 816355808954437790131719909405334354702391681793115972931014728928740372;
Dbl 353572576155238875093844170325112634959699409081347055629805510134289058;
Dbl 116186978020143338086565220164169534410681985619550068201120292774163219;
Add 959130214635747201713831300503379896773617930816512175156564185089017077;
Dbl 381577084532212690188742647208740023851003938141591145931870423651796957;
Add 197940429084794064962811301846436144343163521188013534793469657659328755;
Dbl 241555095331010534183942476982253026747394139065765003041688733520365781;
Dbl 715602283992928174852392111033191957643451173286188055632355974330247895;
Add 564951077602935112294101957314869288898602852814484724163206297361150765;
Dbl 863348183615084967675313202131760598731106367002037292540163691425449244;
Add 251865576382887958215284642446527375625003754457124698713059873928485136;
Dbl 749529375572811073687962341919400067483055578941131276102851100998234841;
Dbl 629817895692993282330525634106549983274692965181867146636711271352773239;
Dbl 227354165412437689724862510194549610859037591677368046450544977592723921;
Dbl 154764140184744882283814524201906234466972191969645024243229801879506389;
Add 385156436389010277136102488811975479029196847875778214860030149895340737;
Dbl 624986829008102201631235031858351515120583496814554796218258385348718148;
Add 865257658957720869801382007477401269554441694531295448924208728055859893;
Dbl 743085367510049369622362949268483499019411826754976230218105877842378261;
Dbl 474070493294152982187142071989087927719155522571977720237800631986902700;
Dbl 555875887103056060422766189457437995257210003124688926196843318749002347;
Add 343423463874917693241626129333958702210335105365614618073309360722955779;
Dbl 890862269767646629195884329359831821658701699739675884156294298986935055;
Dbl 433821699745256284764909421484082315791633167521246475641881547111198868;
Add 990679962857420970123784237695034148741181208939409666271063288610188254;
Dbl 832270649344002654674534908696563061741670037056218784022038509252809561;
Dbl 390104443392362859718003879316235828996994085396667989325863172360833005;
Add 900373792502488602948453742432252205355214384653931485900264398841561563;
Dbl 979973002748744633900393259573615184558685897055839384515020371582742949;
Dbl 690808933812401397353981852980170932363302530361393374900548651975730095;
Add 513028856282147692703840585541408814620331586520038963563966405676769005;
Dbl 48470113830943257260919067348423134897124447170838100685604927984129650;
Dbl 77555078747180752087577486206124476235135173021303064676186072158781128;
Add 390475609638583691358293675528647674115043247336481442682474458919139461;
Dbl 514637562773337082527463152817332939565643050104922282957102891276409914;
Add 900868168672547423561549803763837209883283319328702929957580976971274557;
Dbl 940555109649162797063030483921128151598747761424231766435814332572601760;
Add 248462106565172952841051362728689415030834371657216059637955389365225080;
Dbl 973296365840421863713372970899023807185247463774833454936571884336146776;
Add 399407200178182136404625809372075441684277067652268075847535887128776755;
Dbl 825328140913101200403905658157759235681026971862415599485697886769609830;
Add 746283865480634048024551269523779971351237222587244163071938872885955752;
Dbl 175338315206082328663148275701409119289016779273737685742789655515217677;
Dbl 82469840432357316901226853607629996147073594349566666183868000146568588;
Dbl 50904642420433395513694648847250404411883115368888587279300068976663677;
Add 736502503436407945288080432278875545256159774947358074588292438441825172;
Dbl 851443099969896685745783200995949376539566502233917648774715334305531095;
Add 381034550831572374210461901618951405544929722489975394587731338774489505;
Dbl 654293824849569818215397356388860977758912732412007466204025365160495174;
Dbl 410834072566336115097287706876961849401566060395044098741546460117493035;
Add 824860901892292283173054060391652133416756539773565415401946063056570003;
Dbl 876330607769904544499582933031586249209116756335339345898852076462770268;
Dbl 334101470537037136281522629091261378184951864127894259785556195557723415;
Dbl 663885726080370834359112079937143809560513683384530441976213131604984577;
Dbl 943749180056162520108824884308117920086172682577642590592862100345483480;
Add 209043791033779973671960425357793170332189594231751291640094703608113351;
Dbl 343356987828092861957148581892621122868103230134699788889862110936285592;
Dbl 10896071579403156046671613120913153438021369332366005210494468843155681;
Add 592162102143083918649939838199793953487585868351574223007156189312784885;
Dbl 422329449054758406982104921198915092033622761570169135463388248658754781;
Add 752810977225220999616422913938017747257761950894017538342815211025503976;
Dbl 58155929768016553814494212606613703370525827218049005156762685964093120;
Add 893025049853626208625112958026541551557139965185468855734279270716259188;
Dbl 491113797148653935849810276449299412756136199078083238341950228388412412;
Add 789567467433041386546226216074019189020586490896337551338502480381459306;
Dbl 793385283811171386115038456895688489743490187504486539149079116145112935;
Add 644259995402559577403903102600515786170437023323169785013684507993505565;
Dbl 212812453162075986155848798053971177691292165531005826813626486644810080;
Dbl 543112183029195219892560058403558191587457080421820799990096864139030944;
Add 252218103423476092769111893115056370648950171348864664660407440985885104;
Dbl 285156385558134246150691124872532724518248903750538585160443162764889026;
Dbl 334814317438500775183406074454806689375603770836124648936185025056907037;
Add 854786203312160527976496411420997730765262135875233265087096503941333260;
Dbl 875027856994549273250045393294294725800840950454837733306575497985993024;
Dbl 721795031530360474609772175112712868723028920274411530705304617236994941;
Add 856947381923605472860056500065412409220525877795172029010109090137044308;
Dbl 676178970505432311639598454031775899114610349203142809146384074210083131;
Dbl 859268291612186356458634170177099802733599998524829344957663157544413325;
Dbl 612618577801367297005205474436054050187633087198252300136278422923400382;
Dbl 546583543754447233066299061981268625919847159795293098142385154160516154;
Add 916777566599001680126399480950708334208558074480659336811198068226539199;
Dbl 830301960597610069525962293982459345620482536215210376529600138314044364;
Dbl 55102840255842076641560820380696674155684465854030765716772837144696707;
Add 797959439025601621544905322439475124996106802568408948222172346898301595;
Dbl 208947574636471391833916823221056491019478499265185321183683681648358498;
Dbl 923561549010595963301181830958376902606360700049507606815529908782148615;
Add 138522948984420982988190104093425703239972476685947906423912939077009589;
Dbl 389177578128158224466972900553785710116414774277557033719347108126916098;
Dbl 949948059982744169884589708550375682659456376531082158418149320051301489;
Add 233352835021830745449546998200331849975671414497190542720362766593905705;
Dbl 184166490845901488668857409514135086526050498422686892171227426739176146;
Dbl 244939613625879012601813386241181634716423527663679648569619027004644465;
Add 215795166963216654490764900720911048310443960209624542692386118035549350;
Dbl 570108980194765914879452305862683989010498380858014347797297197717010505;
Add 213344725558258642644063949031690984535894476337873393902781982929343290;
Dbl 524228783453702354614497668745718128305648248172378455376946884822577466;
Dbl 255963127128809832372475274945074106147035246877901537306535204368145296;
Dbl 367436042734721115556569844839614106057408017282020085446823639426253511;
Add 544871390596157415016798794291345311771558554928165949997723448416138795;
Dbl 240520160240684630425554232192277046672099960883874618565662497073972441;
Add 383558512012910759251320943405548881244742955678799841712355220651105093;
Dbl 394749440504171186543471491476311796135389575198968927331607019616194718;
Add 222510418350506536976899077978055774488494284702470115211333332231547930;
Dbl 318639827833629173387601182733423823859515804238131563302257689783341361;
Dbl 494951700928711487591794474161530742524973216168935516181775461193642149;
Add 171044771318804613710944482091120978373029266023294378844224755310653150;
Dbl 426948814233303933281820839324652439163103645787476087832668492336625111;
Dbl 462687850749436758427984763022431294106973574716357759812096555554179640;
Dbl 453894732212208538427112179557866512412973199798854119120682769601297240;
Dbl 483317938584156830962109859415555124101718914598831410556591413441785002;
Dbl 612806722142981613298056022203990749592392207251697114755671741052602922;
Dbl 952354766625141964296693637847565284912166971194701145342025423171373386;
Add 413097211333623479374689208027878853638683094090845226110472910001386194;
Dbl 69140478298510545303321221986437166119963534498778970379502694983637424;
Dbl 345885242284128127913472652415052566901293909345891948328937591048881547;
Add 715739793650423022797775129771392158495518198957416002912358067700398279;
Dbl 786853139199567848725686917372283184001454332329683626147127333953373935;
Dbl 964710774067700668546190669477477649863433229975776964804060327959489768;
Dbl 535026759605066746416646600266758624133308306189493949458762793227065436;
Dbl 48579318941133970829246571211171125809356184112215318434760871176667892;
Dbl 73627773539058411394996575164250219907248316250108857698980052817113196;
Dbl 540356465438505744519509023229403604734137003710016318211085855895724753;
Add 530941852360265489882666953855622276348697283545117361229634565852296808;
Dbl 377422609078799236713629949566247453213458050909468301303266199626426477;
Dbl 71335985038655148707784246803628477799742407746081607429189104943749942;
Dbl 68911126963649483294413453530286656260808517282749151182383174138416223;
Add 122946661284500184661133078807835796940951163115915995957386346117355547;
Dbl 217887292246884755208626020483066338661748681417464735068992207660399634;
Dbl 150083349507948207774540435133300511332894143517800084218470404523614141;
Dbl 250122311438810897042502402313476204187347570611272436784812813645053152;
Dbl 387753151674782816403440755834477987859915415346054767802514670246946407;
Dbl 7840401936116893981605586328593307517372032590345170728326234155582835;
Dbl 97276994869468434179192933767559432968515964637306375983150309949731239;
Add 25085008397164901741189671954273084564620559823155161387041059978932350;
Dbl 82933574322775874142601670734501998235569786622540062710863523824329039;
Dbl 926143370400568396301443103366427180196837560556259853381185567089364084;
Dbl 669766613316330231288162403708931275492157682419367390080992993032153512;
Add 143276057413504345980558555771699848668568993895339270636715203950488018;
Dbl 659921119734592726300957642396441791446580866112203792079278969398945052;
Dbl 605738183273364323386928406773819168600093687983362548329282591350014636;
Dbl 644034591944985888561245226378841234115358322363095959733227245026956479;
Add 283992798621109228299865554780833526424259005051230407528361996107001903;
Dbl 500304681286726122476022518468497428780140020841971266429242252107209253;
Add 669202637586739695070924861824876838647248020970664174953729938412467565;
Dbl 664848769758062459970027226323874875503800681626341377504105803318426449;
Add 626646768312069250694299420745953568248179494804961540594308118437072828;
Dbl 527700996117490909869615728245411854124663791727850396135720839596843430;
Dbl 66698614607637043049832473941257537769807464782386040728868852719735664;
Dbl 972809550401250188207197559559277089736708474919794472773606291141158227;
Add 198544163730826546222935346393313118699940178664314353812297038029128037;
Dbl 165400425597370222061504246059524783290024108244356494235350306911946303;
Dbl 254211238918678028872585756674877636995330562035440555990874390459089781;
Add 258370499921448139257965487531973788243931025920103582939348825269205522;
Dbl 94692485367002732015072105235838821342032203071852952564547884869502433;
Dbl 438421737586715687304568297030641050378871079145616624041800146241381065;
Add 50517407090722172665123736633482175726072795273103681186714309138478537;
Dbl 964220760276234458123648379377670323991088683123527109505295119717436921;
Add 798961525714133687358878721536299691016237984967214464198896015348527643;
Dbl 672655841267816189083915598900250079818594938332756843175194686417477122;
Dbl 424450904039255427430054347492840346028710434241672601138954115958119514;
Add 59624865117312787972458303507003932857690185490443279410478219780105888;
Dbl 307495967128668926258299205036619315546741181596905742263795129461611298;
Dbl 635368793321583289315670792807907245576617214978876311627749052589169127;
Add 784405634050316357117023971377298202502836604481445771386472504335335453;
Dbl 244545573003750412016412251456392542730268780713354089079395873035718521;
Add 556707820676653282989020053696264823204829567172897316990853459000132436;
Dbl 966473558051511165837474829465574170705823081656241750577412736193799973;
Add 132181782739962615177448307941948943127271196681669294236743058257335847;
Dbl 605684120372770082630499022067007241752118713252986889741175617034265292;
Dbl 14362930004514254342201696292237585878338372710469282793416726164122366;
Add 122157297008484275182205067032364435523419206948636077068614367402280265;
Dbl 487192118168422282567718196469553983104156883284337385911239354782386144;
Add 294836028884008571678722550297368661759404858533798225714754227002696522;
Dbl 683494987105330919911747529339745258013518769863323439778722983270828960;
Add 872163435544349734249023491704721141528699117981759971149804261251426149;
Dbl 918868962007159044561922936190728184557196099380471362377824899024095535;
Dbl 334309198207924940117476800761082604481851533141531959572992901829969142;
Add 11436997496840562032907297180225426199316228412325506814972619595022342;
Dbl 296935740991944458428039263315490172833392563786691466607348015298087887;
Add 710189932699957090133340827338355230384981580823140345468870882178094612;
Dbl 263267929861948728544710302363529785625982521969955559367276767389479793;
Add 528790462554959106999598319097723030618258325564709057342198698197379786;
Dbl 979305040319243731030808876528144515829251916570573223004360610180722267;
Add 191658555190358719552053143628782194869381922836058398638129519194056956;
Dbl 626108852972405659130154615991459490529659518675156252755169109665808725;
Dbl 219890301773451794916528452384526922709013803163540255672233557726818203;
Add 668756844592472251900581632297219158582335799139768775737457738561063519;
Dbl 382113045632479317025119634000469169946716895345061515252668963495152538;
Dbl 717383492544911957457630553390473909767488541437704621587821043269643766;
Add 733241222682343474312232169261308110610046292985310715479163224960568686;
Dbl 386585581389020883270041456057641314757644572050081948896941205146015933;
Add 421790822519011436439397164905166188294571591146206887731077128645788764;
Dbl 243575260116663080291779893969882715058170965249150165420873523720514594;
Dbl 333862553232664742704621620096421162574772892829349911780741127734664521;
Dbl 118612792000550903740582549074025284214566983324227885454994832459811720;
Add 823342098193840476129890193690938049032851407346154258051321689040574134;
Dbl 67964754179223287158861274902744804253350457896066045133390077494891466;
Dbl 662544918429635961695167352791073667294382002910712304628499087773574620;
Dbl 550115187246477416099860801758225623458743410890273148235350296837452077;
Dbl 468916529979553625351879398500438981901327476055177306905940243078253132;
Add 704283126031957896425279915662204750978841108109644903341695599596109807;
Dbl 380976847339772849315714891159569750241881273087591570027706726126418617;
Add 824011166694995098603182466685072730793777250439946242751966182887253604;
Dbl 699819224928235250209793272794604621859837945533016390951283771211650960;
Add 751904573613898976298287562043907514468874050810779924366317955314470208;
Dbl 950917741608138139108529113091410352620962074221676614530075541683126587;
Dbl 857893873103850902365274404769339673264627843553658581810416547692356283;
Add 743058463029512677461404602591300699447355904196882029212512314116463158;
Dbl 571268611738308295817837443569847091922351365345232589544625847586710090;
Dbl 78845857809706672551089913214281326651122396852823887204122075229624828;
Add 44138026213288799310411387769677482852779800516467669685101502172629015;
Dbl 439694720359182157510937991752009325651750330843948320797609662947323050;
Add 577236764700241184392014915221449094720970355855541837020159321571481384;
Dbl 657075474550166073172411018798838462860867535728150844949794475342925130;
Dbl 346912803540481265988541921380691639866848958244788610649223077284380853;
Dbl 680846092057973992832964128361572821358229195890303227629961538554572645;
Dbl 187747333837499115271025923109787720430846848854706357598088721412584272;
Dbl 697835161156166895262393591214762230505489521406981298275372360002592285;
Dbl 690950852437072914304193468505796073883280860681420746906602990151425466;
Dbl 650476593181520717597364757929537542053335016770386687899152515541043010;
Add 572911707764146870273857973803898665248229331348710767154317364218744784;
Dbl 764041857279311034050941605949227796092672511466258354268814170515019308;
Add 444422857720909921140704183869937873492662273966260866991519022606874567;
Dbl 541300879176902117440830080454779344140138375890732997740368348804945010;
Dbl 317973542839160588611121513829227176723376289695230019144393290652882246;
Add 718444320201750753682880910988486500296469902939306325325805593682393513;
Dbl 51797845090197061912591038245098318719131091183069339959449272793272992;
Add 549390995728993204272816736026520799061384197822171216226621852329716143;
Dbl 800547730991225667213896922935142303536999501832039186247086895244874083;
Add 772219912971241511589432873096180991920030689279697226106255921991993818;
Dbl 724505269150346017803218801369961979300115262958394797672185728399192528;
Dbl 64879016328064397267309746242049409284846790629214724991934640686901916;
Dbl 780253844020078444773058290793229142151382689322259700746610600917646760;
Add 13729860842411766053504138684011062927190675564180701992909497719357715;
Dbl 905593142944985418604472445722343933813967608729084498553261141379029402;
Add 484484930737914437751641681379331512445730895250952996778933059779662308;
Dbl 448406245347361239438622773564548004245655027090989063292889336889097539;
Add 830246622649297561088057625771946978027432330228570450381277888801835542;
Dbl 475074895963395734466273569055203153250388025757346962852671075966466547;
Dbl 135685985424491122346645773501726970952273332814210866281744582933444188;
Dbl 173186084425019759387492693912071859506335681002676687851725842378537461;
Add 151043716440505313753671754155481571188758005186196582964389943635577462;
Dbl 74518281723294577090179567686178258146929014281334098730310328180656446;
Add 37626115106117913392443738109496639513857345538607067852100497912332868;
Dbl 512529065699833958259094646815895979398883687104647332856855577045056771;
Dbl 462159810764460930634997969556583431567331424317434868859586345241503687;
Add 683625475348919715236844659321796905259904066212940426130619953052520666;
Dbl 655000430701271010269919523914991847017246731823768426444437766240498915;
Add 675919009887296780925188138764115230906430737443966509759078123004753530;
Dbl 676690161067540181966868098088079894644801725849852285935199602017934655;
Dbl 282401607558629350612250726217332130466002019739814045900101481274368259;
Add 658819411353548490132213790835221062369279987001021370125585297004272535;
Dbl 292141734498146138727200162538997854585992514750366460233104109541663342;
Dbl 748560270270674468378061039783533308936159284297017306695921541379876829;
Dbl 839492050271972792136638376859517871333886313959437778714938720779172281;
Add 6071284462781602717093906406199876748032179463790009558785925265206726;
Dbl 343388847091399087339691337634064463607223011037452508211432920614046430;
Dbl 163214598769062343370947575421365283643581999389765850476480800336411361;
Dbl 489101403803510595373238066452361588754516586579652260956584787694360696;
Dbl 798599838542255928016959926136195462352929528012499412603828142130755205;
Add 756544347100722109279022454621697764856715109372623968576656800345290601;
Dbl 913255204602425719873866562140001831677028972467716995518609413040651250;
Dbl 239966698818061633195779178454627354071605660988437309762342558301428848;
Dbl 739918739999225734232114276230694833816160586146007484025756880128149457;
Add 714627219576917262053288199356806524027789702092449333175377424142059114;
Dbl 261181464066750490621905572315296318187346069138249765396522205653748690;
Add 868155462918036765193223035259765216827235903167473708887707439854098243;
Dbl 807620901493958562197780999749958786733941435430594275040635062558794560;
Dbl 507967800029005278144965236926492473995131844357328518922058962990505700;
Dbl 678583015666441530882092621995772880205326880346379878942562509749719735;
Dbl 680040950086209367725386171290967193438134481015131759723526538388617179;
Dbl 621226508558069659090029008586097830114269987970905816754015939690042455;
Dbl 95040730289660785653440799931723980682403233217672931550660633275731020;
Add 109264706003774999753955150822431876441061829318997340404890175965879972;
Dbl 583089781004442916368596904995084419796779289133977021997790956434923760;
Dbl 547952672376810083954585757543930112667980558939080905081484406134013589;
Dbl 368591032756068601855964934989265451659244249683354473480545762753563121;
Dbl 221524296098470465924881217140038413669469304518949181851368151026606589;
Add 686668740254628401031119303777865091699998419099006862545458600777431871;
Dbl 958262570569502687501648667972581099195419392474288039895238784913710167;
Dbl 251076176293840144790064132001136809728710053062457655577883077060417530;
Add 109691909422737658110207861056816883874613052713239430073022541830014031;
Dbl 792106138429484948434431072171304641739592172217171994838652001950440755;
Add 845686123351576440560255756705194144844858701719070008228665480059068178;
Dbl 382696826332422142799606175717761327826490403847298744979289226147167254;
Add 642358397839586012557255517493300297184693091164608503650229028409259583;
Dbl 55603010928471934636651419866341950969435317036752614442539838391580471;
Add 549634702181396307577559189990807457880148467338523445131577592760041551;
Dbl 379091609440071215170004146513292771096056924347165512507702067303212136;
Add 233979285676767055283114522660038337032370481074207795616981242303271794;
Dbl 139903623302262626326997770067451010511311425503203792573652059432268608;
Dbl 918349042310785138537881114235870846401749209855830183318917218894188084]%bigZ.
Lemma checked_prime_240_78e5864f2d : check_curve 1004675724306722216701791186662519500040942406543506880646773316270837549%bigZ 0%bigZ 334789874538343749688933665690116564160923745561724803957199994212789546%bigZ 999442178724208479731876244744457601100125321944445457700902242225524114%bigZ 532482515598398878471909847720711371516835602395742520259278850261272599%bigZ 942494017827663902710195289693186375704508819035687299545389941892812324%bigZ 159350446746642880105168948809239329796043177467296996811103539581 steps_prime_240_78e5864f2d 503186452853616195283085784521153913005388971101867099261750275532811042%bigZ = true.
Proof. vm_cast_no_check (eq_refl true). Qed.
Lemma prime_240_78e5864f2d : prime 1004675724306722216701791186662519500040942406543506880646773316270837549.
Proof.
  assert (E : zv 1004675724306722216701791186662519500040942406543506880646773316270837549%bigZ = 1004675724306722216701791186662519500040942406543506880646773316270837549) by (vm_cast_no_check (eq_refl 1004675724306722216701791186662519500040942406543506880646773316270837549)). rewrite <- E.
  apply (prime_by_order _ _ _ _ _ _ _ _ _ checked_prime_240_78e5864f2d); rewrite ?E; [reflexivity | reflexivity | exact prime_217_cda44c117d | reflexivity | reflexivity].
Qed.

Definition steps_prime_256_8154127701 : list step := [
Dbl 32678227104005972527130391022609733235663688253541268637902302646067187404931;
Dbl 26947392765998142497322351340275526869259480663930814759967955437720845160575;
Dbl 5117453435895402663110170482324883843662302698971297656149673240864695153058;
Add 59269661160511418504388271283084296980695823112715559468578114820324127597270;
Dbl 54846554987116841842603907365702566439718567070732593645425121617317237909589;
Dbl 27320356645461716496060495987652853932806377377670209622213124933661610121737;
Dbl 56749211122147141161464742362672034136650727398907321273271492517702189805815;
Dbl 53148165983713677828664635878553657413684632122074406873083317830824472817753;
Add 5289132976013794006433565869753647913983634854037617992771816142464536005376;
Dbl 4969354737214709565172629608102383389109971857268478395722095434143163212953;
Add 53358449673303121459549980376954922910779633249670753422133913408133576098054;
Dbl 15585028857190706215354423823058928419280579007345727499632595920546031151934;
Dbl 10515198468033431689175844057953750431711167562316454053480775397511742421361;
Dbl 43988510547007093345031890046931242821440714138564810723364028855341554778261;
Add 54876678225823059048928834839556796314747214195378548422409894882188815933508;
Dbl 57842856226773488937665213942223905720049904971231498523891241610951583054572;
Dbl 52226065626656624637354143558089376268129107171314859855358403026542712706902;
Dbl 18755148065575295497997115806781860837991890435155161023432734733696775942244;
Dbl 44954583283583322336303377981837195831385058436977773960124961946499370202685;
Add 61909908669894824013996314078924052845980710568374230273701451179296212232861;
Dbl 7261747701848108431893410597214730982313827432801258011187292187731338140860;
Dbl 57882863630416888634013019837852921216361997087887811435382726837160475766222;
Add 10446196053894248105217918873044791020570072442314591492881990621357858079633;
Dbl 11685751779931297993732518556768098903721564407506457361456479462942034168599;
Add 51201068354865812820890271299589297095393018900164116938993413849317277860104;
Dbl 31946552678121208702201649263442571312383525360562302450449899671391943903672;
Add 13359999562988568810323233748859387309494682620090896854961373369740466545603;
Dbl 4703989693555067210361629058242577558202418311909636020087448732864448114248;
Add 61277213692669776027407812658171144342979812688434064923964643106123676290708;
Dbl 37141925489611331927649595873591645467447967568825950668808109824448319304436;
Add 50331029957466366514349551739845123123220765418122091415033489380656878137358;
Dbl 27832511905680131783511293312355135476038219787341402522889990615182916274924;
Add 58961614833085038114512829716214940587157662883702188509545309871016253463887;
Dbl 6079896639473581224634874111465127872872050297195032982980773789558482737722;
Dbl 4244720847575872819752942206833991551019941477261966604459357670321338429454;
Dbl 42350793478648644412169798890863767726742222781595879210471061941906213777354;
Add 59005183209178058583711229708256742487013855981134288554838348534373989470663;
Dbl 24870870440305583460209485218533623804744246163480463871266216378656382796057;
Add 60126323222411001696145628253923216167627764522297223705504727130767173076632;
Dbl 54750062556504408842894477118904365115867312961225913418450584063702883557816;
Dbl 27210640471811248645834297491891991490949778881940965631766513180736652020739;
Dbl 12299176893668617117507671967987965931837521170227406704404520800371432196347;
Add 51522655687676758021109457540308507953444637599812496291959277732954678358459;
Dbl 13451388869036408031497832800372682888699910165267858890041719457722093841689;
Add 45511446793641933421886927271816518359308406390389862558820011764361261612845;
Dbl 52874201364646327953142403215742574518876274498332543513580825518331816337658;
Add 42471339302819245748564292970942816344847737521764190248549484040661260353609;
Dbl 9612392272204982962812844318351146575384371882921963336526485528672201931466;
Dbl 39351358594841660819331267087324613661796967058096297406946996708320987497857;
Dbl 60429503356476301887128074303204190166005730098128625024421273030353345916761;
Dbl 34114195673459284209630854786644687637527465053123828935641000409342222141015;
Add 12390526196704070763028098322638347607537275953153960102973074912115364016129;
Dbl 18284650378262252591186639326308938178942386494821456525228742174791231613618;
Dbl 36770939736697690614334478366993788178203388711814736782220043139631445803906;
Add 29969262997326055971268065952358163132831426288870788559942835333345165732494;
Dbl 59648456800553599171477365636469310310080121665942894447274909653416523064769;
Dbl 30940960489137513183309089640234556886575931506335374403887651410990415584091;
Add 36424560943877875801857875297250923278807862158092452226304305499250753271782;
Dbl 28878259877237070603197946905360218868711673178170763463861162555028386687491;
Add 37024056180728807200238483572842425999073976983994505664236578317347185041690;
Dbl 50471759585756169219724325234572147800222714537232626142467166242637946732084;
Dbl 46874884005377437229627073792991381110694466958879599301708510200588437113252;
Add 2606269773194844587056419939777677537106216536049670542673560773639611224910;
Dbl 57762063183348991256095291220337612627353063903238577328474254608769442545344;
Add 14442621927288237266137208264287358205250341942866405633143841042561404319381;
Dbl 7471819944330085917589298434512364944408920986200791529359710554684555100473;
Dbl 15362064719744023327807696335459706434651848344409485599152510160918342470190;
Dbl 4699627027581201270139858571874132055833352184481869183739196712861902809978;
Dbl 24958862201986534897136500141470005504903696084569640056973705381350046638601;
Add 54447197101203712618605176853724052227680671899640899407674788276054011787859;
Dbl 1876383666230462871525165150047045831253430711056911146834124720972921486264;
Add 18428168119344460389438232221712625152938831552748313136209935940962649640499;
Dbl 10702515033836439644727427292516358928439924650313785874810450425208806158183;
Dbl 37456788460504700312815233679819439653578475704978692524987686160863720005110;
Add 26824456726209200556390927639530327763524125834353732298260271675093293294401;
Dbl 58308824901465553730527084017541376839162962247030787474961848138516086873635;
Dbl 10832920157741693056330104369891046110774089342604472640953019541851844586612;
Add 2385026685418930074324735200432872845530956353925169377093294742044981279650;
Dbl 14252076254672935388281215692475202003212901809140698645126925712761191769948;
Add 22214060261705902688730727733526203053321623923159849082478755055112575301012;
Dbl 31825528914313130381706936225324471168126343353122062071665127880115249330144;
Add 48586596614564205220078340475024697857605990838746748978847341586822228333848;
Dbl 40987668719358119026331109599438411306050064709499979785543691290481554362689;
Dbl 51383243822993041962539637890754459145981668439664457463997190811273074508536;
Add 3056674223204024979664041354543531766049303098779225541681904669027247950691;
Dbl 57194081199989294376686704738778306098931085161633039801785247767562817384933;
Add 57015993919636149892126824901681537173854003126058564591104456724347639060088;
Dbl 26128019188004591076283337476394746197621000075383733910292862979653255476788;
Add 18062897858847434092937646355165794648199002462055994118323579691829881309083;
Dbl 27202800691381073449689808096305212051173561884226670338099633198598840605591;
Add 34263189364297886033097473324946515704968458067381661920945155473700703987351;
Dbl 17111503834512406727367718108464216339629743615269625362202465039469590125181;
Dbl 22658137328515577887964487353877369841025960830748574567526257212625481677939;
Dbl 27495163989637804896631799237521428785065287118483970216871861164728634785335;
Dbl 47492755038572728791500932129739733130022580961376937563303857599044070093925;
Add 6487002580317134130492792375857871271789674867722577039030893279667919188373;
Dbl 24436842554427521423609296275496690238477723345992032717664697037377488226976;
Dbl 35049428268784632993411781781804379709920264307062938259504965354138916037518;
Add 12053889420229255067913651651232025279182757978094616524296050092229969289564;
Dbl 44732443001753793877369250523409978709668908239236783939847171192224102260926;
Add 50867998802669523736818358451711959690458873670460824878658680540366030718930;
Dbl 31879239859684288369076784616379462500275021929154978045700521575583013120786;
Dbl 19511595317316111582983790520161825655304308077312813265045609213728897149028;
Add 55399642615251000898149701031462542018868442158426812384936155834415720208852;
Dbl 5766023766632822032601377976108204931579819652552585597549799608923394541883;
Dbl 5781542929153800417562093108597229083545276091437263794399852898473170911418;
Dbl 14663559770294078063352185995172843578823577650857125380946109063283742618643;
Add 1772105769753661502925818877497497181271507660853289620248783398123643126671;
Dbl 58643011358745285069176608967893722908692277951287970547211683046191925911340;
Add 16146980934463049582060702713106136673468134439405032743054074978574193870733;
Dbl 3923836455745102467861688094420609391843730096185394556222835801584031472383;
Dbl 57274816020817042361896561641480334689719449355246484152088913413423540413210;
Add 26494316108997384776582859010451469812990292086935028122760074816936812240684;
Dbl 22992107612939220975132329861201527044122239562856751730999713360081272975396;
Add 50035726653143835720194853873230427520511212189499803489316383553901457001616;
Dbl 3335188998774488213966172585726201125994187614654716264421331638190529732023;
Dbl 1843705142844585413392111741815787405556538540901306561834719527473504239006;
Dbl 2765459117525633390858851115358238707442851208911096186316103309732401227705;
Dbl 53071696747965810530932478696009719094951056251940403816750356311342561148893;
Dbl 8170080498255962514504232459330612592631847120067895218876712578175677935057;
Add 15293784598041306562440416847906518297371389908552975342616530167078969089458;
Dbl 22143134950297969338269953840333909770343416771186339641436578671951574064000;
Dbl 41534163135126454930625761496410354237686426165092085424253609712191527881681;
Dbl 53475682380034622498287058356206715983163540595729500059965409411091707666935;
Add 32442507437396214454292688265537573180778734917201918017751560410679943410423;
Dbl 49683026431263991880970980607062534817446802579925486148299229708644874308181;
Dbl 14784031217655947144438468687715341840643329570487606556898926182565912979961;
Add 11697296608997312597783994679910576699203063338376754766946284817924841438504;
Dbl 59740218848819793258922137540430288128066396365560505660890768471060368440768;
Add 50276922073611576706491284740138555749135018220654363845781172306445185815943;
Dbl 2561979269515435593254696593696141258957254896657599775876838237267149486239;
Add 35417499948328328264281751850722908601330717977880627691315153325009099635917;
Dbl 11719759358870143862818283757076404094786562136626657888350963375266511659368;
Dbl 49821937617805007678637652205767086196058617799810322285324236120502898947475;
Add 3535242770134714078359694927351486433818317687657155147357839731202739266593;
Dbl 50840254690325336376596283102781806051694933557285814498712667697840156813312;
Add 53499390903601654725959991080419925825052721332974406205376280122059134358084;
Dbl 52415387312059572899974428231254444730331759619670885911625112328095890028098;
Add 20836399695588957588852516061500587455391875278624397374201545935961207219478;
Dbl 19175261571792510484685398705737948182536783728778659275224197355092614647710;
Add 36732139980278893044502161947744532974307899034073042642830489729509534655206;
Dbl 51616359054445149236360673763145774290723498072109672409393356282633020313235;
Dbl 10161463007541442945079615657356167587025744547218505606635274747808589959628;
Dbl 475177609708586064512315815215682859382040136368768197306287156638979323718;
Add 10733749631828698222395401912444009170358523740865269977726874089849433692758;
Dbl 58919984452083145709770524693173222302786423435928065942378862575103785680925;
Add 46525659626246638781526834299736582402486521131846701127112452802868880459568;
Dbl 18567056923513821517075342157382360779842927485162957473233448402377206116965;
Add 47755806175191060934961803908494623375250811363894634131998334338290753063792;
Dbl 55740256873561443577326347642995500793579098780205311910995581025601521905055;
Dbl 51207112546760856454567024463203103593164024998978928750894945555178362309283;
Add 26310985996228518631977370568636537705814584693040803422037946386645662896170;
Dbl 5969379009989238951475148495791079203966980587018208560544664788630477055504;
Dbl 7926911963637808906016814273557059072244152785665458625950894731931103118763;
Add 18703241106536524051788364531819803789908991665296899856871187639575686641561;
Dbl 45744571393806668356720437430543494555194966708949502423584225064811700555501;
Dbl 52759775423106164456794808517258256232570177836351582134451518403716818871624;
Dbl 28047240582377478718125375075766577135120356555251959484168250065229407167043;
Add 23809460220904374731368501564265994340888214149340001942734076051734881217260;
Dbl 21727542901302923440613084564666195192068621202076461147859217057341349360953;
Add 6062531969659583606195379815614569822009245477445219545910676397539298495440;
Dbl 60421882020676307496296039969611158170272956838118035101221701991341874730635;
Add 39910118738886181034990718883626943894949053785950320016560486825173202713346;
Dbl 36111596573806363852654968060097462289555249993954069545091806619389332130279;
Add 39712442712121963404589522697148460911719046538164178369773255790222113864878;
Dbl 25406557499681228126925131136095910416480859865526111156059363078392142030167;
Add 24289064323829689218816192967981455331224404918524433911219881082473389948443;
Dbl 59947385346164941983745294239143888982064036961965618608319431085301957172633;
Add 27512677929002458372219733386779973885958598200236295236823668028316583468993;
Dbl 43134384605086998716443908920153627277174384074188037874764982541879745638387;
Dbl 50070972191101965355844535381764090291511036203482359510088010056343075768286;
Add 13625356373859088565536497622842434128914042083129761820508209282682912657638;
Dbl 22614166826867012743830130199656411438668679603791440906325445759786118682828;
Add 6991072480010999135663730554246813936873964020241279230367930197043520838356;
Dbl 30662502583093292072897576183649273976682087493273539793098750299596323110802;
Add 61033554287496282220079826441058201548629998046864940279405077595815017902731;
Dbl 21157910111170629915061650339912235396624931490889838856808120223826009334330;
Dbl 30217639915002465604026840895335298315299431256798591371354685054360903073079;
Dbl 21017470269522833347541003038705212091740855362860283756970936152215993930201;
Dbl 59906198740559578179170328062021114320165575375174477570506736667202532338734;
Add 18500306201755341988561240548269544139373806121543449382096785199960557109397;
Dbl 21768895108740915073185347678355396233495085876823599634331444791133054368804;
Add 25597800690808762948556442711356481836733212834159581347079698854020219925632;
Dbl 34813092390849854504847609998585121461605624981510072187396351294460207227554;
Dbl 34176279392747395694727225884746248236520422742340836118145363564506471119864;
Dbl 59992029920533694541819279062663599591102530087731337909742461556640498659397;
Dbl 30253417014448143888627634688397010459221335927828585964865638864678353702126;
Add 56278292375726366880805206039266672873970611901658792184212698067628825050008;
Dbl 15590776380438362894236307782792016639136676616172950442208223330514115978952;
Add 44777932831124972040606049912110474553082813908174553587937042006611447203546;
Dbl 36951664961134346053996003254101081898362157451969504755360475090878604905026;
Add 4004657939844843735879204805742731575566914451202608379930351831375938383686;
Dbl 43741161931586366911049558542407094832513382851917984528345807764074734660279;
Add 1351985017972588510743979622701143950313635977702481104612188900511331308724;
Dbl 2827596797607230658582161627506314566139844849100565260533858003434630353579;
Dbl 42036258578368051663889640188537604527346422024067923805758286577230591281750;
Dbl 30066549710379937329003265893603025200161072606350731176472325446737093644783;
Dbl 11341393561870462767979096451051601913848653960681830858008675194201821386402;
Add 23862433727505007419521106862452303887857036449949619518396856386381326784444;
Dbl 47847427502402081502303628734043262424033109462302403783393996088408615027992;
Dbl 33217297110855408404786317900806608449948843266994593771083473503325547089725;
Add 38619548641703735584991173803845760014533501711678294383295399815673385175849;
Dbl 34585206512467221010816815300619442662471322493502662101533627234456848448744;
Add 24612875479410117018072508230418050883519203754071536336295631725527460160878;
Dbl 27423467191477743670776002458584347496316769658226303744236282615685760747994;
Add 7653300790757997987874755957847935958974400838924290381276576797658570343230;
Dbl 41067755487293607982152465743308232320985091023862158375476571803131557255402;
Dbl 59446897246271132931504316322708674608605376232356103417260818280334620181946;
Dbl 21275285634458476806877454471573556446688786185208806496752985790469253155502;
Dbl 23519855040818861005277485529973662743704023619970339047597636830643253678743;
Add 34627253271867631802739252515965992894996892516446700681737046591448628462174;
Dbl 60782288312991877916721987760159921103724945872315552200122967338519057343615;
Dbl 46276717143300849919724695035448093911237294409843339969885955454772831649053;
Dbl 40845463631860703516619759760768612170152347062600424594134563373322904940078;
Dbl 50424310311329051399686162371001060176646668758880207598234748242654864359021;
Dbl 61339400495553666609906209097646078556852949518688404613183391358600719713172;
Dbl 19861230532675580042948661323606232950299114083817825185343438812351473488258;
Dbl 7496140153544077465173393325374961021118846152785961601765840567572497622089;
Dbl 989564570529802058154259529217604995390438029113067067284965621439269910255;
Add 60986635295144214288284697590996850978815497045939907158233412522309081709397;
Dbl 47628335086732446885564165855094217644278792206142599606778051713915033136393;
Dbl 12687631443397402768339955193300085997142481252333706303825665445466405222016;
Add 62168784829069019604849277684740811744142692182251433400926989737130510913407;
Dbl 11900480993495463950638603424204249710854111870557732661837430271330001771888;
Dbl 19478778628309620052992429428912366680260016842563323085832973540136094240059;
Dbl 17596524842313136950445971195393352607322607457248143122985179369470722157990;
Add 58887085770620527545548158553555099329743235746676035800772525178505813974059;
Dbl 20889755414742022605908556794202909519540846529289441153095773464705718672074;
Add 6574729472348893918555553236333568760347056840402036019521059496641540417555;
Dbl 9109148412194682582759601705233298011384193704927805188190991041658703572886;
Add 24970059557466432634590969501212822436796211794831009912007879786181137606914;
Dbl 11046130504203544234602538849849417042634987723176045806026976616944263838511;
Add 15063384395039325921951879030923358644025255275500139932262198931958780828940;
Dbl 13480996782658923927238292190677305291513790661946016961361252229985382908121;
Dbl 17584685903218970568163473814095885115227970331028118216635194812095145010147;
Dbl 40488286300805203815076119210229004010179654046551002742276446855952532349271;
Add 15240240999281275837049189849832909878952759813045160043037026826018889681117;
Dbl 30295538329750467080093823744552800409220183555940416118908027006816792841718;
Dbl 49111800249904549222342738158060874574098758075086805052901281028509703248128;
Add 40544142760654141691689729658707071320016822488617887221153342654594408763161;
Dbl 12968811053039537184407423590505416519087173778941479510307365403867693416454;
Add 16505630523099150076987092469622802787900157651444952140570685185381740912655;
Dbl 16870305196166489772672411929023897063698042006580644867211628329750772044701;
Dbl 61088609012563012543023914386544397035302662800639747424896303914845420840298;
Dbl 46566550966545757034992285072692891666180803352717838764728880156118603102498;
Add 41789232746375927323311437801315025310229705225658049259888371565717312722292;
Dbl 39054813403394218408887906729808163770154106602805505585635163297946937902432;
Add 35988846393161127587345956472523103019923159844752618159567439563885247106989;
Dbl 31619144939353875824556096760962344503023411642860883598184886285865415682868;
Dbl 49421859151816004204083499568887147930529862720364131610960189032402634798995;
Add 39905571211387058772205171744493543318572120444728836461242578371244690812217;
Dbl 61229505031612966305774703201054341628093028693157737105752690750132057879134;
Dbl 24379991734339621501884068131080684189592200268515132128301593930405326669701;
Add 17026680759100115601349293035341492654357856281385331067685636612079227170166;
Dbl 54693185763629780965368848673702349712022884048293499826789928496286700982455;
Dbl 34606018151633763849192498567207834576441382413828509510153772009560697584140;
Dbl 21786690670025537402320933537196168541639777509496460092578732871795150740482;
Add 13777864302077541231779338892182077508478530666117251354390587667834959659145;
Dbl 60427570757688032048275109647526952622822506603246912083761519111524298037894;
Dbl 13489835143934022767106411476175019422380276665846938040211610406435820227213;
Dbl 10403390558816487672524570385447755052741626271077532426216007686817318966618;
Add 52020959631275491492546776628860469254038799799177510421004822821334962884708;
Dbl 37475164554833519600265460063416494126982291950524549421430411105511589516569;
Dbl 16868726292567642674132070147614959228837065348143669754294552748876246391381;
Dbl 33398542563963145762740669545810933285589833422419469943255777407528221890973;
Dbl 50275061572748965483621634146287564512762437835550979402415731445892053425530;
Add 43971746593284808357738560202967177327314801026406306980210456323226155042320;
Dbl 61047050536730006003745634700560663221532420859209035377436145328972187623095;
Add 23363357915798220277882872298037826664543137027177714460529414241584332989733;
Dbl 53885858967107329474568020545266086999900433740763605811198524199608915456296;
Dbl 22629594034052465227537048317954644441501410861453901147357586840359294413685;
Add 6537723412251825995118971179245093999939445478473421057354497820839844323632;
Dbl 15298120481730062654674584076696920560645733881122666526611601873842254320717;
Dbl 50624565347675895006119937153541885503942336966384910379028125796976489007107;
Dbl 51973081213086681734437378824567132538073529294935002681655712031786916693625;
Add 44262689394029074142019623419464128497451387213589388470717405237553561016447;
Dbl 26338314212012367385095064985873737871758944045569369003444339210464767925151;
Add 43333522991451039133260472012748618763982238538230505970616661800095174287559;
Dbl 23632029429747757884844231782665826239713897265652946449559703749613276206063;
Dbl 45099857051097858563928144129978858604287801592104527779900908891475703685234;
Add 36316053448132943741393886378893011665153019849227769175714953540132444221724;
Dbl 54516475961494323678199399486673284783155702917473421796436243020015500491976;
Add 53586743080209589580425784606353688601105733626943311512736814106979504809130;
Dbl 14752585028768756604997410794608829368244914981142907544785529161005159575770;
Add 19979229639334763995660595787898396729688881279380072373800939805700723589875;
Dbl 23898643632542675623080452549198218246825812658768963143956033881354575048642;
Dbl 20909487473125251230322881291652228724592372707732439281196710802058035192713;
Dbl 15719745600143559386118273473604623687857033245797043989093721243690351503268;
Dbl 60167088197995900499445643041608398341476472426052313666387281820800140073467;
Add 18634731896680735088662756376605479745865003998175890237023411220664435676111;
Dbl 29727991022087586936826160786497393290315792120301256576846273677573231557721;
Add 37121236031470354844875620308444986598921587814791042691110235566449303403452;
Dbl 40356494769614510181254670783761398506355290205981352303382539349749664390013;
Add 108649643394524169094201176346483686708861125828187290098450745987269760317;
Dbl 25178350294929978271445359353308824335403301752781024994455394328166129726978;
Dbl 61184843191432141905066414396621173742319325147890050887771541951142340388303;
Add 18679886124618740965584456949481678441801512067331064518651386366305247372918;
Dbl 62306245424597299751982615327073374579495100824249897521312570273921274190933;
Dbl 23054257177438666921522337035131073430580177617512947853118102758879652025042;
Add 30675172182913283967653791510299474614041318791794234305999632277775842126484;
Dbl 25616446535585534298581115851949809019063934137015577233554820792218198971351;
Dbl 12306842370492614395747857383274665679676479932542674082509521627241581580512;
Dbl 12840356666131302916829450409083953050606387165131900905231590748207784954754;
Add 25497114341922399207293808568403054035295731093463518690811902243497152276625;
Dbl 52119706907996918595772877270360840700329196981298394297199137236515836210911;
Add 49099441989092956545712275159466872395254796885939082524560174980195596309131;
Dbl 113209271641822277301979554324689011145560361027904213732749369098347295975;
Add 4697134756899018345458748253061022965387539557941668285728238792426853281971;
Dbl 48695982275385107607905402280595306633222970976373195881345444923566885221573;
Add 239189127866629055761853621711377094527357062287464085229466022861773554170;
Dbl 26415976209214603256850880232610290895731615060551159064656506750608798603511;
Dbl 43750484627675152480595713059572448137730195189439625300356350343910924547207;
Dbl 36936196769751339925755911975699850559997385938808990269377363853039315198747;
Dbl 45544615492603724850743244487001988130653306749730786464469923506119324081872;
Add 43783764469938745095467396207785946646844047638070044181301382309122353606514;
Dbl 42547598684647319728966576341513953178583483606617442054459232760329108857034;
Add 51307700511516014633169652418850626643491949018844356724661739973258493048175;
Dbl 43094023848862618236802304819207227022037783609275384406135785560857830462751;
Add 23982481834239707588239030179974584801049943966327823326669050003043712794490;
Dbl 21587314786921102313058194624827540579154895075331323890856238827855853054293;
Dbl 18022981026411540663922655451064523134139150644568259770379200958596258959891;
Dbl 47147758973196289352433276931233488313791623426196126759910944519632256690371;
Add 8170199630700656768478087345454511696179107215581973683743661074731010524654;
Dbl 24149985368394153156365552828887450320663095203847930005089433175554247344533;
Dbl 19655057541995741908457172449212802833852141869398064262675055188038987406887;
Add 48241234601948984722447441024859949440820646817929519820853133730846824280445;
Dbl 35376372004045367956755784245016662030452334639110228667602579529840344617065;
Add 25835165889320065162173329679311426422970754973193547157741284322875277012103;
Dbl 47053875384592131530771817411356951250682803271980941547990548488057884894598;
Dbl 11909623417890630898211576496190367424958604937450338019127914310522052618940;
Dbl 12551271977733926159367341593026408398161568075610662940161941381579015189391;
Dbl 34380223334148047665661248579363540268822270457579362184612529668268471994334;
Dbl 50488072850992870711280821111795407124885909297834969353573354488848241928638;
Add 24783553155707739599618376891247447050049214662787537717493335379251344931468;
Dbl 27900169897405693431510076670334015343014603472506382235863219451149025314115;
Add 9001006646302361847600071792078787043940192345422417627851510957516737249673;
Dbl 1467601064978663504090369362223518019521610747508461859918434756197778434860;
Dbl 43630476583294240066646600901117321870313019851234231306743047031469606782155;
Dbl 49698328153303908061067917670994540894694377821111278391163114417421663647122;
Add 5642522259527472273133826678274674748034413598160773365214513239017679452301;
Dbl 41453706559380996569341832809235113415817661263278259866409620515136396226927;
Dbl 15928607636327315819035315633525107998940210234484187417854411199179141468837;
Dbl 42869717111314803554126442608625893046881094510770541157562681850254524141944;
Add 56553796667704063229539597649478405241107891201786170879755118053688447114484;
Dbl 43806855522740527042339435497266244178053501941589405295124309868595964752567;
Add 48843582702311356864955456206514151518747331523140837957220961664737776338878;
Dbl 11817639046725480647701128750339165499289455940498882181015358954920614601367;
Add 31607837711594984985526521931850434090020078408636107692301974544279359422770;
Dbl 54951921543287753883309687894859483762441106525339224018477209550841359445622;
Add 61683721931929242636188958704430716021610582587948897691233356462286900063913;
Dbl 5258254878383279638443547311393909964711851873117043295547441561782307604710;
Dbl 53355595859196770898828848283108991764792687017407352299936600763308028819203;
Dbl 44667246100549327915078451232930766405694819700103405917216714693143243724004;
Add 48038770284158574659189582930790608107681420200234030839063139177204591138402;
Dbl 15698199633912766577850285940310971373082390516964059128069921492882353909034;
Dbl 45996861395021819129388206640162770068773227571722008374301393273299803146382;
Add 37262034912399542435686440581292084162975784906127964781988306611741923993562;
Dbl 36592843537483303342159991542569737188339205834024021395803118970867780547298;
Add 6629333922111791356537950397113493353273468788395174029230970057435135020255;
Dbl 4452290719706891246436793817028337913507163967611305016315509960164127508322;
Dbl 42735396356046430861914831511339418780501484267161486937051254432980900595307]%bigZ.
Lemma checked_prime_256_8154127701 : check_curve 62412465345382197545948672097849036381399923367347288233392051182395311945473%bigZ 9931582806695673097929796029392677632309916681965763731267469973514625583031%bigZ 46548878343847117986884981178486675553580597013433488125228468454578992920107%bigZ 5093904424782443272568745927176359138870130810717564710613662545904085930396%bigZ 0%bigZ 7683435817230389409266272352628336624920501295419158121166650906460745738358%bigZ 1004675724306722216701791186662519500040942406543506880646773316270837549 steps_prime_256_8154127701 21657012825531376293766150938884301660213571059224508091791593306889595715570%bigZ = true.
Proof. vm_cast_no_check (eq_refl true). Qed.
Lemma prime_256_8154127701 : prime 62412465345382197545948672097849036381399923367347288233392051182395311945473.
Proof.
  assert (E : zv 62412465345382197545948672097849036381399923367347288233392051182395311945473%bigZ = 62412465345382197545948672097849036381399923367347288233392051182395311945473) by (vm_cast_no_check (eq_refl 62412465345382197545948672097849036381399923367347288233392051182395311945473)). rewrite <- E.
  apply (prime_by_order _ _ _ _ _ _ _ _ _ checked_prime_256_8154127701); rewrite ?E; [reflexivity | reflexivity | exact prime_240_78e5864f2d | reflexivity | reflexivity].
Qed.

Definition steps_prime_262_7ef1e7fb6b : list step := [
Dbl 4041200739286153642176541697769869902719622879332051984376504347073260428736089;
Dbl 6887119822233083560310007071520073744196196344173934794025563663009657828414666;
Dbl 1477712456880381655822453320232688524510564218324541561606124150214552869089336;
Dbl 4532747574416940277320324474208381341029809578409568433316593680325715364764930;
Add 4241202478396023039410431662329008078067586187569833090833784764454665579773840;
Dbl 5302573839192322623933070443169352678402770395053899955085182589659079980301492;
Dbl 6532942622811845734618136449228031854787690551270706050861967736939274218219338;
Dbl 6775942581953007804194113737225094787872579102683218350613230859296584900275585;
Add 4702626502828668281306844790345529905436570858647013898171379137798000884903288;
Dbl 5141123328839676995246993039753275047483273029167123780003579580224700622717342;
Add 5464225380644796630817253813154541490532673361627877980064428109895196586748282;
Dbl 6461755400844403452537713971853350984529386701462531850888566068748049171117811;
Add 2994680263751507198179335595774624282851810934301708091074052512292371216028605;
Dbl 6717634364701686606578926890890015611745260660748834918527366719453331692675647;
Add 2456620773243032476761287899257094407289175105557563582437389254127697857357951;
Dbl 5581882518068919067668815717373924215849145491323652098424715179215448918869699;
Add 4273412946985791354244993291410528547487705024493297417859332011730316680330451;
Dbl 5364064385546639007279960421814228002552222124805147946228346564489351712354889;
Add 4871373246103597172539829904928370071722687997669846119862572726447247346671269;
Dbl 1023717488814414454883720174243153101844604028957765531289675865467314727792023;
Add 6221835440448119105201879096397512457849957685991251304089394538973164510290291;
Dbl 1430395830780171262193839591585106506544791951060763290177808909251840535868930;
Dbl 4719809289258852860741749735128557327454092573890795804416290590085183926619288;
Dbl 6405246021441493272631312128731138948017787611873860013774574392632742592937109;
Dbl 917635456740223133392429735444426218960881503225567414479909379416706193195175;
Dbl 3049787724993929375280554096844084320718568095137083404027664420649780838671850;
Add 4846482149502406986883604581067666394164600809429784956117666787739933333601299;
Dbl 1021325944839811949930409505387978027499250246601906631116955550833235746961967;
Add 3377035616785041260705878343946397790026631561484689642886721863190893191420407;
Dbl 6036172807728874113364710793241661110911715085270930448157957134189766317057635;
Dbl 3630218550546657031398607807949010151059133074403093264480283021799150010442464;
Add 2899705768881344052021534477495547509925549360045532101412288583933646746568331;
Dbl 4484388885823054063637653099122300119519373772855122960811118106519203659676056;
Dbl 2000554849763345907294200493227959241293589349250990185415083993591819088211181;
Dbl 2057722093943705024848705471973194500671471885820241509430058599105320975682408;
Dbl 5760413411654974006880644517185585015937404237974392055943176253408755257826123;
Dbl 2604407926725972379961480035051122250989765336208683002635379614392501045355489;
Dbl 2211398794869906754760517625127089609680979454730799572274944486258520667207156;
Add 2848991606657230027753222861782721845493258949395700542733427499957048903262491;
Dbl 1522836487217174888050245060420746170371529518927128288563123054652333694273660;
Add 451213964629510341732167714889791784468738082248755647838789987188495629522173;
Dbl 4644547499719569768827361093121733785621820898259744292057164750883844576831639;
Dbl 1511621740604765591445812457260381908800601174438343177194496638509221491300312;
Add 5812438923211052766822678753239875804027354855542653307437975198837262081560304;
Dbl 1568952584458038348885000571418160010793905126357949289800864642914989276813999;
Add 1673339813239303168598870455855891500384540950763529543012886541004520362613230;
Dbl 5397228058887614841409325239785721323891933041932754871571750978140902178011005;
Dbl 6336245711169494314637498524513032433757943437456857381364883936120667994025930;
Add 3685169738368167612405873048671445024998451774718062806049498843249483570919425;
Dbl 7030273604830279574794893793223840266519144517083252926111570384068832991698923;
Add 1884646031990669503435681236000553224612616350425914900429698589594856337199391;
Dbl 5486727357773768147483974409370319714128548772113527197280136225550768691435652;
Dbl 2834931893879082907181528404108443200841539759021032300631423261561057458249952;
Dbl 5859041236952689099302150430049874927575553663504493242277501203276820051681631;
Dbl 5988762999710950868122228880623242375329653231299626999124679838067164313263550;
Add 2508179386967242343742056865133513144706631578477046466739130448426549622202537;
Dbl 1623469440416724319878671724454018077841039136310052050751458366226872869678293;
Dbl 458968024024362300056883938759459260206619545640951445157900114580942503243214;
Add 5598421082621713818070350705108729792155615814790859860005448016346003339895431;
Dbl 2268592520458513141239001285854870148519345153118335832792034575734231426513729;
Add 1816468259383911647429352447178055156232969352863126767219250385032353203760922;
Dbl 3256943892583771035146149409906506157342348421931574027793627558611459038580802;
Add 4441018033939395259812250015437488278443820704127784041343211728624858683371088;
Dbl 163142180796391073906946922829972355531216380938394139449372689706239964943931;
Add 754716219892406962647056941588642550215405977393391817579116090293987403816257;
Dbl 2571074579820579025134172130410827521256310618154959840566864308363200437580415;
Dbl 5443432070470649240977892460311213860996231422122163220229590308412762127122778;
Add 4613992132308585811260101105862924155201552711417815527799178087424963524884033;
Dbl 6956298618630020114730103500743006528040847806772293762957816069510838701280186;
Add 2864313149607801471445396419629689958271131005235355452007903821783542682143996;
Dbl 2675034429427244927340104595525056904219143153718731332581790697047088504014120;
Dbl 2496565838840230974947980648814178364215778290291622906285868549105088346137332;
Dbl 238191816242431732144501824087033006230024163099042421175762958317111763575070;
Add 2823478109751866446473416288704576643573655217960994677650388213580845005498262;
Dbl 3068320410082324254849553066610089444078810507725586799837317057540300878844922;
Dbl 341974558251352405654539058944706325225626963659291941948578144848132688490854;
Add 5160600600173522232248285167628178545908950584656445363257385159326983015009658;
Dbl 5166358796311778245877946254889772109046826396862864150412014020373585678659456;
Add 4546537898475803413459413439546610923229563939063873429488188584045695123066602;
Dbl 4708522902497732592086077460370493753292975900687835525207457965389117384807285;
Add 2464573060463527017099238754786643404770993260009015477693502881810251733882251;
Dbl 2280675902371344841034889121708071099110436259105118197766737100547381087557848;
Add 2439093109025565315665669747442541145313125299328306584154043777994473060698558;
Dbl 2467032509678823352144969422315201328930197988316599589199393169957765449308705;
Add 607273640345437924545648029724975153055201055544208337150830655471671357369424;
Dbl 3526419225834089404010480507032663724840158862655434182153811770089848755497477;
Dbl 3627836778176726597740814052789635548381013497158946143111367625181201549605771;
Add 7005985881809293162202074598743773233940835108776314750160630582357681474282381;
Dbl 4023939633497701032324682938281400391098233247974520413642420110305929589144782;
Dbl 1873588025533465877704084448569347093029604695628113028515367922515847818197071;
Add 6572877073150339029932375740125303245200459553380501405859964657903907336803703;
Dbl 6235780890369859867683609633838198342499064281544708114018385520876168066427341;
Add 2193952959357564369665691690696042914141655255991861942341171727546290386682752;
Dbl 6802133580408622233944390204687553829666929290320272557571876315119696092765792;
Add 335166019352471954431013892977376159205886519891549048800258519818749491770073;
Dbl 5682735967932697582479507599544190205148259355744649651737232696252485733658991;
Add 1519336351656350129159963655586579460991701501876267671322230620075805176438772;
Dbl 4802234099771661912039836793903472437175431591445134476579887787439634861612275;
Dbl 1926146867343836840569976767224776424003122512979814578893783875184305572147465;
Dbl 3499119833313042169134923725782511099074849016239250889037672065156000301021030;
Add 4298572720322601002928312945577705579906031026224617434951068667934217161593292;
Dbl 884338095036410636583726664291859664227407578847487368928416688850898782911964;
Add 2254768037486299767699067862747807561004778245632711709754406846349208394781599;
Dbl 5008621595007545502138071326648161958792481426021898687656565767255777694241532;
Dbl 2940962076580869984856278185757016809314626081306056238201758515410662173327551;
Dbl 4848578731353366868836841267922217291878588095077012134181099327161982605352196;
Dbl 6681866444689024662995299117269337968566806365934348751378444879339487783406659;
Add 2897525565938562727304968914069561066790381403104980092304224287314445920816824;
Dbl 6132438480965485733937179561847191452963309949487877868663906675441760829482820;
Dbl 1014150294669258252544718085090035436767029977782903719277205290642225671212508;
Dbl 3601324022320976120898982602899228130324879650237290646676613647858828803781819;
Dbl 4520800739253315539024360692517464284989036669259377411796266613073132954409832;
Add 1920676201333599356122094085191134023588062782869098921041991613655373292102702;
Dbl 2828403284645698348907627359614747909156270026598382531563906281618003976025942;
Add 6115837694760487935886829261102800283356547239959910359832611482622563067612709;
Dbl 3169701785417276723492521962398537194611438953187915706881577458310753131179084;
Add 6921336914516721099170634915449335131992757366530243683888084578571104656424493;
Dbl 4250228261565893373044600769665756425442180941198125006598508551659176715904418;
Dbl 5475751445437619080368381287191573088605168525585863710711485518300931839559720;
Dbl 4474103963192573437536235082700921851814356917925653509576482417177698382789580;
Add 6640074546148710987926833142082621464362203180416555466798201824015154178317692;
Dbl 4392554430097319586123580870354769496296159261415628041167558123565311236275870;
Dbl 6209395454600303185466066267409234313910433937243552018192543545973842949196172;
Dbl 1690845455263734174006741274454146277193903924391099963300308917392699835371849;
Dbl 309533974984970991066574901257814948777245869276161256100099790500145681392166;
Add 888542801382407584411113028994778016722435050026040761724635315284245246103674;
Dbl 2751278793796708151330593712159049880955345723528561902769462263776752140237384;
Add 4466435367361346884681417310041225285847039047447561367897007322178033524842872;
Dbl 1608634529124997671534922018481023784301665332827320934692791690466333338191823;
Add 3057911785554835088739409917326773213887697229134045576384691432305893667679473;
Dbl 2884785699300048258327018636919616647223813489114915203373114520171006866369140;
Add 99135514312960710080705048474380385134386754499706900516573929711870248207736;
Dbl 3397858022942760028826641899704445385872955716330571100857810150365628204680037;
Dbl 5552969769042519615734824706362777956867790311080378555531763313047177634612416;
Dbl 6373168716112128305022868119258221350573344767045583402385784575671048089924099;
Add 3323615842399611445108880991813787013804742672137517038766749818678991768223541;
Dbl 6182197570448001838386445812492004079111705666369530723331516795663585831650951;
Add 3001612736141340223992765093280026368218644676333909179486883350781626118643280;
Dbl 4391071225803382963177206438727285449066631974000231936494396831327015083507428;
Add 1953405841583503724352102924728777538840915368392556465173271801368991043518981;
Dbl 6289975078516242782380995832296274527121908938486810729877318830696405954908059;
Dbl 6767969599218415135689102924503132211134181129526763118069512490027008539798432;
Add 1612293683845894786274098823925872756142744138483461201865143393649120673146106;
Dbl 1862657881101103403980652271739263658348826137723425837110388298154894858164496;
Dbl 2843013886803451697482791757753978382989321567238047645996904349904010595332163;
Add 956665357478219066258826801056618278362079189563730295093612361922924547011022;
Dbl 1236675882470118492510570482048181408464240836111862237823595788328673693620393;
Add 1586077805082027064679689349408344759737394154464702421017697053607138306281351;
Dbl 1969330771660443503614874450645671619188495662596099815389644232007747998553332;
Add 4822048623110367347408152690804023375378899924148602227384126220249222086064812;
Dbl 4862104623516339439437992130760214844148872117472281523841219765755200185564492;
Dbl 5466085688086740870407566981511211237177237260506666835806782198598824399537064;
Dbl 3893864116384695839903446948877184496230419185543865325645631150739908733226835;
Dbl 3152115856558922919118134418148475687539166455495479471263962985631659932920709;
Dbl 2098497030965710958907027495472154737059227366870832853047443945774251929622819;
Add 4097542035372610329795344590018624137449635061401149149375430640388264637811979;
Dbl 4783564684716393439748122067535635894873261039630968790033350217204577375041712;
Dbl 4016068349285174166823956599647891236870463936799515177660681575651134436547314;
Dbl 5679753441325760528979741988945338674675563564040470221849095020089766211943873;
Dbl 3179872616852261896765344347586900080053555707211611599112614508043689573327322;
Add 2691458383437151469079988600796823179798382864870981071059594347294440190545175;
Dbl 823571489334570898358743456430266363889011287494697402500050840829140079840869;
Add 5572036252616645303331380355945508561733581689306271521557248135491163069502543;
Dbl 3756374087272448115114537354832819984717993368642452332826163873702059406870085;
Add 5441403104830426472037261983673931952324258256222691845519790292984594399991583;
Dbl 2554410979381166573605414296605965933119874184948925045109269834158302269572162;
Add 6273753422689683874997318603735720995984819941883929068015996063173957071367176;
Dbl 1826179859831025944745605812925055362257962842424126035616245240959108029309247;
Add 618744822899964344577047492941051194996506811021205011418776669639110430255840;
Dbl 3107356447060000912826806061271587256556700110999872523571528392928957538915404;
Add 5199743503509464450399220629551878837923286057014948125220369556064985417703677;
Dbl 3246265849756137637855392563750407896285910391147288218232267086970774604537373;
Dbl 515270797134628064260654437463870047392432489412835605035233400903053615112083;
Add 2543058760103090780842008731290280019738800038155585464112498829907574433256951;
Dbl 6706775316032812455517879423446115160140682285180236050963636576606193944705711;
Dbl 6147378567545792998958688386648257581887215808511857220177318864789655261413657;
Add 1545533690436152041107539210388109240182068060433671918646659775367935425475125;
Dbl 4515520774558511593845702162365862233746271932874355065336071501202613406128640;
Dbl 6095253650366676470051135953325365802442880744544158238065014570045158659185432;
Add 4516855922069522477765957809840911578576296689638905946576773208484157772069496;
Dbl 1587391560102446463073853266888620752966614378040573007272647696644374125477579;
Dbl 6231098176567105104959910507775256807906045996751912340250867782952138121018238;
Add 2638284966588121309157657491906700438018655090908946317122334291098773261659960;
Dbl 6785929540067636988267013576842812910700968496817716983042361801010968595093238;
Add 2557668761474007400148363917892835927099821642679339439990625367107694205258592;
Dbl 6677680984756291603144642005112364354721053992966701092509331980772253102974391;
Add 3820439602987053596431339209766010155625718247406877713116366739471809677684562;
Dbl 3083045619184279834237023627229035400401605731030228992237798791654284184948093;
Add 5593773698489461784393366689742784289220609783185019646630911005778080432757932;
Dbl 3475572469543182080943149912574164159796502308265672602435378536444684430383830;
Dbl 6633183890942093883861870289194825749655766050851810406741128327139834902172364;
Add 4215545285433795703328850784288668627125522616291877281932792681657122339610413;
Dbl 975901972617780883301855900893855636608594292148359910249204036465355099152698;
Dbl 6814363027657952905151245494538928510880720111070584127240612866297689735735104;
Add 3789949061756947351962790643901542828912525113093924377988514320235225906884022;
Dbl 5384643497536779548686423658180748491531087847063528385614280397897200959107227;
Dbl 1238601563946274381453804417130026840869480924621046296899351556587542898447328;
Dbl 90804983491760892276550627304239490815936534842292790493915572938206087480122;
Add 1377337030499735801776174686472290132435701731803720473467046385397806611041540;
Dbl 6607836208079724674423142180141772019468735049767434943071436274704862290170685;
Dbl 2759223893436212107132705185923959982905297666033411374667386497491859746094261;
Dbl 3228395602792250304769759089172294536077131552517921785770651589695471356024136;
Dbl 1668990522311450163546243654165156300541060601515586111947940020606622774041047;
Add 3864229793151178777991839425904989159838974735499588773806459437035304976122270;
Dbl 1745831929873731883798111227361814999570637485346228873523580806423364878963348;
Add 2425688306386011540004723627984337531113225881318148370886226097065757360225645;
Dbl 2465232069155341707928739035096531489670725436297058854522094612271976464762044;
Add 4310070725974983816160215281739825980053061522000033692226958595026095552121893;
Dbl 4115097461303574949439990728700829020979920812014527505335888683289680607645004;
Dbl 3231403987277148754648148917892419492305074641167505966565360450527752155259147;
Add 2175729772188176595983370141719296949290309335886955790447155662708986060761197;
Dbl 2498987515516026271364370406566440815838225995508003578998410993069034758298075;
Dbl 6908332595654082043586997481200404836505542028156300062992164100252716096236940;
Add 6905707562051704764506020498626930081063444716643252861305094450707322489129868;
Dbl 756329508843486928155261819555420546832677443515846795463196983464610757957301;
Dbl 2886697178933529554986119536366320927746373657965521257643756051626293214075530;
Add 2850084130818698162946894879242355609936951798506084607789236149655106690220931;
Dbl 399111794951757937053541527783633125486710954363768526872021989739478219927824;
Dbl 1624888875193275903482433308759851013151730382822933420181725138342455438374333;
Dbl 5431723825583965497757977279152315221052829939542473114869279571000376656903953;
Add 7058466347374255859708138097440451447077098494444847658988323710702734381041119;
Dbl 1879062209125131669409034565471986144831515561622994431016127104703896153744496;
Add 1510539872254929108608549772451455305179910809110729469719009739943661761392593;
Dbl 4073762093153994185563275439117183989994675032650503900472667638171084836402934;
Dbl 5414114516240938610613289947931216988462276297202754755650696487252209366554642;
Add 3999824628762505151069778674292366950718132846699953739212965821618639759872362;
Dbl 5035645957168916205364987819049494829772716461583689026143124846393942312129850;
Dbl 6966883218580821019338442265831161139271894214842681614234226577825976088807639;
Dbl 5817404404418024640869240527155802170067247458409788506767785452532893325582263;
Dbl 1866060672632702186073739546916025399347535457761761895322626691391711345512957;
Add 4921567867755398711834355078101923068183904811608543481455456534917026025100509;
Dbl 209764881897897609956373308106262545754467966423916205189889039431164671226484;
Add 1009448165017631264372226117529343847677361770335217740066127297548019921558223;
Dbl 4232640413697119453544128109761363324247271009731925138211959996612785436928550;
Dbl 1268298352834182286390879437744159057226819890256401073165952207814010950442586;
Add 1624732037130349770777417682297375545611332241522805244998574074930512156085319;
Dbl 6409275927794383678635111404205450417310108921990888898393297840701757442339113;
Dbl 6319289777664190314519259208259804462310202178727057116373831178488067607580495;
Dbl 3954855212144780239454285332936636001996542235512045693996053326893864379347917;
Add 3236636979668482751469524666882740748365447637379566764992207712112326070602103;
Dbl 898467998460929939795307700636096817515036991398233145649811010138508385801218;
Add 6342861816173460567689042351778277231302997728883268782902298040872297839452891;
Dbl 129807887735552118290703661899199981484745144687482482286583490695897686915784;
Add 4054664528345551220278282248630722436203156328497631458780940277209587663841010;
Dbl 2116277115951372529110504858730753432754268894428801538155438011433766136228893;
Dbl 2049358966617550390550476576348377358262409057662291036450871240505076096442200;
Dbl 3979860855751036424246008987591153597140995000754048572212070935922440218230809;
Dbl 1723858623194696571627704602865669731097585650935529870526890665692049662938338;
Add 3870600817833253951379555272677801742364653618480719226816269025369881944794105;
Dbl 5372940628904701119471633853630142115230995978550139064854655378012097642440412;
Add 3398473354630071604459764567460523522383738004995153296042802819627826300133730;
Dbl 2666463784397471922689204970089648914016496087174539693827808688396974305982102;
Add 4281263836123085042855880699582077110240776586940666881241148802124713622117690;
Dbl 7084044210439604683330316535408412644405851864082996611172339377670883974362463;
Add 6974439419150352068733577149328932502800823296218849636941740246047375445647685;
Dbl 215705441678408352090730430790036327289974292677190122583600783520980444434293;
Add 3961652138162349506093182513371754241538372377012088907695061905305275541585205;
Dbl 927551894227781544304688505058714243772128886068344882310075321447049847256946;
Dbl 6625564379871438690929741295996692446245323458974059651167324624164479085874277;
Dbl 4583220156261418172446652050229332682767336511138960617942971367215935863975892;
Dbl 1221997941218594728562872993927357781374186239000611788358500402213430187395740;
Add 6386634642868066833781366494641542427222362387530790682323709880635533930144947;
Dbl 6792571519638518276323025702139864446848742213355420781120458404223753459870341;
Dbl 4809189721742029192719468962902934470810544886955661882109615811828103398631180;
Dbl 3338322421006418033700508545032444392070977359941031311705353370107224305453335;
Dbl 3333260890421274383787532109578260258867829688213557636844214853263134896583770;
Add 3037473423823103997656914322777956681452824549092995013973717244613065901162920;
Dbl 4281052193050678207164061237035517011721407784173180352233127915355921784323334;
Dbl 2838571308783043255681197180487896603926442609756016258549184310572664811825651;
Dbl 1516258412786241734959288899821052652053287783313450393693957645784421269539893;
Add 3069522932083924821913995065828809483123183452660661827804416630871455261256072;
Dbl 1215407140597133341079215388134869272417474677236985114169272766409647803746556;
Dbl 3961356847092697208308257041615894211516902403033476377820692117041403939801068;
Dbl 5457186055932527003052058649501949319830238330158764603334043739908272521020621;
Add 6731190468311094203349270870882476960677595944135709184630462049808018088173938;
Dbl 5104273694435437688903283327955263625538440795777589758281270474210117256971521;
Dbl 1709509339917994473279490385705786403368444021489267020836746911397558188063158;
Add 3002707657476943570281936380282283387996462853258989608712025892472642597510198;
Dbl 5314025078543842830832655795299488605198714444511933371043899753461699902438922;
Dbl 1619476192259664010229679680467624810998908579203887347532155905245170199517768;
Add 1424486200389706664202577095025043207368016772002959199710867161365169626600353;
Dbl 6343670351629905642886122776771207087694661078862472079236625732228212065331158;
Dbl 930252153751263107313239426760654444549367185964330999730827393825660865610902;
Add 2876674733878376452585654690315520915479170358448976031452407733413337149713162;
Dbl 7054879598171718583357370651039121646676589672702670706716100582091574391788499;
Dbl 1450072536581269394980236858632561226387280071779683194199263744284534379426524;
Dbl 616540540200990576829776009417411061520972165984683339268385793324040862498870;
Add 4708405956962449736486125313996417692683516898978937419605095611172079009910130;
Dbl 4383191469177558062770159983596448907318020396089035342279396766562656846340883;
Dbl 2577391880795802541027496839453895772613611415458317374141414818817950467267381;
Dbl 678860075581240313746867936736067928187569988874694355805466944689524581502728;
Add 3400717904112124080094902948367374214710343828888710254106894775594046950532429;
Dbl 2735903860771729990037627774742087393384055633633218432386917957597114675050665;
Dbl 2437250783938029449693350227781013294894354137642526986655634807940936500870183;
Dbl 4011437986702355596491576882337899989322312249497045842076566230477912987070353;
Add 6381548116198724384756311008421100682840299490370317418161766244362797782986174;
Dbl 3131398709543459806674114941137759043066906468062841011813953816899089313044412;
Add 1375680898327305756114850925998452436010794268520998428248739518241862031874858;
Dbl 4837472380767655346013210575612122171234412048794528868438101232111150691393050;
Dbl 5704800996703584453299175410003465875046741195657345193886720760904495241259368;
Add 4972527270154097259189710436901809459953183266825265975249922317406726065397292;
Dbl 4794029659066395021799862814669664943091798512467034284823149358811304786860226;
Dbl 2519580626661856548109127041572704573198059287955505617734171957274186084277864;
Dbl 5019254815970480761567963861377519630434560926432305597045908216287492503696009;
Add 4499850626874412783543557046815728976631289992287265072472220048116348815209715;
Dbl 7060699614226123429865324830266308112495055038298994631152795640867831468589114;
Dbl 4805074107192607032876909857045935209593939508325294641442545953206736646509493;
Add 4157494367492097672015470718385083919462151661290958784837890747922836935650189;
Dbl 5172022745609539177284724383371693000892908200839625471008987025419156254956918;
Add 4203769785051964760123541905616357614524196278393959530269270183325371249993264;
Dbl 5204727622714158837862292846325243813927576209725215029316354975433593211251114;
Dbl 1058220123878259862026159971298207892080946987874733187832241454061422600042246;
Add 5240198213459301471411488278597903346977453908398202733304991743792779660179739;
Dbl 4389314712420436692625186535888518995332651211456881002947774943321193997719075;
Add 3500882455727379370993273007908959443668271756472104372373816389762670141543788;
Dbl 6629819827045011100724826322764771452287231840821486137968109456397281147028325;
Add 4957598353269465481263025318983141625646822461435382467082309021374237533463797;
Dbl 5016727877478890080726223312103819220679299976588844810749448197590258414889459;
Dbl 4768032089217740420195754893427663504007439867081625276664609675040484352778944;
Dbl 578437002048994931416169791303866244293029864653894813544049816629964364082135;
Dbl 1252042436049204903516362170624206750346415226945844062386897589662579176196336;
Add 2343103873812077443606539286586832786145929504107040672506740800753521364667287;
Dbl 4387995366341806353556576966071275444502490136386373225356511321967843760838455;
Add 1275843782692276892932266804378855186096990965463536495504104844206538178501962;
Dbl 6558192437501030373459780511355989168372064402241049242551850260877756139813428;
Dbl 4171195359502953599761027088911306291818690849754657770689532400772116969740686;
Add 1020416770241282755561214799192967538810724099948075614335291036221713186912793;
Dbl 3231416262479546978471598335105016095913011903564930414868384221026243500130181;
Dbl 2155042381620541660917016967033848871946036732584675605355067043418094127714291;
Dbl 3070834232394108453488025986490750216001089881965873744240131591986300759544480;
Dbl 2996909958556537110641296789678861091224135654394690911403070217280137297358237;
Dbl 1843757811632868756155934192672521717760899768811065274474397209337125502503600;
Dbl 1146879383202509738924081526092552782901488901885924266586334408679485376132811;
Dbl 4898421594868034859042495211761506520903206900439081419847279305822005734966544;
Add 3122882605702831169424635646888208595407177633786247146587278313887655977306554;
Dbl 2764887140414737330115463398043168167128119913288228625636403416245923613559606;
Dbl 6594978972710511938324484932939167227738372803943990943605791081223082861193755;
Add 5867923212431439434526287716225554383122277776213410023183225350343963091573928;
Dbl 4930010477339492050289826356344930922171563892307816560519143670455198435632077;
Dbl 2836396596828335716259677587975028441988350507082180177739610235409953604507255;
Add 5791940305129607177741855349119268203747999965068457192494129048431881868205857;
Dbl 6495451393846229211786684234330919116546055235525443602912944960640990813307189;
Dbl 6638981914986626041432766019019714335523210024754487833378528628206743730825957;
Add 3106982130099229119702137667623236565008809174604194880904156106619495176700861;
Dbl 5420171095358604659148072787995055944209569301154937535311135538887595097376427;
Dbl 915707956838336410022141304131113057285166800619475710125404786965852194693594;
Dbl 2728998764886634002383047165543636256452801622954247375820634761018533399503292;
Dbl 1186484259252989714537986968589930394885103205803477796389217176318759155735564;
Dbl 1551614063419491985290981912033321341189871020753877333817196627033565245549472;
Dbl 5637778550525475531021086487404906015372331514540270882501291540772381774857413;
Add 4191545304802477618026753893220805400566442092590674866020227597789204522393915;
Dbl 3408159752881878007944224635804749779665158073531290229548674202720671150974804;
Dbl 6892671097861336159405160613479742735370238155504746417628061516565201807496154;
Dbl 1592613298755489021895336912462829803678209346112945893136774593499713943958748;
Add 2966893993946638593259843894534315529286416397413854550672708041712662801001764;
Dbl 4666635662586276801745825497603331957779918089702963004326985863171608134747612;
Dbl 1166058576576309607656483101583328061578018662184962456290930278456944210907133;
Dbl 3662199564346757797571470005836208033985230448409324698058190931360458456053832;
Add 2340750697643971999502333735125504401457541222859596238474790871890571754834060;
Dbl 2241145782461735988117252463209874238216978460453103093436857873364933595898315;
Add 1941189872148606541621458147947057996668909567854061557524033582278894567902479;
Dbl 935291990788799937210934609453616030961996902567189225288449852560763992471625;
Add 548242129737275447205641120481952474481747211462486452279664529918221372532718;
Dbl 2464156932869052898152067699616489604656318075407155271364963033217735115528746;
Dbl 7044616400919747430510100566186171794982067189338782727204122161491233565827683;
Add 2170689142515470573553676580871722502761474814514770021050781622648114485243207;
Dbl 1403140973370247408622732954663257576274031175305731519892415604244316811296483;
Add 2314172710305076703138085033943076460218302951271146613854067572815386419020765;
Dbl 2256877305077934532438245238075683202402672015002915413051294336193121100905108;
Add 1829498965609912808366557934784779158022293294962576546333657971641890934599170;
Dbl 467771685829818705042766404767125854912718312975609441778342077708258641493661;
Dbl 6859381262509527042733434679589853922514059093056799941333624752707700418962780;
Dbl 5800899184479463036127782340542391417880789190051298166171946492113905778338599;
Dbl 709595919021232374067077707538054920095871363693003871859954075563488240792522;
Dbl 2596444743123957636593667106421027190164500884541073375487041072542272544894528;
Dbl 1374975062845517530257058881252535515241938532143688627083659082055718204671235;
Dbl 5168434848937255291217617563178343821050126061428388268445152314625664928771779;
Dbl 2010716844742848290514297412617590741527474652155737851104710442905689677377209]%bigZ.
Lemma checked_prime_262_7ef1e7fb6b : check_curve 7115021049373570520238148619154790147474388705462401235557167350973679339567979%bigZ 2446587826789814622827183675120323178641724282491284384246630228160533192416103%bigZ 5728662229023946712507486938988315426142191638023019848016791267683650390278798%bigZ 2375332210768859566855391630004961962919917568985222145927644205214717313608383%bigZ 6573118862403384201176023954219733906573322856518568699780861354912478569627066%bigZ 4969147711916787125344737898715313169201187778204664053305531197369167066999921%bigZ 62412465345382197545948672097849036381399923367347288233392051182395311945473 steps_prime_262_7ef1e7fb6b 6542881523036084267394808238570903039501207791334623559801319234678016950409723%bigZ = true.
Proof. vm_cast_no_check (eq_refl true). Qed.
Lemma prime_262_7ef1e7fb6b : prime 7115021049373570520238148619154790147474388705462401235557167350973679339567979.
Proof.
  assert (E : zv 7115021049373570520238148619154790147474388705462401235557167350973679339567979%bigZ = 7115021049373570520238148619154790147474388705462401235557167350973679339567979) by (vm_cast_no_check (eq_refl 7115021049373570520238148619154790147474388705462401235557167350973679339567979)). rewrite <- E.
  apply (prime_by_order _ _ _ _ _ _ _ _ _ checked_prime_262_7ef1e7fb6b); rewrite ?E; [reflexivity | reflexivity | exact prime_256_8154127701 | reflexivity | reflexivity].
Qed.

Definition steps_prime_286_4a98fea5bb : list step := [
Dbl 30331860656372100846333867866384285557158170915158519859002099645402418409554643148725;
Add 4613725088003319987473310237662965279135635408131874624450758037176789535103497499443;
Dbl 40364748095831220092370786406550030697681864594927872761407377885780790377116816878182;
Add 52015106668459276101245555795237728872515879457499174863566977581935131214348152677994;
Dbl 23850496035011676073183877307229164047322005540949040052252959037724019644542540477164;
Add 2963412686990907839436413047193840786314936989278690788372428680168192527437936988890;
Dbl 8728134729623698725777974956386126030699107114391749983431557307499470774539980140327;
Dbl 70095145518406422461152682938506416813709028717273670070379212203148532646945716577874;
Add 10803561138598880883383303384865553056181544209462584863892499351360414155972736552819;
Dbl 58892664488417905505201223371891767910067885463836040617423038057252365857458287835909;
Dbl 73651095025434891855300908957410362095962168503845847599132346769654067470947968016777;
Add 50621351883081191539080460575050847520159653408984874453307492008993225318104044359768;
Dbl 72667381595917493956248286426737095658266525563851421844304012735499091895166253727799;
Add 38606863703802224782762957903047161235350063116424406082754922443546798480414651285303;
Dbl 20286134903330441202487032228891190120077342826537424992877284188434619034935209705675;
Add 33879218032370248088876009833052524174418324600479939900223675229258376528357278829471;
Dbl 75738141123862931181697035151640439211904050814278261345575424666693458743730919918729;
Dbl 22173915603032952761726423900123866466214556222179453603695136546758966182005805877409;
Dbl 7265393602649713678765942195562600422372911183835721672558666289026043577434894957349;
Add 74982559249075673297619005747959524791156330073960627277984548453563922256318373939515;
Dbl 51651547642595007057051749432117861933069883010373279731510255932366827692350468924306;
Dbl 68455055362576504380579395944507219316989869188382471593291889220243515533892429048325;
Dbl 4140646531811943384517477608466202393217606128344494204871126443792493334861134926942;
Add 51997689464923494904003204964198654018152160769747980955129719262484042667575445557987;
Dbl 35454803462065754404545948018646035966932777741845325998147870835537435836704465061086;
Dbl 55390989821888519415837371796798986977869835689094781546879508762316691402290993632104;
Dbl 4209712613078899628071254432757831732023496136122025028021382720076807176923484365959;
Add 59694700219867954352191917967257897406471068313700759120775791883707307904585068181651;
Dbl 49225042898190981203689985969480498420065996504394804101315347752876178783322873872569;
Add 2022888755575439381221909450403491938360343240754728402514020805385659158424545928564;
Dbl 18924201410150402853710358033162444296811970525518333392794793263014082396851565187967;
Add 52215352223000821499044048405003529579839262613623140246780505915975415963571277140236;
Dbl 9785052853354268750106491982516001989625376862637091943690623647469359382805951459535;
Add 1893240466651544807879393569089265006149569386767047124224763133505226165422588969602;
Dbl 50879576634360304048265585115968481471287404962231781407084140691968082580508900561964;
Dbl 21838088768630095204015602517878967732812730600882694664248705689541055268438887392767;
Dbl 11208257801331978780967219551956044375745008373821386601044997351440243842835783319240;
Add 72735146440787042755693671995212348990928368619343744191323369798441245681279757669850;
Dbl 69819775197577211479887354023056149414446484215051382528845206081761862755904613945917;
Add 44817221035830618260338199015939244664401863465012401399059155550333107206648773745628;
Dbl 22758448056768355261847140441701944595535141197836665079038831724447209514995507284084;
Dbl 52704544143008840796713863030772289885758414290436645593379709477038441306008184203328;
Add 27141109655081183379575175259742777228711015166717138201179298078017699726907782316660;
Dbl 42160908760409491748932652275669522358969542769959428192418371269022176098547226542040;
Dbl 43484419847838665475495899298631445646119689992850241992372732555527957142569488149232;
Dbl 52896832730678414973899025982178117203080093559903704675688431836797385093844493903675;
Dbl 67664942404428379074126735456209403994359407890587874232592047442528036269589732952873;
Dbl 65556461382481855257574230399571797330667290385052079931710603388608461570488008533072;
Add 13094405180573232500979337357192029746597909358384669874834614080437162238118100143966;
Dbl 46834265399473040612456392365226567656892439694919119967671938708732248958333377226335;
Add 54272263342089853041991498030118138915721152724266081427097041479428674480206493200304;
Dbl 34925735780619431132402243951622862309537352852756091189207818335501401853180173169006;
Dbl 48320336677389802431182410318666697072875791820713459396932912900148252661180203426398;
Dbl 35951982604677774968796200215469116359635244471044746591850332040980604312217803957371;
Add 68935362573755647775376985877447131202663452318411506827046919885297724761020102793878;
Dbl 73912187003207802434247277429877394039083139008884054087584590400200316298330207559739;
Dbl 22380772774062362726884566012530322128578379500669964384086366496284875563832832231620;
Dbl 55464644754268970025899073352333854523181202426641746085614256894762064977809111153858;
Dbl 56024992845942391156907127686599630704434612299876194500460804575355015107499659010967;
Dbl 73863738938585964330763811471878460034331203514332509476490133405042526834392692540652;
Add 62092099590937697024876161681223643977206521348756846005622164390166879811431799079442;
Dbl 3657040323722531057060828547517757318465023388834713641553215156317189177454646503262;
Dbl 40296601226117769240807126559371032161355394467346658089768351958515707018659688009322;
Dbl 66066765484508295000723504599439496256239949850332202447479662604588952153375327060476;
Dbl 42264887534437503165892556067247607702767305108482641418997444965053145953711024915365;
Add 35856578796411970356386916479176858041085237744031462819681846128832226990731018672374;
Dbl 16320100271673622589880692881041001291026068456593610455870597199426052465562971298650;
Add 33173799085178697280160428480598965619667725635104733141391485017804335531469079488200;
Dbl 41509934517106966859090949456209415054107223181481615358916060920128011150347887808240;
Dbl 39933093975721085203612039531442632044099095370578336686674606859845559149609557094041;
Add 13939924928483653999986881654467338521442798301261070600879183607586409218558938113825;
Dbl 31776113531989403009585814148154742549305099269821877720277994528972666017115394716786;
Add 61963394391135951977345246939143906803077697761969550090933221230732945361074164949250;
Dbl 35141992151755754835643487924510382356656894317556754156015211926395033087188095231519;
Dbl 61348444295475777414596196082757664467392335859545042705227007825066002064965593271611;
Add 61733307820728335767034894318202057253421742438324549405942715982913062310097229112244;
Dbl 24078991468906149511326210251658569199871715629260761634159917040748739294615942175395;
Add 74652174871567245973467245495599504724287716969130677204031381476465379559935666820543;
Dbl 58344388060839341344341339123309545702279890982864872496478590693165692732386442506369;
Dbl 59324073286763139083283886405506461816484789207078767090683209449492166618036340563393;
Dbl 63795364099961076573541681794803191520193307994233840631585637678394396205601676249038;
Add 61925596271610108982276663431394143908819027549305575322307086703666294295551112932172;
Dbl 12437280729771384084196081587916946051127873754281937100122604811452263390755834213785;
Add 14989069638734997892985292288337049071509670500173293939465579971723213641206260183110;
Dbl 31804545464027879351221140599287105266156540025475949999939362197177813305421953770652;
Add 18282472154189074838281431364591305717154448403189508959247342779354534482494255929489;
Dbl 67170954136718616920645199315834573822661816304216469563546006369107709452269797514125;
Add 31145422981330235829202589998788324475730211871189368200215419071024029939961512239959;
Dbl 4961446552827718801317636729376210120902035192327231656522976197475948317272909233588;
Dbl 47560306336013698075677833818382052261723763388893968017532589871141075344452226969826;
Dbl 27297369045389699984567847184917228273580768080689776901368839266912569540610256745465;
Dbl 55002956094509361934354624924130089507201557758025602978459008598316827830549289285343;
Dbl 54559112466646814134553606612775433324943104714517334938752520263282346109508752820174;
Dbl 33925568923920661067739919917122098934200341341252325849648496468066374623227735427894;
Dbl 58803581324391022538478736503919274092333456994775494061871587081808834033202870385221;
Dbl 65241803002357317536049745008127039288735823357709458827966259293172753892022388161375;
Dbl 55087630286736058327951596428985950707576291910670827405430252066159877732991087279684;
Add 70330390705635055190099026985895934922048823041544684810814853596786840367956278353674;
Dbl 14602884736121368943565680641426817239631068929031174661113914337418185547034438832327;
Add 25825852572625072923002302663942822559644749900939837692657402154605243913554668731484;
Dbl 3012629027994534831511052095823809357995318662445886205514400333228585755183631480131;
Add 70768720688507196358768287441359054389623002834637600014490561230763248550032910145279;
Dbl 53239467153587012109418210213498770691238951583712337719409875901318712497586417883105;
Add 23624955119507119890576384247136286253565252723201137002581705254519058162582027193807;
Dbl 72371301357591800591689083055755123988543489764138986310877445375332384175704107329275;
Dbl 30049270176929365543293104218966986921329978564707938811762657271916829064444178596501;
Add 28518618111423938367918101720078680050140092682580733696712968779100792061873879223709;
Dbl 46563057731247456048206286299752930000096481990013929643990168127072573828519673629063;
Add 73616800735430416548050418823173082630636792524715849982267718395130289384741447439453;
Dbl 19711684320872402848386470536234936495414190796820273018198483499868017676637934583839;
Add 45826885531893039428128925968873763568300326945375780378683848860395031887782497298236;
Dbl 71242520228401723340068967760253975468344876142827654534977434658782306193591886354010;
Add 2607594334894968961136683998290251041357056045107811876890857047279176113256027255430;
Dbl 33513600610665191627131705891210972992214472132899621714026088613205126885327615481271;
Dbl 14726772015662199598815449620313216341600705330775242563625819033737521613481484140112;
Add 63266903695675911783721740701678418374206533880035274753481509205023889635639209457197;
Dbl 61564317083290449123045788772866149478938627267427795585414623010415029287113882785181;
Dbl 45541551302070946118701681896566770884480493049623663983671533242423164360518856321075;
Add 52462497373877626507158012305648252879216760693515929395446647367979964829019299251695;
Dbl 11480057359217291325909568370491654729471421674164606044555704128692833656984559386279;
Add 60290001839999946073109134471309572009526827816507247059261450513907049242502724347621;
Dbl 35561463016458473288766897734460236812196020150317544352590917177509149202261254298512;
Dbl 14631973686617688759871182479282300869950130912235228734204911435821376310793788619846;
Add 54192078688792220181440929492773803687175591162928873246136839482083671092068147353932;
Dbl 23484096072767438970567490507598013153307025768273936008401011239659493333230880189017;
Add 39434867099106088360884083181511044196852090604435262735068864696307589394210586698517;
Dbl 65480402110720549698227759903219257407180547817996481627831496619046730825301921325609;
Add 49330453346943732538308748293651574790483830104029840206911788326668464461679733803679;
Dbl 55058552604336528416493728087712719495276942458674399829406238468133936813700161381891;
Add 52328960169715739055003680449294137588924204215876418478910346678492025130501288079726;
Dbl 58281590709930047279683102232267755111773521079947052171961091813306655011581590654976;
Add 75037173561142487903774977273058001684816855402944527467527351626366678072562558961597;
Dbl 63111842126657903227120729415743847490239438040035485572314153965416115031132517834994;
Dbl 24842603160766207156348848825913022637553280844053137204172071455969685527395935649683;
Dbl 60182435241134671495995443294142498852724786459558806446888494081225443941922040289290;
Add 26379629552132352196430286778890857251435227428419308570820478598165366792831726569244;
Dbl 66559990644437853155354095123208789143370823713169395994611920610603408798323617188765;
Dbl 13937060022809734735883412469475015544415029297829351701925674592531867941971058880002;
Dbl 52561047147315649147802922250094914273151622157102786182236571191571408571272024699359;
Dbl 63157649545755647821256385854512804664391203537150641688500371979014998971291185969667;
Dbl 49330355770935348001690975051646367683702586862204630572164554492109146312880508217267;
Dbl 42354570461277374801145402577461545176927524842840635682805119835310772932791748176174;
Add 35429072845687003709040535144323615564201036058100387835717560525932146932738292113163;
Dbl 15218470847323087314812958495457511793821601491450271867660057066810230061250314974529;
Add 12791017035270335513085404716317728883717968831875413176398375559408215550171908033464;
Dbl 7911539830527807335729685371412980562103440280506022236329707343320794244098326030699;
Add 18674667286403040489668114284765923199549122386243573677375949202701241198766151944189;
Dbl 29594844203232344259148381458664208563430099463523207979815576735520353330955463333587;
Dbl 43339399729090801215003539630621445575544176543936997586041030032606189922974087805907;
Dbl 20706627374420837376455714760760936102384433683343319359996255500071298661415837619453;
Dbl 8672256614961206746530374104052700826195446333220651660567909788572575400194051539618;
Dbl 63792330055823356788858238352714311446341803131356768820090807402239526875988438011691;
Add 837171504053474902081188755085432135807771366618699363506581522482148407136548117141;
Dbl 44525806902686720546360843916588038345418060949433771076690467612941376205794451494496;
Dbl 44059846851850609045050286511777090703436558714501271120785504805382907583702489801270;
Dbl 44231070259859774735727839165318388368081272329880100978025247028289199023530168983968;
Dbl 45309638656160247411852995925900746886257819262365411893448600129534123614799934562733;
Dbl 29595984320079421763933136491260232110778503651412359278611965220644734819914758122830;
Dbl 38833185641864298901976197970321847220907475160346779082230821537332171253579558869920;
Dbl 23737631203832393251438141720037016379218700915869181614161522368504125165352385961059;
Dbl 35295731332458614764867324907898069738958983938180118525157642284596066808072574392849;
Dbl 27536168879292497103109640427309198746757475992610465122038061778580644187933164003571;
Dbl 20113602261257681154494385994104437844355980904620565961919105328747588511251834714934;
Add 16914583726156406306619951966809160680163236816976524972628134156903244199281244134063;
Dbl 20230288537862232536202525555182765860575586624430115763747285501518999588141034237753;
Add 52096670748333866098752294253261326055358234831478388046676907114903357446943109784014;
Dbl 41355150951358013683948672360675640123432356824542081414037191153609414389615154653451;
Dbl 1819245280586763550002164421197683293658283980185501513235247354732921096617678300511;
Add 39928783152557353723440134737170621595375493317978966046869564696880309742202658004047;
Dbl 20031104956252464855650433894772758592169453279520482179043427706789706723348962272918;
Dbl 18125728035944142838687952424272349911904393025058391357759228895124806988565053331836;
Dbl 66677802196516838647596282320696431038643493058377664078261226552097553300300412296599;
Dbl 41705486348405469042941050211802277978996116569985354920793670689410411161617015611663;
Add 41898780798387340143566798480653442765890874674523250535332458207203912982414325030670;
Dbl 11444309323501701702241407144251760718244776616231267063078063170957288693904476329041;
Dbl 42635125235845558096720557898739519408689748235740340669820689677633030533131580026998;
Dbl 2771045920791938437331123001224006956538150935612275741870748721723071619355288961064;
Dbl 73702388572257162035328733276902001759464956566732519077180367890048438601195194806243;
Dbl 42874132388126521122532546151210038660990893728823771069231230581016110967874929832691;
Add 44457745312472066190511679438903731244627408438495332319956019363249431790161296130541;
Dbl 19203713520227778649513917862405398931357316092146841685738167322040870971407923398076;
Dbl 20058235313964412027253707488441846212378780603192949482291859049105373400534702870604;
Dbl 13162967055373770722771349661689047547180571646739473887730329326424244040624668612319;
Add 56184225115660327566885153217858975781865600495603457195155877299103047937943328166004;
Dbl 75544944678026050936132233460654616523220225546897233253979051019202080204721168208038;
Dbl 30943785670845677739847678707246566146184322714139805129939829261683371126571816947100;
Dbl 75061630003338641833217251381925390352678659773258381731449116704460170985347205134576;
Dbl 64203486764489329881662934678414259541276540133054977923370884432584050782357616767554;
Add 9461552209335629030966638213687157919660999842548593594593675646205584304066759225262;
Dbl 63609113490985555173764733203504272957146341240158726444874538082291632387340750204915;
Dbl 27269622238817458311219873630434941394204728729906059495896179744333007147804657288403;
Dbl 71062342198640998899658771430032287877584650655499673722334774231393402135886666514294;
Dbl 47444701852561174643017508972848701193193046254890214191451627873934596590345837454012;
Add 10071280895349223328186134906205581250207786136672954250166100255955567120737480499200;
Dbl 67361587614544140247890894798865134101343330594945545774288066888861799974926355230385;
Add 42261714141584734297184022945304194268876610616729469620505927683936904374145516672837;
Dbl 17259837445759594025211844620798371497409147892066067519704885030778156501690282229934;
Add 2860654742580250055129116343035429250219849073700142762695758275975506690212461743000;
Dbl 6586465714668980136771643304801269301612986357798792930128781077898115806475388790648;
Add 2760574569370714794608482457608391076745407351546329130834232101623578455819681928278;
Dbl 52196921118086794943764854731337172070782244517453784779338213449336297510222164005768;
Dbl 74400416227076102776944963522123799675904977930426700838888513212820607225614691514425;
Dbl 59171094622864030410378475780385228535047658619347469186641678982941881902767072302156;
Add 40169887176080515276529716359957108175909624407032956940402687759522953244731158835732;
Dbl 10600881196171751158538834381280616136975088149178574158186638231312680860352559660227;
Add 10653760197242462568665868817408525912211589038140584598553865259335419917335521996438;
Dbl 3459867553703694460446404729532631364884142256713390262115575725265286996963598167638;
Add 33148561836528424857748073941759593715200645423369312427266801558692892627273912521884;
Dbl 34673515134766049067047942233996855196370215967383307686550908253414655629679927594363;
Dbl 48239429721772420803887274750446899541564039518637500354331916720497212036953963141657;
Dbl 8039180990704281092011283664123007123520719138598992934217731900258301815077645382782;
Add 51016115398557028117498730478349261977785217410698085462592509099444799737159743045764;
Dbl 30597308672187449788146372857999499436842022095783686723414857400542467439994542309258;
Add 32022007129267731929218681499763595276230484840980647135492549930675401478460802744246;
Dbl 533826032138810870425280850082482249508818519044107919012877062906929609293871222903;
Dbl 8748895963867691887797376530957831542384265403511897974064024676066105352917966756225;
Add 71861657868872693343405470715367781656409849193785348921830187247175907182159595530813;
Dbl 70546055097391328115742695565089404977736486528163267636917023165458549066415544054029;
Dbl 48086470220563074801571533405604198382217136328040664375906006198742640489123291112484;
Dbl 74126876602249385503515530831549706891572474506300708442478156601785371951731188060208;
Dbl 47996258874039878569316543885975239931983016766096434524843953625264298900125224543964;
Dbl 36172235813047868560131634640446799622209677427529005745892698480674851148833936223274;
Add 76287809791947794395876157721707482430705401686100311361610136049108956038993193716080;
Dbl 73434704350227386860757950341482822346459436737866955396459973584690465144578255674635;
Add 10114449067916295503833576902571440794439001716972898693191639469465201833778416016161;
Dbl 16664785540150878519252743612099635182078744087354300813685310973238987068312023821132;
Add 70612969019546280781363718213988418663839241648253808033192882972826895068256982307071;
Dbl 20927587010134562938432607803625340548214253554866311543365845600895351108711767579195;
Dbl 50022676761973762181954899258926033042777307636755452042857000133045269339738094685068;
Add 33224266085848953669352691200102553336751705851940579925010211906580760067821924602854;
Dbl 2492484938868577193993845998683267252792232451664479399474580305728894234728321196025;
Dbl 48428446171774274249901181970526752940399678837350486999778317069775174301304700925403;
Dbl 55292009647918380060134593731482481283667638155607743418176302296169886715665272837979;
Add 71073784333130192055493257030524434883275303108647652422285812681623003041341722930658;
Dbl 10962715243652760733077407562157733947441946369039438558618822308359285212018431185966;
Add 479762612096824004964352248282300521347400668718313807842886249628950111323538827773;
Dbl 31297073309097156317503481917963737192726124194263260481740563244065655403245207651684;
Add 2888665761527674116798722412315970061739451119521366181594529061073854863420164051139;
Dbl 51671244676335940014931429835343998435419875877412389631642037136934756092162860796683;
Dbl 69256421168796292500680672037067765857353707199024615107218709169689536428277307653882;
Add 27285885263701501832493817072466834941333071412623375148838264092211466417127446439925;
Dbl 64075276713060869496796636273136863311085774202376030883703436417637401730465248970326;
Add 40509993496095975825126082481631487869385028452974913938139057056829818162206638501000;
Dbl 27789594328757230905033452357925885142552490871863318506324668071176163901338732602331;
Add 21645855873107456025721910562951335025462301146285399754131045789207836548392052807375;
Dbl 42892349278461480997401055479930477987070699378414207608675929967993712179944731476296;
Add 6127583540616011929497032296568881045273711765174342274111603758858068959322238642979;
Dbl 47208764519940337314173032947371785414293826626409398461929928250384638003154885496934;
Dbl 49267779608855012959564018662871717258561474034747677233115709071982410396542970759589;
Dbl 24872258601038671219429501661055669786070837310815562262361207906339625100436751290064;
Dbl 40753529436260499862588539893108333869361996970220364377995424310846763097742147989401;
Add 57352018870036091526720133813437779544126622571153585986704990721325073011107761767649;
Dbl 25984108703139851787770076519103724990928099004284269707115827311313444857301382187552;
Add 67918798556903869133285429014468157432682784622829564743887538505131196794142603392554;
Dbl 29953049616050811621910027694732444670292533787405173792441028005626012975520394336339;
Dbl 41436167384896520574054624615721902005242041203568327461086584504514051716537165301178;
Dbl 29946032856351075505703963476041286191990433003582315010963925334200163446299225143320;
Add 4167561911842799972624487894916309296586126785719673770401157167771380274746073826804;
Dbl 47579447902045424030036480824946496771569025183579001414213200729724663056668281332319;
Add 39861737648277131098231907029534737158898725838792491831369977369102188339978822178786;
Dbl 69107025131227179229235074947554639286666134394232163796452373335338553402736316144123;
Add 69630189443654712388742337888049253211758442836404889900275976708324205883555458931329;
Dbl 145532818917435321910555361645769041293770364839921306776270258966579713199017099494;
Add 53459380076119890431312173397619040228300692597388294885151030941259075394445924672619;
Dbl 20086450664114384676839622463693019249737327149802837990157647660044531909616565039292;
Dbl 57541907288102143512835466876628854926214098219673756273103438578532533386693372110786;
Add 62893400991246000434185247136808501966828231100352048248003134662820308467443613494350;
Dbl 67849065306005519828750533111195867716856771236128087821803333121374162445015901795943;
Dbl 48327637717403458445582622563221448054906321424805869697508740650253253594890846904743;
Add 10386760321976358094981839435715784839180452382715329827706092547847404666035790758413;
Dbl 22978991803843272333565303023042523727949951019499094951754285611107463490892011368821;
Dbl 46778476342792572653256127855290842949451831712627938750488815757120957555557805787255;
Add 74531152421447901700098303949345271047134302248365521422659104264080284179075185023149;
Dbl 75164554786300418890339593530047792248201493808361936375476343607840629505039139498487;
Add 73312924305763925728643543291560430958753294740565988932364539376361212017667672283856;
Dbl 53129300044943904930648424652852968198803692529313975190659275130525869453652650643595;
Dbl 60995616578813346054215780347211113218930707802924813017190658863295821741783146836280;
Dbl 44127811061547599656507371340265326050714621073370556877979175286694148017591512819670;
Dbl 50464333815367408567950526421305212083475423473514527540768250182045358280078850013521;
Add 30108743840912205336886032732530747721618249905588367397347674286495082991174724777913;
Dbl 30670021853878820200360793426568024673607734810772690646396221605403703675431120103694;
Dbl 45304763530439979793348518836656706032220502399870246773825483237235262884196179763553;
Dbl 36481144463772844372009282901046700203690502545137973699398620788151382851532621699722;
Dbl 64656503281241418736728890266744499416098647917529199435928861611096202123790758906909;
Add 25014704542796349405763753790735109208575733877545691059906875556072357679449235784362;
Dbl 62984727760939319901998142030191440571119967773764864695114103923650413032006030759752;
Dbl 29418724246203202482970624043663394853249307238308323199522390472757259210501203829706;
Dbl 41963060783784061775539400354713556081562745994282842507860551946697721133477989750726;
Dbl 72912787197419586033873231081024991115489845791042518365790913910720837244586037203732;
Add 63575307352621782208601904212574062631819649469029060587840236612444807119883438708996;
Dbl 71628744746412378279028856002134684496959484848098432838414034501925409822012895800462;
Dbl 39354322327495618708960310998200091378226327307574334472720261407304513754116001040187;
Dbl 29719415066354221275927448608569582439072591690940238676992363159054969967762934757089;
Add 43237288419640858564749609680985732129732091989515724044491321110267153582860179379456;
Dbl 58513240342231841007359970011676933962512469406330416108998891687325515935662308063580;
Add 42862626778037387488255764457332497773439868143897361716279324768419085317499261167259;
Dbl 7310020181344411088965983585516757657520218160115195679717081122675534146046118592935;
Dbl 33835538057252588568041768210061578441882764854285074535245459617175509743688083993058;
Add 18219100305322011525680842873661417595603247315351365282262632432266841614212595904007;
Dbl 51447253127771069694232101411289164454686744489589204779538077633338315032049981296880;
Add 61711646866049946434579203485253659922436536460295651143141421307179753496483728289428;
Dbl 4230836978043586909956085186807215855919232629224322434548099181489603238041418081204;
Dbl 75705120444854945577210477386753122664590758832809987642641829018269970079057013447;
Add 54979270688304999564807599345449167055553421463535467521107055027943410369274179762954;
Dbl 1498731788415379745983533319770636279917504424364672643587524349633735646728330575037;
Add 17066166888869302934675811070137992559858068186756520479712971273343138069711807945857;
Dbl 45401537726401609563770966161227183324395359178430149850736476416903222272662694568108;
Add 39564554279829615216904530523496871754072848091148643021964074116594425105696667815664;
Dbl 34589414190232701500185468938952479364157970971327479908015791186604191336446232928453;
Add 21453868626606523158358254914173351680892556908209561848432457248554797552650372946240;
Dbl 70863921667252707855122366136476648087751215933681850613937458625002989030468198490550;
Add 28496327690622769802315765740574192319941114875649987954498719317902824996328179704918;
Dbl 45633569422833463265304396690025831224845940858027408199725824891229625033951211274508;
Add 1457427748118531557783256920308892982629040780710586837867994632293236923653040792073;
Dbl 10667964337339511849550017631118559329840284505627991208138062654271439452585781838911;
Dbl 53221280062445441395488047902473689783857918522362780125117244632838790662198585077094;
Dbl 68274523081451787430554464616797692786544226788183509122569236884049399273417029571690;
Dbl 59816882134179073398060813490505935105410845771856660828404324652891668292885916942805;
Add 17874141271606127184815186937472539115711693588011184080937831764795356089796173890658;
Dbl 63413530846699672405918723371471442514345290340101898898275857521228186126814350291767;
Dbl 73556001516730179485407324812409754021348434553191853366934934471540058807240596174790;
Add 9317004522620709947550276883128893406468923816732466093189148876296072156177667141728;
Dbl 18312803752466103218907453721947103074662795667194330182993205853742799871834123989526;
Dbl 56566272546204570635413611342206816840906591635013694912334845717907851473617082750797;
Dbl 65094749005775017189566093534943675928856956454392010073929911186517315110657168845054;
Add 5732267264282404182700739650129785768330174537824575494152586936356912751725298117450;
Dbl 47402446351262102505529803385245501216487218843413846750699794728024783573452658096792;
Dbl 10155070663325945866872174602489749508790407841058105278533607640383355903184755808178;
Add 60755552326842444594302059014958505524378405596113319664112006485389845567841709174184;
Dbl 3317109910605418491737577355757412643549656565718820402931336872620382399719451844059;
Add 65383995910989039471973355024817118680046867140488127848875057353709914932833010277838;
Dbl 19192802825300492559293294109906580570618707569455279347093759404413372739992996345732;
Add 20329028919654004061985995346235451968245363443944698326379081765857765691797105381475;
Dbl 6638777999453911394252554268039632647023749894991525894131112794556035815203227809237;
Add 65112234425982393656291131378003373926045934078607520540471115345806958867246092567497;
Dbl 28178534645525146642209618725337379411295185193457982612710645467460999700134695468743;
Add 71622890085958389914938022877650518332488424452742420951019980275031184786909381686178;
Dbl 26524616981672592269383422244940812468190875392617321357934715429270359387531755822062;
Add 10781128311709663048008144718887037532326533944960256227454506869349106903611220221883;
Dbl 17878370665708985205519979752899917311723629535407534492861786533194954615909241381691;
Dbl 68772018143051926730582226963653159395844148593741502523419576283812780790908250031757;
Add 53179850099616631695615844540764035733376956424172370348251555265424564062323400795447;
Dbl 71174590147288286510611947762287803510391623531931431111366014115483755395358392289081;
Add 71648516294036030509547951187008649404366096924981929269739975602546698037544955174903;
Dbl 71122537103915582730764753648410088387507294298797709612894734733275389481174903210820;
Add 31698503350660375557449864284313245624807394272902199576581607405037946136932300519275;
Dbl 72629423811178743147813716188672965928750687317632393237281340822725473398172598948015;
Add 18497724964632533616115372284760079800170434708914844025579638392793827284952708139623;
Dbl 4327749110167247889335911833824676528069967012681332590171087733635124749607266857217;
Dbl 31491071789018685215682149800418065924225879964186041514522069655064889421687259102633;
Dbl 9511865589001192102773240845544050560968673581078776146044838532980209240921213186300;
Dbl 45323086261530817902504355947417408548245310728429065127025192260860633840769526877022;
Add 69750285292072635685574537261058155223418724761740328009920518985437899633111387650763;
Dbl 52507207381381861549269182755327902023865379253842080195108490181616901514756104692437;
Add 12633619134018051318610145303024529192740654755242642794880198245660264678179103095258;
Dbl 33787971537521628964925167145406903070475872656322700378400361050038409114611196469301;
Add 36049637652435245622070509004505578644232526465896778589727528409036460818938292378027;
Dbl 36602068543959289460697806394013090422680913205614056212923033148246983373691967850589;
Add 20240652292550431710374502271320354624893259356670243578037641149996495855847457231986;
Dbl 41892822584690758146125154774851752594444043556932020930477731585798505888558894253703;
Dbl 16586465522708655019643774623797850619206579938382726264272725494366887507025985661713;
Dbl 29350185845387348332638656064364619768829594997731814329176847515563949889918626695417;
Add 70041746731433506300469952701811957136583255504422317286302174738116230868648474108623;
Dbl 49329680977186309737048831364398227004101538037258786223287569428576976192160417479660;
Add 16538401051445199616912158821738279750009598668453771477931087579742222195795102434440;
Dbl 55098758509274358280293572231449750555513202958546479180438078857869966922861954013409;
Add 40973867806294029400100937581006866460715962834798424467694974142408735254045085837336;
Dbl 25469358188144606702998175399785241800113864210405634606621013840483940555851617223152;
Add 23093414033347060190636207209711214586008853691031221227151456828435791956581926915320;
Dbl 54547919938374433485398427321047171618335455946446288801159939594313104686564423511322;
Add 69996919084581548448305233675814603885690936544551702366165292941896024782021070150166;
Dbl 45025261266526903716351322363702174270612936876285404019872696957703833430920888017289;
Add 34256234502081287128924602647004500420820476427184110187237072189845925582397632400437;
Dbl 804270780831530459254195561632091516601202287174099483142899640434419090418915081088;
Add 63904872406253113230769960669174346486896291474397091249817115213358246478812175474848;
Dbl 31117300193044581797730788674235358397891304098261428073990701661640484268923755778261;
Add 62611558148446644566664922159458308963769826444706882875684509945862947826458258246892;
Dbl 65008241193715739468296759948974171869966353073163780942925420968316023036741363791742;
Dbl 74758685857263533487143858050041830805481034328931889615906956214564523583977073837143;
Add 30268984835398741208680461435315981644758592443927786118972669704132473178997019100565;
Dbl 59349418704832791742891017739367562528352534805443398216482875481784036394337778106887;
Add 43121158922048217030928366417121520400110161129646317614208896724622933165096359108614;
Dbl 74535344286667600381302483157291337465824026573611993512936073816228478128452512951312;
Dbl 36336701093606170400153150912013984528135757019854638436556609318601137122410504730882;
Add 22784316997754739844393839642243466126443785484737348826991531045397399350373972277082;
Dbl 1616665563271828161124011240512554610842652327525663450640369320973102578257706820905;
Add 25795984772575054106293512737835078322299557276327307930754118591593057947738432220346;
Dbl 38327979999705023664695086695433479698096848038579920749275604205212483084829179441755;
Dbl 74147688353564141458944416918144852087288856572322738328671130565606408824943678523981;
Add 57914838985846705916117388181718735512702633083034364068385323337505328400543423786195;
Dbl 49442612517599361020645839096148173351734288132312102707455322670841500333509239415397;
Dbl 9009510410382139506425499869319670478775459447517464456762311138897846966589115574843;
Add 44229467482555984024080645737986229124899839869512244640203214259830286316240941958547;
Dbl 406425439570371304167116244711896575936009300715332590964467773137903248316471216605]%bigZ.
Lemma checked_prime_286_4a98fea5bb : check_curve 76385400291738482149749594516630281136514644927679864423667985256343937455665537000891%bigZ 50530788444429427368994054391666739875505725666253283964512372230582325479902381479057%bigZ 22922784603602933624930889771132258275659274916033485520101897572305476486512353647784%bigZ 9850676381796777057189025072505277598024243756119783578568429932237317116102012678184%bigZ 49400888798811532522228682207043223161197406487650908140632817566755690287313788223589%bigZ 32937264542236721534850971705960093060744866549972829376057019573362251275464459375023%bigZ 7115021049373570520238148619154790147474388705462401235557167350973679339567979 steps_prime_286_4a98fea5bb 46901731189855408843211750269723254385383543595653527968263869623201391528425637589326%bigZ = true.
Proof. vm_cast_no_check (eq_refl true). Qed.
Lemma prime_286_4a98fea5bb : prime 76385400291738482149749594516630281136514644927679864423667985256343937455665537000891.
Proof.
  assert (E : zv 76385400291738482149749594516630281136514644927679864423667985256343937455665537000891%bigZ = 76385400291738482149749594516630281136514644927679864423667985256343937455665537000891) by (vm_cast_no_check (eq_refl 76385400291738482149749594516630281136514644927679864423667985256343937455665537000891)). rewrite <- E.
  apply (prime_by_order _ _ _ _ _ _ _ _ _ checked_prime_286_4a98fea5bb); rewrite ?E; [reflexivity | reflexivity | exact prime_262_7ef1e7fb6b | reflexivity | reflexivity].
Qed.

Definition steps_prime_303_6940804299 : list step := [
Dbl 282043688242088533646446502572853168019876523628411826358681856229253501248645631157363175;
Dbl 271630589636152217350039037156572204127919883989559838991170207816512830909030065513685107;
Dbl 7666813355080860352146085819606975193928785340314762071512388349986871557471182961374406054;
Add 5794079337395136647930154148880900292527239296721380152388047651534200513324811363190863517;
Dbl 10630191801564046287461219884654344186565879112714938749287264379345995906617313313963439814;
Add 5792933035878715386898960069929560852429632208399341100996830257462935919490383406756105095;
Dbl 6196821135654068302273464077394157398642070581365251927697918713801449894512382641553297499;
Add 11774178933108564811733753247061365723754955207282686198052483732167177739724900360672510803;
Dbl 7348561256731450132998578158534293625051857449211986240493383526543007047506389853875938925;
Dbl 11091254959122756976524163181185546054799852110437264814250948204887515912111683322958373808;
Add 2816251447450614790557684515325285411557292856778391050061371810058287316604979720396333680;
Dbl 6946309002675080608181550378720692598941715598655762914017554842621800909194069088138883675;
Dbl 3294669912814414373043577914224319990624843278731377257933685821378910974016958099244303565;
Add 888720109131233564360079056761795274787929312346563281141482194945226858078525966584223977;
Dbl 10950922030305818371217744452617313193310185619421365419611458359885123161540380064443699386;
Dbl 4146110165956074975513120221292203875244375412527889972878481102210308627640743791077000764;
Dbl 11399321376261330016306037658508632442468446140197926674763478883329388241422197717073615343;
Dbl 7186340813187068237279728823983835036395977006820733813737022239632270618583527149691345739;
Add 4171778397782513391543304317850160853504743311005960998455405823016048247550978028053072513;
Dbl 6585015075973074439237465983270738528968932621659865484976324501228133003684713833832418545;
Add 11682126396741221850828934122468594352351588418084661411619610303954718532138779042783917232;
Dbl 1912304959219771840752480416023155958286897640012006798637986484037851460787120903369008553;
Add 7325622523975368102772783527956609221890795218549979165510653356246054349647249227918971419;
Dbl 8143926816892815739082914873814056648020430531242933493929658090802221152330072128047138365;
Add 3879859146587028854709055290578202200277079015744324441755941249657447354763425229938802809;
Dbl 9468266143618698014395502620449030745631582077496526895720407907592826135838820970652965296;
Dbl 9219833637975090888254084967249721232561853640170424119452914021191371521533737769447116602;
Dbl 6133035207054991903646157184080145296446421971817174988938508239979030445781475981196317885;
Dbl 11944919094646715758837740427305011082242497839875084125932208230099011913721092470967183920;
Dbl 4516135699595302651003755800327648226775384470996418940822442957737900000642161091695397159;
Dbl 2798666810684926495936298694773446757378716197233117202465970736777082659213577082282931884;
Dbl 11314030450683230539190384361260744526773322559860356286899831642247029221783748836183991473;
Dbl 7050118516849190123186028253550509480087423176979209163204564434486138176166837854486870385;
Dbl 4207296524236251885842333959803462583780477465233708962189135716407488062825575551210743855;
Dbl 4265008759219863718232332864458101773745636486641321788984734479732801121749589875614816653;
Add 3274966885407696159075623671340798744630734566687057698857011848422839426832204989649198192;
Dbl 4863970082001904389937894872402416427067747502415289874648108565190053060129577363508412135;
Dbl 12044493594271103526372129544272566353745534881913454634571961784172573489846785146680229384;
Dbl 10727078019133283313439599915328289953900640977342178324443266761440568096547241021565336246;
Dbl 4027344847386074186150398079644067310897850559199018979729396054929744092568883104485853584;
Dbl 11484759128103162032936660738469670595304601993294431516998431432836253565518852337187093217;
Dbl 3391918473321430937869581132739677902725386274454419790377355652341392454506210962857466909;
Dbl 10089722459451445941863347527986001107008990955878300473385889261486079460636671840888056882;
Add 5468403906238749988906453404587230586684960837625159654509583964653709036237945193187601175;
Dbl 9989705433314742130958505894933535455799378428434298784147693591692820838771736912319137408;
Dbl 1013856321247157199694409066482997044207669648620214135497721106479841280494545420577923347;
Dbl 5558340804381970128403777826021920744707105359606379777939227012388224113467091924258281082;
Dbl 6252000592450315781741999143356610485595090922192568527005296073756187957844715742730695715;
Add 1528427745620712879487345387736829528245036980866875971871659353360423720665266868782207553;
Dbl 11743372103783546650704258171628081110696633326623288912177666697762790248755829360726598022;
Dbl 1540464709069845377887087828060736513965049672365960700331706674375696836598461357403381291;
Add 11755668410406667766126421944802426298818780362937743457991601680708127137018300253993467933;
Dbl 1655992752247755726092122217617645004956090536639391836665982160755514029847397084667019906;
Dbl 2200357996886823745919505495054053372348620456919062288046535755236108777228951364849937432;
Add 591222224650356596613009389251915893429962323485867813855111859708799694525620434131317924;
Dbl 3865384129051265635692504251786052343511972877585527132845930426329797711841340250741202115;
Add 1538452265226364741023407076066389366023598537893711207628069774921352024578701413804952242;
Dbl 9390887977788368370082511774013020220167822458897668039971318963520488242861325433294081443;
Add 12036880618335034490365476496231119862716696262376180666617517945469913337797461691827509134;
Dbl 2335930433226805068259948123533826394630722284840625215132417585269544532455775446839515961;
Dbl 6476070925781033969232812378939295044150262111218216307538106709842965931649131637588493510;
Dbl 4155528189571959812163126797255675895728546923451797848614424486436464245454706854575310185;
Dbl 10180823758923877476428118255341111771229226692186733166629557799525170966171192208121868337;
Add 6768115588660402398222843408385048893847240837719137171951394964572580934982031835547748058;
Dbl 4491769679344903858311443324524994744342149848988028436595389482774859483640069418633701974;
Dbl 2596027021052962838014033033084815084897776856851347177027128853621345240402558216343875132;
Dbl 1987151496175845447527925070066813385302405146959853797897343226008117146190184420251522782;
Dbl 3389650881106498709121362969760971114878466343043540659463499611336546803775078392628077345;
Dbl 9064913123813491306914411779102722671026476362646782859719814759767248906232460235451015720;
Dbl 7448437148831101312149261005894468380935984620055083869034790813583809984250669265155994127;
Dbl 920212831528777215091353688810165402608939990345165437264329409607532164005430668495168369;
Dbl 11623541077036588399646480103742402427345166511860920828614583828227364648937907042861507627;
Add 11352647722658775161770538569851302973471120184863620940500900448767649886167786240508249807;
Dbl 5741406110195757328097638924383502026416667901311267697053609471835005327666867496293427520;
Add 11728180613072702368259490901488422357080508832022752615025654614423348242911531163855387456;
Dbl 9026310127648589183959296006306346008337464112315545105085564593412707611865386370437382625;
Dbl 2326884892378010887771372083108737185398052993019898427833821515238669161275023772786988726;
Dbl 4399485436617643633530201319910036435116570502112546476514898020099254036880328956660342055;
Dbl 7376313420232429671466623494489512729339534346687907165454826855718391880553937057212147530;
Add 663177040990136344557304964643634311193930115256194441728837742008015815508067083998892263;
Dbl 8202802178508780430599502684380182751195918973007835867253653007205234027069375061007185830;
Dbl 2129937335195852656967140447961192414286539331183304579770244054004196975448250751597421101;
Add 5316157266079891034375408022162275622395547736065965520586235451147619824990447111947577478;
Dbl 2230534332432103967721708586671548587791626008000955044266316516422114752578784115737283070;
Add 9521590147118656147645521092496438505614224847783722338618138473167340053777237880402419463;
Dbl 8152802410967554843436280281086453658052050110138889523527266328808052014983959550715104286;
Add 10186216321654319105366696118793913007208976861800877993788428067693220604528250433242534685;
Dbl 1941780829754365318906520413033660076648032493686443285808198264184537080180262579714836210;
Add 6430561314637659118791738733501872005785328805986149184561514968837096545172564108062542695;
Dbl 2389418367809610579382146732934861829981574103549110155849093970578097047093904919761482568;
Add 7241056433921902943736864085199997161038377559669321606972458692257561214594333973382469328;
Dbl 2602456798176919486782391958621984699432221002628252721034263321203305213588613794320716729;
Add 9498446515062337141644980583209668609294058200714728363569673903180148583708611691505932249;
Dbl 588981845644611520143494917495315857621886717699934401516383019885214864912112584355241016;
Add 3820784988840027632452135955343324404231266899795789833993459308528444126472478889546766416;
Dbl 2365547692730044165807659482201633962250225988957226080556017360808531767985121939740500007;
Add 10982721746172937854484257492732705393746319746685383268053398132195537192973665762705648588;
Dbl 2275798461901018090947509248529930861215244387654479658222546447255701279363330204254920160;
Dbl 6773990335212775194545105386254434159812472429068855906096011586009180157904645084601188717;
Add 4437896691203725058993891385064057118883966098795665785529234841044440970932197393398655351;
Dbl 1800232732023687392189354465884132731927773311197713101446232026883149172904561322413123358;
Dbl 2627459726440384604360339608935580326195260557994820566275834261018118067332516495527227054;
Add 8530446647361764892863012655959713576593939698069668750666018354616517931352806203590373133;
Dbl 872404779156012312100970413342099749152432350004080995498732333397605864197246856928134511;
Dbl 3838153009997408515857567348134241397775739458663279338192755214112150450189049982001853318;
Dbl 10076755899388408598636989977558356556104220843406894707350298372698928952038795049384342864;
Add 778936905953821153003341193555261484823783597274689613216964134435322897041403926913185943;
Dbl 9588660215041549064261650614760177190849781956165325958608859519613649496469606973702873669;
Add 3611423049542172522895674095184351698202532416650865297567488713067894345360814940307452661;
Dbl 11426733175245089943318576959276125889279721678252020442405872007748752162531446791978190527;
Dbl 10230164244523227481326611173803595923888616390595197632799898470924649997002965995880958675;
Add 4024702954876102837458749596573567835728950128330769678403522289193453642845951639342679841;
Dbl 8603109370625421784113013791811787738455711361423482256639831923514074331625744817390249815;
Dbl 9100713636958196866192954118955613938329631229355691954089967045462303392463943591936273900;
Add 814782989430712772283494316476924694194136194841901132976046128268101457498498314744915921;
Dbl 7033771597394785693810732761631283607088143778482917070681406050092509755804226664734924676;
Add 10704765711546244644893509274287304283182163422915633790332423123276247587262389440413167289;
Dbl 1056262571873529783256928742444483094815970879647017895523481081187098958125090016858155575;
Add 3959853940734517993895250570940300225466543285936530456240857398825356672928866420444777351;
Dbl 8039406606622998732928976263045012457700301160308611013608394149332896453598755549786824102;
Dbl 11143383506176314688290570138329396348865087735013691348374540600520277217589884687500798154;
Add 8842536494034957175972325684099041719328136868123647992587254708241932799037039921881257551;
Dbl 9516104039032699294358404127467143287002680628120650867426298319033889956879475165474195954;
Dbl 11384582358887406724693816587599529361941058889335313521524500818213775047910318837723129460;
Add 759749542462142544775272083226492723577953169037885485896499306372759912791493198800281511;
Dbl 5621542630416293416357386248340451091873910321895006195492724451676350594716186967657354347;
Dbl 4580736855503926697561593162857474527927635740732961926867720956096649121313223362774550793;
Add 11279450909082918995314616259517955500855828981933147399360056439297732324158527738813786370;
Dbl 5548232723619160126753570977927980590405638945368833961311417028543825275962032107285685511;
Dbl 6270736353238422061578474692910524512086344521901161434619435968295521538188206689129547686;
Add 5932038513995348031876621013605997296663174819318357723968786537135161068913004950293425747;
Dbl 8155804136472016275501520329595938536250273549246125275124318074777483714722091085490249277;
Dbl 2486989507745403453791987624034591193340843049733445136490433508426829460581590193008098231;
Add 55533281816488287385279873124859299144994438746555029403938750385050554925152580484907751;
Dbl 1591998706340540833846561317390492086759742638398275034862950980843719715235605850900342890;
Dbl 10268692081145344052645137918467375913240905891899568953581913834259815149706662603388680568;
Add 378879690568192512630721253022519127787377983502795256932976315080686203879597444800149948;
Dbl 2238448881941331334454806464002451479457607837371044201555056154984225188636002831928009018;
Dbl 1275026766806601989486000538842086710257003699414289089523063347468846589929646268721594575;
Add 1072016314504016170623063680934719125394019734254679047004209664306890920660532043799918862;
Dbl 6198432056343579938869077441405228197046380884202018412132748419942671087217376258623976321;
Dbl 5192798634590515117948923564065576795151374221326105604067567242171674847884703650173699693;
Add 10941454740725702618456256102657171466079406869359835623379185137657084128636205638700769545;
Dbl 3237024655368554783811792999137821205462306693617299500681472686112498310615354166929728490;
Dbl 2636419403921982110767025993144809731412398606127725526201392953501284907613176661524663947;
Dbl 4082999266126729521147012238453593702402727704809933991802896124932877482708032122356703947;
Add 1804517587027174296468203571418528307075226478230817331834678147253792432090029568956658726;
Dbl 10328768560174848281184668204725796538311405790207387446322708425078593625311006262207968741;
Dbl 7592836428730327110657757780777175896117985661434164203962099550676717236098625719387041811;
Dbl 9715661918407373083478264749596488956086811913567662054979124896419969370774103358396951961;
Dbl 8031207964710321851006125388716680416090534393213617006831975213588644715806297617062223389;
Add 4180617612236542925250642953502652293852735500556032759758140096926989051872523896233872444;
Dbl 1138589357894356728633297277124753166737981447530366510452192203106967520638086846455334624;
Add 8219203780884560454206558602960023498750776872679980502012284793626046755590178283804743131;
Dbl 9598451415221948840920899010734086988151990227417492675394941791554885815860686602669168677;
Add 1710045091517114485938591134253313243493292439768670599132890019248351364853964130548731623;
Dbl 4860921444151232298854739346196747203372632986764295797818298504558982900469272765434030123;
Add 9015953802332515706160122638157771621232431939838963884572422633406154653986390022357601060;
Dbl 6744583355357024430874404090731320354388510093630125264880233846545739472197477110337337198;
Dbl 8560126621957292886770594310234290700186240318069351855928249983084144660263917352628990331;
Add 4827088381257460542835683199461633387865470008083008812782002555774932996939476263003250257;
Dbl 9163396780392298617014430788732572369052158733871587438617099436201739877530557957174119243;
Add 5215847391546666278764632772681805917437166065690268453096742266777708594573699584793364134;
Dbl 9323496409967180136793356366142091961802790929814972898676056752603787382125519008157773511;
Add 3727990767813145720839649643249229408606175488368332553630362178609662488291971922393369344;
Dbl 8923946274895205478919854755760265458143511459625794061390866141516898968364112300972831742;
Dbl 2728992488996464488063681103369699807203051021590190404343824702544970205575745586255227783;
Add 11950652451976297281101773650993908423249564727396031084671976361959460820514223275425105002;
Dbl 11405900743663074580564986292915874725181540523280991765659344713640191528249414556113788293;
Add 9753443213525686629870275704618550617881997800053644203465387865874347350633102694174459733;
Dbl 4559607197906718943283250761675555137298686916094858523999674880182544631488490329782948187;
Add 4329173894071792661190545586529682440890342312056176001571090735045971766545885551054330767;
Dbl 6459015292140870273632834434302350968130039333135651657686518882449379548762419536626489095;
Add 11244083652522094373131606235844927271108313572009120707511070856867405110344509040498181947;
Dbl 7291107381933259087437484376969598866198226547833622772212797744160592833068359490421477370;
Dbl 715249924349762310361396215633688770860102276890380966215866138615712270957126016806809526;
Add 1603670193712275331907379949200176627054524115540992848610812942082283878405580709658028151;
Dbl 4708031905280575142108519728276742446795173527452566441246040618345776719022242814144470194;
Dbl 4139402327822207819105224200054891401270171314137556996530220003445967155620082438082892932;
Add 10799879429496799915503232484974107669123305418772829203574677762700732879183742484879895519;
Dbl 6446953198734494525365542841931297411741491787918678255338476104492356955818614373663194214;
Dbl 11390899912579503563052308703078763091694866335074341798328570944903152526225771017970051790;
Dbl 6782032718325506045023320212638838544229672504099768406664788376141873480440404450996632088;
Add 8523673273897829032457708500318270843325240960046128088998283607830388441756472861834797010;
Dbl 2002300023874261156869006771369192674593249035861888586965108434154253893557743670301873566;
Add 9181142187884231184718184646489347258799491044539467806774223024842566790635691075874747469;
Dbl 6342489152225796080269471298777792702121872451120788969889463338767223377055923341468811953;
Add 783979680132845256343366423841055834489837496438937865784897499839087770483269272305458299;
Dbl 7112433652027110050589470825727994952598153982778232552383959038140827974043002226545071648;
Dbl 8048743901255913987940975410197415443147795500749710448331309383341982593197181270420655506;
Dbl 9064508595343931328852613706713070103123458708535239734647982009267219422639937658079523040;
Add 6952786872949702978296726074914264049348511771239277646330642480262871467168944539471334096;
Dbl 9389957151461225705420997912104412370107308676697875845505300746425047120394587855810674891;
Dbl 1475099915604154529410814187838359043392633530146511443811805513695758364281717389825918048;
Add 8205950045097118937963732718266272349895168238141804022599753473318449472102431001789248582;
Dbl 8737282992068093947694663718779287342715080604916983809793278575081673131745161873632671474;
Add 3019212437538935607019534521577740156214451085436519300189679556974002613344767832575887238;
Dbl 10595541864675824655770370742070197487684274893775230863842172695516856278548885751271619596;
Add 204730352050915296944817412707026672065953467760695977854547473654940152932217646834775879;
Dbl 8598179618929418547077228647084789118299584770599660532435614342048674016408312925911346160;
Add 9262845934033753565538857406496256792007188214520186571596761726512615525037330535502367712;
Dbl 11381155286355168775047460553081420035720438524748359592962481551660062983405847138606599212;
Dbl 2135999327914334163013938045118599918672513981915312996221405288090338857762547400809721722;
Dbl 5147410110344496809398862144691226173679749710753495137937689807885413496963161092064954463;
Dbl 1928613497551881820143712699309890102005330611839494856485952197475184038479564578220057415;
Add 9362124668576784732305516190691606360503750403554570439108136869615172676510064174544605501;
Dbl 2582445975647314498971294888858691043174948128276496770201078005741614822215970209154747268;
Add 260229826515088678708134260677853153485386346934210678199186967308307362496390019786984854;
Dbl 4894090399103427767727611787906565099092097075491660808887548867786398551218025044126321082;
Dbl 746312377360067802689545063801961385438951068935144223765296514259964944238806404741886503;
Add 7807855864265097229679650255549492218881046478261437833809977057908873249113165944044043158;
Dbl 2229640965046649665349700232263637917845065627699167018723960940696257178014697265710378507;
Dbl 4188560127949462619526667623111077275936060608885675711765408727572739740820053058949959716;
Add 2042224122313752241837720983950494415965260999818922215721303862898911282995913533148594533;
Dbl 4794558103459688840627637196118139502015464690462297788033662887782170395941269195691438313;
Add 7002411437213846901723375318217278476260810928218407835602601821477438120174846116631244983;
Dbl 681682518271480591463524448716104491458664941724417523269675849213322075763597326427412269;
Dbl 9227262713919310343837793164211912989794743130077482547858392675261744168633522956856642187;
Add 9483099068180947976494231072398304992762317289150180196940081677157465802972843333637247439;
Dbl 10383382458125349977533246539810179139387338033450227775981699636474141041358768748869632782;
Dbl 447074061288929028023846806249817883071278587090815114951382685709460751407728117630356667;
Dbl 3222247106838818905284064467645975654159390291733700684330486934171301439741057092104695921;
Add 8172327561703811132877531688133229337756533506026414750158514929973089551903697176868154690;
Dbl 6002506388170948001253368663856934013203866010726672106045038070809150351539022085838738157;
Add 60407733958009375001038726609616447151254690173415637829060110529012783233147430497644823;
Dbl 9167595088460200139664671604084005008084367258627356974836008752510267755188333210722026131;
Dbl 10331746513700739972664529605561390480120699273312045223818936202134709771604026521208446338;
Dbl 9398557412102615230889814833745302660932031491066676933801352365226241939973338625385791094;
Dbl 6207781847609229984466764459456403760591485132407571284190968420604698877251006829380772621;
Dbl 7745039322141199403202484962455476170519185557277522441358223414358506172205691195306192919;
Add 9507993150425844204316621029160290404578082129617822869068350167956930098423302936247611120;
Dbl 10729808660740724774869265446404221180234132672286051328454501045210933514646322189848869444;
Dbl 3729323740526615722213771221322814044614774646999236798889256276478579587751362001216441562;
Add 8911781978094845136962158791510159323967141633276582416963214522569340951152884530479777343;
Dbl 8615662302969971425115110220718547184051196840091500443891667733463616462484989596299395566;
Dbl 5001072972531675280563751841745857243235938199778563767090125229430967333122763030864028700;
Dbl 67364298854671684361050241443047149412107168336747944681054434784414760406020427758534747;
Dbl 1745373218067791846501933322670738943658442475346759153359146851621555803385271750629920452;
Dbl 2231503016617482997681526787850307870252321699450894760452223380311477524259708587204005707;
Add 7965266319395732428886477406223640673385773047489453957402801630247139227336261836785467694;
Dbl 5508041198623731600983928371600230093618585183517779791949191417288153254749974494824002909;
Add 797510859657215264070051781264003006273426030878749778821968551820783374872259373128554942;
Dbl 333092075210503759346894014511853633853964069812132599075394953173998919991383522792549392;
Dbl 5586652521043622701061124539834220179215582735049336399089744419829994370949051951334575539;
Add 9504915653014651640094932438406977919160915037168005976094028563136525935951146380657383371;
Dbl 1696181980045128772846792722232477483386325218416625145408221775374094130583513737556430061;
Add 2862418163863913152955708787815775230551120763250171971597256926545602961942651856896801710;
Dbl 430927074874790260446920263794085037209872363524192967113068079156522074554402378391552821;
Dbl 8644834138461975415788955325338375611905074555810338357526317967278841533230978911747773397;
Dbl 2175981018695605640450021516465435483827251922543822918858122465003010841797454748755682688;
Dbl 11246125858176476397323082705864641117604229173744075835246060913122433468511280723977741486;
Add 3319945586338173768450417263715756968494536164911616796732179907962479286144043382093217002;
Dbl 2443591805300397839163806030840816266273117779224816857739096949024621981318851499854413374;
Dbl 905320730551510225229559261642370726473134949625399623919466891016944012561454829393890929;
Dbl 8254492885158199165655228931729558004145035215195699225800752631529927416583272535753748;
Add 2492070527795504882434275534486629335487853929163189126034758708508119942628365482990156525;
Dbl 2231291561322213794422997802719934160519723230968193323128363046540254795840929289274877429;
Dbl 4274019524795706276178907627503253193907545140859219757884340800174568560813334694210140992;
Add 1832362856399707340606469122999092458259648994257907815587650515316460485342434945632577086;
Dbl 8786246505400119278394276556833140705160124926466154614066076321844457140546220869636595956;
Add 8963288738736500650251442799029316594643426873260126100721828879132188970836936260349724394;
Dbl 10538449701834666596884702099381651795759042410587309923432327597862028414335997844321307254;
Add 225800861053748872857153408640800946976429550977135622342951881065939719211448190443777068;
Dbl 10510770125674230901282685314235472051763969209369955971684799951303851119455952267535830584;
Add 10758858530986346238431479584951432425404114133171623584823931440486091668774842887506411105;
Dbl 1936751056922961270975575969571289104697154918111157729412910243050337970161467854013607136;
Add 4085251210927119938910187601931712199043533730483510560683073455813262016816453559741437992;
Dbl 5619956062390895098197838634894008664255022608008273675221235133254366940514173414393246089;
Add 1040167006214070368576192868113389612454067329373932773372180236641382429729085202988804947;
Dbl 8935637007472463574825710841335514273287408943080173759826326980922723837038340872931562492;
Dbl 5331329445935516821047630794210323904688497956745248658404947295916594635574831246397216712;
Dbl 11578754659787640286005189867469125083243457356038861900805683529948245103644923986994056843;
Dbl 2687599229393574077513018133584370811907153808047675929479964229673323648255701139751285197;
Dbl 3548579918992394336199988579812237832453974861117607385636574506890837911941741931327896880;
Dbl 10383412147175055129268082649081816870773760497653705542334991875862838503042814204268929834;
Dbl 10930457334270237057997041052526402076909311161468454634939828463698348714976249212632897479;
Add 9876057761010718270557425679257482440312639566845074846850464779468297002741540181011962157;
Dbl 644535412920541988559718746744583944948838721461962189157503439537635895309069872083526803;
Dbl 5084865706005449968335952365907422385036729037188848558594455284260344658818640157538636916;
Add 9635572841156667547380898539190613886522555643037092059020700707326142400610689171655806639;
Dbl 6746024157952924371579219838350843579597761315960187677752074685240689805382800303230276691;
Add 9007479315171546790167234804298547161505022152207760373940833839178754444442239858619967783;
Dbl 997743294975122683182292840561485180310224560483013173360586489358388007962435231262238584;
Add 6519234732413125231534879979511730508074937892858391848117025568838200352761794413630565613;
Dbl 1591070784741229164954880416830364029657805868094595384467346141379958054066319985161942888;
Dbl 8696448668707790795268947641873727227840010987665564505625791080914586010998931871241528815;
Add 4030772191417508886485746765607776173811318449030138101530479969687464201140753239349866934;
Dbl 10888846233605308303948301428039008156494766093026418721926992642629460378224035134506233370;
Add 6465082009884705323956878918262915343297113695231574775879132528399875331334392019419303332;
Dbl 8223972428581235915323970230905885171888748313985038584314928361211129364137055978906595162;
Add 10023776992403467513518938459586535456771725379370487429326217467598188769705510877283910649;
Dbl 733367454775772146280082964255532760148072572287708482629411362792390898462539789815774362;
Dbl 304282580676038962617608279638919134516769536470315557722412707140122994955194799011003286;
Add 9041210159938156247752344614280144081364936399548683523101288330803903453750878919666806507;
Dbl 8950875337028106014242549103746034930315192779559259605296116425346514302410700551434128799;
Dbl 2310497341347612575620391184026415222389488067413936439347662903578198179140197260337984497;
Add 7607773751604926485102690432431081475510824447433139014452815081724827984733874320708768976;
Dbl 8573786556980102489735726913000957459773676013222812063896725455571409701603325456976122601;
Add 430639035035598967554925626393433379091354996234324877099252218642374441601041115703525233;
Dbl 2711955195827109626072961982442428046064200516752685408688297962415043252836329811991017246;
Add 4329725386614391217810124378179680234711697977627573176796284320259821888007450752987713716;
Dbl 11117990626385987199444612108841736771861068732866886722228150681218711494110849308105093373;
Dbl 9595513109623781899410674400652141028588882234104364274654448772740857263177459416877890521;
Dbl 10076364214283523134460596829279572656973802218359176381429139927106927857193413687915390493;
Dbl 9964389068007209838267241709820120034402646512483192685811977681365471391425580380453460639;
Dbl 3418689083339785975480969393679506533737540471752156595454762698742501984332061252021614223;
Add 2655476797168121291340131177975317563237018269860114450804263831143921853197577702495827577;
Dbl 8948709651114353547836427175034565316465628193623976479677759811576743789376450770818738241;
Dbl 2117893749677448965973307744783309640560822730957204177545558233423262421028957003236177700;
Add 10172175642442036299456173601403293470135406994556860491793371255996427769803162159968847538;
Dbl 3537624073256316174921461732437830617765708008857431421247799678858310874122444190769478054;
Dbl 3708304331006819915540588690703600518514516815998912446273026911072142112698316827762853754;
Dbl 7443718383755958873133952733305095784989171217169883926353383561032542451741052374171003317;
Dbl 6741931962422032238422596799380462584886785179197630826190304791536433724732821965296104883;
Dbl 9270431926415186031473914991783086718682697207446571595433635101428169595954398092565541722;
Dbl 408681392853480109263627558014740454034102267479725206066041456015702556718638558838634254;
Dbl 675846630109217288583325805165344659299337718083661303446055812741616243018516261662317664;
Dbl 1240108692372221587731364551853910647307566370337113038301064920455795609040756946616470003;
Add 11499582267756097064210995027162317114645074315414831062692216065305802188125671895543292438;
Dbl 5557581695032548203591211140705455587958045567913111636787712495906047570068000949732270353;
Add 7513709763651893921635932585418944992840611476664397204191658620474002717107285909144092200;
Dbl 8517375984698193112984739858806228472065842911341894035979832524972256513621169352128975897;
Add 6405942152676729869809278609748138582919429816048576195251576005774154889754609319396986872;
Dbl 256572513419966577812508273010990146117257482365168687812944108778233322593809949687573168;
Add 8316629959824364444405788672203677023207421620707891840785752773120602920439740653998833392;
Dbl 7896018269736905273480175248747377176696573767250657642537292108752340856806528070177249015;
Add 9175513986925096948559490250759923063334960362770030863242293487706371690455713443268111288;
Dbl 12131853230406055545406010053570255956049855913962364871430837524324603400864002666950191579;
Add 7335321882544052399478397674336622805357713835629124554849662117221407364507085570342839603;
Dbl 8982786749455222737904347378245264652850612040914806726424028918648192088156583791408285429;
Dbl 8271937228122093015607474369263640746234800999536239819659405841316189573486719284276718542;
Add 3499797993237206489264859445330460177423633656387333326067724139699452633090638806620976188;
Dbl 6297455604720844510273001215341515894491158542864868412978203131328979334483891552761942235;
Dbl 5451829484285507886045017318695098173766218179486702521068119272382004016389788349584336876;
Add 1218608367435029335719921663434166808329921335119401049234310572848596675560614382153305702;
Dbl 6089994909216463219515409028973595449513320536303580021688467022023773932614721380091342926;
Dbl 11122670006529403603924760981411395360755444394646268944290856790946216936808468813096245882;
Add 9310514443814937913743405087478627177851649140428543400929308852171203078022387783498728927;
Dbl 8416945901989873502344406475809364417884879229732258280042549706573560101587241749001577060;
Dbl 8990803120233623727424296857790306694525710148405186178356575665348798456983858603982858957;
Dbl 8036475855521040925103358749248078333999577201675014639637416733883474109721192861715208502;
Add 3244088822906537401732676426189473481559119155357297569219463263850863178361594986462134599;
Dbl 5416515583761703024973162022863568684174139349506961200628647176751878172828563180372070174;
Dbl 12085148020338799554916515077133720726671789360852262593199942389372088403624484617328335259;
Add 3918788771478501734074335003566101578570819471135294631550749482480736966788052877870403949;
Dbl 7788003987654900286778058046865376361737136055400422125766398384332317202140277581006456093;
Add 3696782382374570427030003854461283792685814849554215183040714150359426201154823966320069006;
Dbl 3813015601075384598252576398132647944138941664196474859672416703471161750301020270467242396;
Dbl 10299317654055570055140902210649625819565553961247408324520078631618068278684231466076201063;
Add 3639153680530271183980458262448496859918132979234708692716026442618082028994748241691103669;
Dbl 9124585866225782937321344237041129200660812058254377435928247675456442915405295570345869924;
Add 7754758340345896166466578543143073506369096374329256152391608925787526509743558376566566658;
Dbl 4297397654634238356232577633175395478731664324696928381121735423871708872086846599187874369;
Add 7715567830021812212806369100736868606560291432748513962628919578251814237138436593007451155;
Dbl 11062473586629801913110363987420011652897571961953220080754466667408322675047205747395329538;
Add 4629972802910671537006918754969212743950190336670292853705618801485556093187164944092519893;
Dbl 422732235144362233291437032333973061995893683374328043959171824517142589537948042784903149;
Add 8171726045109345337617061092129691032552761222867908224850825868218696126254131445164811595;
Dbl 5374906439450579212516890268866214231355590762705811194644163280015331780148132533807734090;
Add 9229538876184197397785383620646502911181938438127021124850347479402018080486879821870120196;
Dbl 7746784614396972540822695129305886770466431513548886706714631633302888642242923135098368127;
Add 2703796149031978264082524593503781487978689757044918159478938553621358718006014107684679945;
Dbl 9765524453830825635168060895475802911501087524739307052142787637233169809211528223058404391;
Add 11692863409849073394331093185836592468128498296765666980529319073923889992559130715605471762;
Dbl 10814291794770765120584252510069443730454587815506582464661507383006666738658510770110108893;
Dbl 9344630141935270378989015654049104063893882160056950654893886367916681466736525438473480628;
Add 8479942473178850598976841140892317192082872347386395401451036239553180976596304204345233374;
Dbl 4064102134399029254331479501424619196352703136826827917512554273620701015892189090811172982;
Dbl 7673135707055453897856424587568373020977996859954304539615059843973431806786577274885493186;
Add 9683925594199314841560048852208237502631853091299088864949561591643611648116458810090258104;
Dbl 8140766739971064122514235345360795248825493189860757767420189646544023278585227130703093214;
Dbl 6884549927654743966486540392414496236282892192305109318779096878241243255487869118636059392;
Dbl 2687929055422625607148086843768800709365604522485157064849107224179082276899824399467810098;
Add 3645411970669067110888286378883614382932474522254635138955302807737788192921568353651046137;
Dbl 6809695636999042344874522500683037564047326314768208288807121813256102543766007542578399838;
Dbl 5589528067018449364113519852228993972050293162668995068292078226357032274976515731097144242;
Add 11263749681137794440146906321790802227892391083061292408326324084300849331239015958839060351;
Dbl 7386070628770669876286236414719635318699474638688250358984018120954484020210906652059814447;
Dbl 6549259778369120377432761512885360372269221354414604435797891453069918963522422158613524088;
Add 2070195977414947119239338384951338823387133033446562190049880454026081338138609094589516802;
Dbl 8801509997569094264610587005803717310692926585130277209795111385713137115748085221511946133;
Dbl 9720754251236024264674138348429271982289594440103760904649412830218524158150788585810491718;
Dbl 8858661610026064744486722069556169027443492153497123090859992975959138700969046290153475786;
Add 3690258696141655355621589681451389687478327088316960211992969154004132410852019875892792678;
Dbl 2187774489865023601485967826015405579159658693560323806983820295543134105972281047275647625;
Add 10495559128606206191476047291988694374488394761823152290308243116928533967350694487357123638;
Dbl 2628583969432130218005896362991110742582876425657870020247670674921519352760522614823082955;
Dbl 11469519536586823192041913955350392023101505399117906611376630887177309120099616906337781768;
Dbl 9533727093616582223527777127890009841480905431433379244821486334441830182447236677900459342;
Dbl 8692278077503223066660718780766426164511838513710183566486745962906072192750886578709867951;
Add 1785972371854984980786017260684137992819657624724990506315065307512137763005647884016089340;
Dbl 7292573172694667592602717985649701761680022995354831143952722389041934780867446049362338285;
Add 2517519645751743387539286956487830998337011128492153384269894530007398840761692440435874311;
Dbl 1322927503754282518603541411660213284376364595611667338730859213415319246890785116988442406;
Add 1753580732599121122757459086483062083112417534666170651258751140269402677208464841187506896;
Dbl 8484335238438254448435565086913175449768054444886700436026157563435092546077526750961145317;
Add 6532627177648324339332208826472067116274295851495427357518771642854312675596416248621451951;
Dbl 1975184211361474356020708233520360590127921244681485601814651585727775839282433092097183646;
Add 5771862505591309411529276003464761997674581954068654181472139471774344010834987236257005775;
Dbl 5081978754483279645019358130186084997121047441253509146244000646595693413886922801699145022;
Add 3024445325753509281848469570076977109793021334263283099421224925229120659017778147466411786;
Dbl 6543645527525091739696359832743987661978738988624448085307491657241326042203405360160147107;
Add 4480228369780591409698402988087099794612658432080176970893351862438647419047256139340356018;
Dbl 6555695876825547670105245447514088619596944595881497366806837168928807714106674787007391864;
Dbl 3679878713015235704864035974971136291076002572101838949500655707578876535727942889289143788;
Add 6030862916070494428791344012129761845767210021421200348420823911683948155996003656906208412;
Dbl 9501365370304261078986734287727011130476068362732084519281440370669751183765488575922650694;
Dbl 10513880885999022892916076229618732371123794695956837699616682015408489777678141445722936907;
Add 11634764224371692801176589602555062787836489590075332063036017608653758948105778174461173850;
Dbl 2965603382816378073833785221558236674560396527249094249805037197490659389727845210729669123;
Dbl 3693692623870417899140729856545389762946670438880196336916668749433042954314634967943012650;
Dbl 3130894690282739425757200005809559525053041979857189417459793225992842661715808977320855309;
Add 3851589019777708797586127380216319528808482951805039817449187792904499851656476559769359924;
Dbl 2022093061658985362790152535247786467188656871114299020960012481342579815515604004254534528;
Dbl 10148800615556078931026728451030035772398603861585965866218510394134625380418922631991701196;
Add 1389783031285059923193320045634673812342605534640586008383419683931528233619969844645673611;
Dbl 8057885599608040711306558395691873262711869061088927285111312342216820161185351124958043131;
Add 4368192308486871662265813335051226962702164186077252228189191494609286683755806124268340044;
Dbl 5899150447043006959504014080457334437343352521567468830839999002986660873433522536367071889;
Dbl 576750905273570560905830744080184559784142871578144711881092768538000328285808486638081116;
Add 8230375349642415268633501140492729652196460918740317809371047582694441452858202829879221490;
Dbl 11895119067581014758284414727302664734463752820686436038387745079221152460839036886148395404;
Add 11331732349126208115063297453467111669996222852805562861962358721547420620879744885464925533;
Dbl 11543339546580961349416181876966493139212119555799946057057592187163397645080228774391736933;
Add 11288951237098366220432853938810811456043838574461810150781966874807781047606873798444442554;
Dbl 7572520330196971802233594875099227027395467382134335569087332903463505714781597176380661146;
Dbl 11472956121098216533202818263544381823593854664775234072717433815638370443591509660090739593;
Add 10891124561470357393926839195225323091209114078360438417046532058140024065305524663855882661;
Dbl 8987947831508880517006014441329125223250718546234629504010612535467365465968137138386663901]%bigZ.
Lemma checked_prime_303_6940804299 : check_curve 12306604611802570336110456671763337854466147472888897260582566168005578409408176788019888793%bigZ 5738090314801743131507113423491733146711458507222513760825423617943316481136843919949638127%bigZ 2214522706574799216532108657735794494270300828697592935067951720176317468941704801398669170%bigZ 8467354211112478427426674972565846884039409537711911630771075699914865698077658952426615124%bigZ 8909291715427409220248152500932404335501732083145934656260309074866591469920563957678336085%bigZ 6711306489999373001096011303287928193028250868084325504481019797850783564869762714279774920%bigZ 76385400291738482149749594516630281136514644927679864423667985256343937455665537000891 steps_prime_303_6940804299 5677918031142807444845475248359286092412352320157652328068868021529711289414342771365783636%bigZ = true.
Proof. vm_cast_no_check (eq_refl true). Qed.
Lemma prime_303_6940804299 : prime 12306604611802570336110456671763337854466147472888897260582566168005578409408176788019888793.
Proof.
  assert (E : zv 12306604611802570336110456671763337854466147472888897260582566168005578409408176788019888793%bigZ = 12306604611802570336110456671763337854466147472888897260582566168005578409408176788019888793) by (vm_cast_no_check (eq_refl 12306604611802570336110456671763337854466147472888897260582566168005578409408176788019888793)). rewrite <- E.
  apply (prime_by_order _ _ _ _ _ _ _ _ _ checked_prime_303_6940804299); rewrite ?E; [reflexivity | reflexivity | exact prime_286_4a98fea5bb | reflexivity | reflexivity].
Qed.

Lemma prime_435_baffa8870b : prime 47027135855253862293695221904893529952882567781986512512560214543064399068519017805091617745746803253071739920867384142251535402763.
Proof.
  apply (pock 47027135855253862293695221904893529952882567781986512512560214543064399068519017805091617745746803253071739920867384142251535402763 47027135855253862293695221904893529952882567781986512512560214543064399068519017805091617745746803253071739920867384142251535402763%bigZ [(12306604611802570336110456671763337854466147472888897260582566168005578409408176788019888793, 3821292496075870417898099208800349556634, 2%bigZ, 23769254120823387625802406958183438555758570224965850345932552152677278234545968805965129074390303593320142459309701208135267100075%bigZ)]%positive).
  - vm_cast_no_check (eq_refl 47027135855253862293695221904893529952882567781986512512560214543064399068519017805091617745746803253071739920867384142251535402763).
  - vm_cast_no_check (eq_refl true).
  - constructor; [exact prime_303_6940804299|]. constructor.
Qed.

Lemma prime_462_4852749539 : prime 5984062708607661899347632600855537484210927348675522269469949820924748277302224554948777964758927405492471738858450763827227401419949905209.
Proof.
  apply (pock 5984062708607661899347632600855537484210927348675522269469949820924748277302224554948777964758927405492471738858450763827227401419949905209 5984062708607661899347632600855537484210927348675522269469949820924748277302224554948777964758927405492471738858450763827227401419949905209%bigZ [(47027135855253862293695221904893529952882567781986512512560214543064399068519017805091617745746803253071739920867384142251535402763, 127247016, 2%bigZ, 3631384920794260259562944563117524356583785567436440249281833545823151828693660608049640364400626881247631146958745050333082659987699969995%bigZ)]%positive).
  - vm_cast_no_check (eq_refl 5984062708607661899347632600855537484210927348675522269469949820924748277302224554948777964758927405492471738858450763827227401419949905209).
  - vm_cast_no_check (eq_refl true).
  - constructor; [exact prime_435_baffa8870b|]. constructor.
Qed.

Lemma prime_484_60639f652d : prime 40042164124641494154303904424381601698397925603987099649445546188323683505622961938253989390289490448175898881475679815725449685324749352309056813.
Proof.
  apply (pock 40042164124641494154303904424381601698397925603987099649445546188323683505622961938253989390289490448175898881475679815725449685324749352309056813 40042164124641494154303904424381601698397925603987099649445546188323683505622961938253989390289490448175898881475679815725449685324749352309056813%bigZ [(5984062708607661899347632600855537484210927348675522269469949820924748277302224554948777964758927405492471738858450763827227401419949905209, 6691468, 2%bigZ, 23653744816029650752779124661766557804830015122910623340503021685283913738127373208394112994085359285305954209178553641800990658413500175254488295%bigZ)]%positive).
  - vm_cast_no_check (eq_refl 40042164124641494154303904424381601698397925603987099649445546188323683505622961938253989390289490448175898881475679815725449685324749352309056813).
  - vm_cast_no_check (eq_refl true).
  - constructor; [exact prime_462_4852749539|]. constructor.
Qed.

Lemma prime_497_e0a4341291 : prime 233846238487906325861134801838388553918643885527284661952761989739810311672838097719403298039290624217347249467817970123836626162296536217484891787921.
Proof.
  apply (pock 233846238487906325861134801838388553918643885527284661952761989739810311672838097719403298039290624217347249467817970123836626162296536217484891787921 233846238487906325861134801838388553918643885527284661952761989739810311672838097719403298039290624217347249467817970123836626162296536217484891787921%bigZ [(40042164124641494154303904424381601698397925603987099649445546188323683505622961938253989390289490448175898881475679815725449685324749352309056813, 5840, 2%bigZ, 41038204229136054759356495582535390203805870882695693962557044446791295555169425892755786319165377445230788649135588819546851013703214804434126519887%bigZ)]%positive).
  - vm_cast_no_check (eq_refl 233846238487906325861134801838388553918643885527284661952761989739810311672838097719403298039290624217347249467817970123836626162296536217484891787921).
  - vm_cast_no_check (eq_refl true).
  - constructor; [exact prime_484_60639f652d|]. constructor.
Qed.

Lemma prime_512_54374f25bd : prime 6703903964971298549787012499102923063739682910296196688861780721860882015036922585419853748190383615062910947743405567510148398820717100282856877776119229.
Proof.
  apply (pock 6703903964971298549787012499102923063739682910296196688861780721860882015036922585419853748190383615062910947743405567510148398820717100282856877776119229 6703903964971298549787012499102923063739682910296196688861780721860882015036922585419853748190383615062910947743405567510148398820717100282856877776119229%bigZ [(233846238487906325861134801838388553918643885527284661952761989739810311672838097719403298039290624217347249467817970123836626162296536217484891787921, 28668, 2%bigZ, 3280772037914604141313611295907319362387216320747462599171911365580396660105075775707451699452943797912172226181985672874150963604303231089899729061001655%bigZ)]%positive).
  - vm_cast_no_check (eq_refl 6703903964971298549787012499102923063739682910296196688861780721860882015036922585419853748190383615062910947743405567510148398820717100282856877776119229).
  - vm_cast_no_check (eq_refl true).
  - constructor; [exact prime_497_e0a4341291|]. constructor.
Qed.
Definition q_is_prime := prime_512_54374f25bd.

Definition steps : list step := [
Dbl 6549605009966653145776912652223487568488080624879223333298312173325284115188649420490906648383467831015776855003395729548594751915349464212617681313783108;
Dbl 4105505825069048767039946410135703904462237092779853208356058487969107312259080450594161546042937672806965698240684586956615507962784103123666040147112002;
Dbl 514888209071123952947631038108253604867694474708237397307713201392048938963608327503774596090960631641676121978754607691487417626698384479685361017928260;
Dbl 411656348875734768625822147560653552269952291530549618802928042967677389570319957758771104684421926922343583642204429043775985992225084889847196709750655;
Dbl 3887109174401336533221997747752135388550860685319376019330106215817616915155424464263456272861907503391499469069301624153624750255315180526086235334089991;
Dbl 5041053725471201858978665255586400604506647335549563999407008144298865494597334661160042678979982877434597727059038142004514661143176781852777224328311745;
Dbl 568534829204477774433417783569325150448509037519261579499401288609315333781182630640778745218884963931536664249643133038080558195894766520828784879734976;
Dbl 1508632803137484481051586504360369133784618951284054739005072303385966553828522530342887336357160508662682119967509586110539628851946771873885428370926218;
Dbl 4859343761984760374580635859261913751171442264007526919025850280888699765233594780310360345419765745016009158073416555320372030387853278878825414582241383;
Dbl 2615840484028788348918971197650896348146782609953183158537047660933686466866038914004473656411033904428313708471475173630562663175358783122383424513907399;
Dbl 2486337629618334714018829450003198645101311839202914169550311589507134024238479288553020344278581112810206067612461169813420076727020767726311761016245853;
Dbl 972262109193997986416466164730105496294306550322928126806371057736987160861600306058958597207007211083298959276456548447877465402175091490743420496656445;
Dbl 6327755408992884282194687212334408005805642428477002861190807692539568969230989051061167580100083045323149749729747439421639389769183061045704119916896524;
Dbl 2228435840717476952006748623955045424907724119248525888612095365622592907320024848574818786371165960545755950722926867235053258413972620897709500340425124;
Dbl 3018093981891068586924390244172277245975122655342269567964927750976117985422072426678811634074312742414001730755715208171865571899953394892444349869386443;
Dbl 2753984176140525930297309056976903041693999071524011459723116577924616465460736133794966840102725064410990059681296669728771009444583274213497789093960440;
Dbl 456595099283473487106532335216847858842375984690041542393130156594446381242067450261418366357721960687392049891383088020592132248969314982625592969005528;
Dbl 2937667001657391485053599716813547619708093586040470297276123365419706866891324722375291866375103746017643292588421980221096190646432597597488333437112146;
Dbl 4260898339995048219040643560067765254442646034315481006561662559684622822748120663167765957168128107970930957363258890954455967518517626966606134515418211;
Dbl 2839009891448067609640420126735154889318842263526211138607814647330733293888693956950234846721624031925954601495972167492273734746346995005548027750114197;
Dbl 3077286727381451285135777748900816945955822235563604477356224683288970207031037878395366166551936313841973004193167471866434526197215469658474908811783154;
Dbl 5922283317117239335163235508800914947371474549002797179274600548357110813514206709576027003185558192506465200578066252234997480968931717210042506897168998;
Dbl 3305278641093481468763912980401338926298951780558801655273062863917582274845653331865978846463454117799779025321823862247570281229995933557420429021831379;
Dbl 4330617119896548585972387975796744954014304263098657804154593593574195092195049163526206961297974479581157654728493806253534700091355938493028802897466712;
Dbl 4430302674408992807889811070562953995215709904256041588225375820158851282442433961740883258314506617324953447918499136532326484021819009773807481386262868;
Dbl 2925297043071428671321636381157185035778199299443412958108958983413650165715731190889634060102875810914968382389956871649000466901669894186616070375578695;
Dbl 1196523794933163264937988571355013231690069141895378330899266036740594339730896274748591323891769097186847677375687060089613638224963713484734171581237977;
Dbl 4462265817489755562453690501633324211914234312766215658010193460907662484937014237430296195241021775901785930858486867093706486387328159098732015731493050;
Dbl 3672484813986974797143316636341430354518756105481898180664572074149796582763361490240814943966478772683884411580223697121620697261770815255426802043671777;
Dbl 3894798078897139383797580111422025900749038267034815178728007261156413787028400291783065207731276173770849383065359311173254754960917140670158880831870434;
Dbl 491526837536816316380283810475849597194689852482929341067774947927400252401407930259061713623438873909804782230912626327223504551633213745847770534981558;
Dbl 4605524204355270022926257479648943209081779365494394022533651965693558425924978173414147318251340902917551879065119596534764467345489151944201618647116940;
Dbl 4758010068412937979027602721933659037049930980688125985328510998939503973808679340491875229668008715645343554168394902926247609953869557614096332271606968;
Dbl 5124258026324084593839292356004292573858801232655032634182691929555828646955106254368282078007876017397254314244402668664973795858015129702633760356734802;
Dbl 2080541093368528970907859716931422821108593737883531815580689432505432108337326827479803549827161041540604691896774267329662576193693278047835144854761346;
Dbl 2831951949728377771721201944861433401297854410470667411987487996690771396901975946101946103907031095832906420138963870631211311722974212229702411840783091;
Dbl 2274665726176561152084021364008484130286880496745654109557001093404133449376004165542338132345080676352182977566086871107877522118790837825935187193979370;
Dbl 2040664560149259865841367427376287737088807704948676070510902447294367854379221435473742085733717886307761638540360631429972363019164044232155877142724647;
Dbl 684558994148705657031290339558237566714490892744816009887044811770548145309363927409573549355139355395138176256866843154525803132473869944459890548169206;
Dbl 4730079677618636025520717282122419572508471845339729288459823617637959546061959626432810487363821614682823152818484932893324541720206694488935998742869960;
Dbl 1255369640803708179852477191399996557637481336679381461042722921878409907382802969127912554971599057959587209253690098569879617818962739584253299131474732;
Dbl 5796044777479531747233416030537526238666437129786574690412833221492491851906973759887273733680253125155096940434701971960350174987092749891831601501558330;
Dbl 1465805504827800843343113756978311490398060007479737344868487632175222466431081482064083763986151352128190613188446843419130874503467800578146749560368132;
Dbl 4765338910852899867169347739672538317612521632944201524898335800002799526023237865626245570433767572208945104606304123697691839603932430364757388418884036;
Dbl 1156003460513041905940865167912821990232194018859586528608654605690306879236019847139639353644598274355559671424210911650425929767050355998430755098504982;
Dbl 6246193671695593872543584289242381024960179646837589347474052882264231861845002823487046412378160692157966825464831630597588793764792036196829427624738625;
Dbl 483222179298539182058681912298583230462366234196812892215412524880898888978962239483156262841469842679568668703726124914233970214964269847945698238325856;
Dbl 6022444591220437473550728440423750985214494282297604288765351212882768638425167230349985936399727876188876992955260628262172266451622891183355343563332838;
Dbl 2423262303758033070778542334409680944336918639793892939192652742822684833434513189937056485305470117888489338445355440074641282681385543583988943395635302;
Dbl 4092880569070426011183552756622322111764343940784613547082620852270977241979977033657436934213747162833016066649778975016709407078806919832345498918440058;
Dbl 774942011580414607574902091611909651545068096316383148152019909788804010691763321634816711882565731853590698528490179111713310333178423492535208749061270;
Dbl 737892216693438046212878524956070563299477180355697346313394198955482175009286553699790522102431415297586124661012917488346910225061576219922264302726739;
Dbl 627001232826579306630151665648578528129892681004578502875507635520402904368684965919103560215647351084153411019247622340480002967894219558347776257305205;
Dbl 2989736490737722490783733459249982416272195493699565837587350730355895670619792690719837237265223518921617755759383876183576399879429049965757630033857573;
Dbl 3773431759327392773397973686924796912565025357511251721500886394154159154678621078281272274579756578265035589423675720991473940548607504793275658685704329;
Dbl 1031922387722553293586174591501177687317435489764752777655220134689842357492747077444437432865451417765420702755496328558236550114278483812619977685544940;
Dbl 1591578895362746167577050926085136317197664735200650052346327876837295921496941545740242015986079928479272378077268489243351509918235138329610439287338898;
Dbl 4814324957183785390523557010877309790102302473656425952949325144781969902036619615781665863782047910142911226012511675270503543005983221648124033236229048;
Dbl 3347263101350650954030954625294584033495194625953161249314944970263386677499979410873886619216346485190769461277446732443911295911216421098375615271374369;
Dbl 60429374054314946529417848670825764498104637550558765994029529253460338875631138911273462335863507975786356945777675284297158158338399711804866581180184;
Dbl 6619395245197694895981718493370903721326221390866451691666507713901398966907151154572928317721628798520009586476801254267648833211695562696947151981427339;
Dbl 5670293129911083047519591201923289979432688983813722806302574512053171229948876337193077784410503538597284690517993540248050780791711838957004170250179646;
Dbl 2978725518717122290034863206208754275223087274263534510770112921409500765425450116242869542300640263966557513300450007846082022928260804671921955792249743;
Dbl 2128337877724246096596821293562042782205705278713395571815515766295855027841094927834118254851096659197396557156878675706263678072826694577391880561002248;
Dbl 6336506857584927608762106626735908848313302121132811839761889848282751152860576969106316979185691814477404191382946432906658823550695298761556405541467580;
Dbl 661587270398799731330416166942890713721389697573887523594732149820037237446250583335752594934909503366087407778845238804868528351997674709315389728728772;
Dbl 2057995265552953440041674158185701115836963659599283365244995272071367328199650641656117473263379831374363576801527779004603425715700944642270158335309769;
Dbl 6191199513547874224475700645615118915333223802690991609881022998597558089070285081668300551137754183961768956645977952268747886503008025885225683080555363;
Dbl 4715013092005950097076461941844276702210262228632013427767437420696728696990543872252854614414800027039438364368510876767165501481781323838972964369052133;
Dbl 251116981029662736986429887293839075037625725722421117683035049993660039398007651899736662613761344522603923915241305686243780335170005958949036533132483;
Dbl 6692093258924571857460164239861470173847763157716833124689577604624415789229363489786375916580958281422060002010394351331655313654251926395264066802193815;
Dbl 3263483220387539817654750746994025820776496697493160478454695108093359200274855930776749764044046608472270207319550726001243403316566374004263317011842452;
Dbl 2110280594182471221008074628643370783587521751109402197722252811767477836820493794462406276738994451314906512140201204165032970022042929722744676692149756;
Dbl 6543263498212407392694851933985349758535682404284933451959393230770067940046199490110443665318267160836524864074105061946290530327249458613024651642253729;
Dbl 5611570335547195678176367284233661904535273921913876577065637384661973132415603595636410368912908259724736239137045672106021850061903328940211592816043514;
Dbl 2553337140802881539882050528013587631809140824454597227025756618676806632215270518410177638676841701105248256038884715384111527053145089985176159979285116;
Dbl 5383458949873345718038583294547706465754849021676986109903235910427022698732846947717687886820215828866762089388755769707740103641550333869480545838168927;
Dbl 6077197353650248347773307428230892616013660904082058188995917187100280489716480716411704597076014142063225916924873614699041493419459233662877766333638370;
Dbl 1741601074455132061269403309744396338929221295697873181612927329866726456140158833788018180981646064348625137571448655414730344787217545447948863949769830;
Dbl 5371842727811883441812866256074428859634050511970432976570168979437052527172203876862585036468055888394618220390614763470471563254154114105303771471980975;
Dbl 1552803816888384720645377658882442293469316232326690513276885851755664198393931348626988837926260806251836977053693073912110582277885425014472218489602057;
Dbl 2262520582173677922938541658761118087550973993661411835193496581983154997142155774581317087501615075007302059325707228577762025927122774497923385152873638;
Dbl 6551771318507758482063512848781085372708184723569576362822829793896990499871770697542742919048175555061109670154346236430861507133272406664349999083958833;
Dbl 2001230931126757932432758631124993752974552015521508525445020158921044007474555786862757864875154620766366034610404811223341027478918542621533753913451986;
Dbl 6036860140468043683236509734818096262851573481019439728504255095493344228730625696941875782192476934854652312454744694871661106368394284308067362688366615;
Dbl 3399554932198694362442115693065415124968385748912192169130923909357527828124223699343866661520126178857780901981180558918389671201259375359737704129614428;
Dbl 3516019745232957959006502649158700384690726046917056907072176830235817890257460547360436341979732461729543535320086067968533944544270206894874714065720980;
Dbl 13443674460185087614248487641137124464282486904048081215796177197587028204579299630521090921776508419760222294012420620761834865713116723697648864127227;
Dbl 4965129919418554073422961410954333726762636412975162944133487684905532569858419917025169717402698509991213210664369747656109101540134859669709791463273745;
Dbl 295200435505089657077057291609655348803455301503865996452418843257545531346462245693030985401600467991551609467980417732289987894618168224815728290825554;
Dbl 6327994624737545778149762599761715890887127067600473116223488865295572742724301590955762965998237921685045933103055412147628458648760051759660233568721700;
Dbl 3684331202431583787595962170693377131311922372315453829144107396230724048532731282192253867087600149941914959469532047606549267485940617710013819274519601;
Dbl 6061788479845856949334257697378690600841473656322254431193124222410425882792806045581881333898847914227950474081355032909004202657335796552779969829867847;
Dbl 5628283576358679527854991299939432579215599748411627392746503440454253147919168189259245523282706992393092145640436922047152528159393606961586170372702214;
Dbl 3281972922718187032501362925542356925237183499294420454862593411886497478033007163641612732289358828287951241816152697692847708118976560721381039098153634;
Dbl 602685409590461664080913451320144584668428537796026101054254867010674139897709885022986693097779902588723924588638494742692698251458656781925566229948722;
Dbl 5388502693665700747293902119939054687839313768869655199413823659734576887916367251853457133575337942583740001178710162330285277089117965569002276996597575;
Dbl 609274547879685137242393783925398568316855793015581765997561896030010162747581506973826456425288974094208447773048236290106707813249178693719072355252145;
Dbl 1661754051231161999135081778344407660232948915306166567374007299864992092259075309301181121623476548338929865884837380288106752267322397428784920885428940;
Dbl 2510179071343550751130990679413121006947148507839763476445650908493325569033991189102967389837971151588333323755947743391494031110802358066584042435760249;
Dbl 4882937077710218077038995948458713944464705632445174054649523832135136527757364010950553785535289607069315622109195763561631615375280537559040359187425450;
Dbl 2174887622537074197577820225778754843010482593059287990980619400708664708054280576845314500780592733358055910791000240983093554675259798488958162188798181;
Dbl 3063759671172968112982571313967391387506484796897624280562197817092660294880184831633167666596613506065889901138967366332044507688416447240530352474428436;
Dbl 2535429069083606389722808062033524959567055238272659655055483686575767423874425281795218475702894243515579637881412673604859173481887876247965556015456833;
Dbl 3871362874900719596468802088099635033269862403426137914305620484492565741387313173378124357010526553153052678468433315219268622561330524312956920424705391;
Dbl 646329334884399767603691759187406115335408984791692545012557790266112502036405052284718675658680002580566267865706227118181043370908565202647536085199786;
Dbl 3667941984880421576107797415856106181516471389281190645581950976442919743314706702041552189073898013270672694486962059354761980743802852797634331526467330;
Dbl 4246941140790817259799634729797246230961654387714991533348593711255648521032046016641040943887578695736146351747499496828281621254112631422767517200891626;
Dbl 6282372126833079722515864285539379916256298510819857566696833264077080297716829465900043439230876558728439997847444729392636555126480668378784705138161217;
Dbl 197929908576643620227921582041128645754936731517327504987224459319445721520202921796308357834761682657715766504528718358172318271758458311762028153800750;
Dbl 3779223049379732371189940644163515632695207651030679398905602263981773287894589187528245461854387511973279219003725627008595878375443045385065098026836338;
Dbl 1479230357843444018233887174513391173049420590091967637481147787694126315141691006847550677061709843325098632916190930953653434307082830934104153362705896;
Dbl 1366371499770111034161929280244428288996783963516683537319522377644919873253448684614856085074611868772951119567584837306357587775868948999677855654108049;
Dbl 655426050739000710607287697578799192452499304054809310293283074249336006253861173367104940076914653377990862018352140226720840013361997222742906276897703;
Dbl 1821010588729545317412988589143642908333445286280835792682597371131152130361874059571211250758700977402944684660693043507821202105165533383840963995909345;
Dbl 380110327258996120711384957183733395552609469192161699016588409184703886091899309852239438676754537372517816153579889307053200362097467378354120510200516;
Dbl 4990080529038430564344432943610772178319861198699325944671034569752392385960560281966605025380231715434802991821595321050949118020000189200858868360806634;
Dbl 1383407037705465032844953489559168568740314392701134835691976170236943641132123865147117652439664880750988275707376696357712543450823297008740257158613619;
Dbl 2887273251992861371576370850017073021960094380432512265145573703778399732039732347680093572658829870987374262634619212687281176039763353481423617885547193;
Dbl 1164597626184490625394282603894708656853111403161512026261634699044348848896463266214239347546065982632146218922013297488916619646098863918167200849548725;
Dbl 1144282240538058624755079009313519489849841944974519505969042754666170931727703176720225826950369220168373250852290665808890144207446060539317336370677085;
Dbl 2975997314006779413977803232900522903521952147716886829980547384652375919115176710923863220369429620958797999269232133913614566608072661786468631800218143;
Dbl 5395096890198790416803543448275323246284034959491917848628598461594406383305857002019882212706118010712925797527036687502720082376303394300045760002633380;
Dbl 5138821442786848988943059675351766166014882399025232835622295103041371309477895125310439645454544917009170981160908480982071910225337446123244115298067147;
Dbl 2140373415213104924806561222758508814798349707841580218102787061268351433439702562047718001666423633383119813913642279171949399491107928532645521850666503;
Dbl 2894427177318201094355763747644140675353093692790484662292632225064639291602879847419209157899127779257236132180345620132747422786391393583358693375610457;
Dbl 4321011480269312713807605726012533797187468787530609443178636314846130986800420570833856197948891089669169965839345856963305949360251001294286269855771075;
Dbl 4944512139709876170287212631574332556823517742013784935764683261336974011643422927871110839234449605552063703023524820086766026095050039048768396360815872;
Dbl 6457183282556753746163487316956172509656658989304303724705490075473676391343524769862838190051488867204474678160174894489746885822180563868901081977638408;
Dbl 268836795206390466561602628962143854874322864482191287222079811258889458308116535929536917678463492284758006649188345063079528470857157055955623937588234;
Dbl 215462674496234341317509297431489677520977091705001678792771792442325756011189206758537230431242368265673492910307595220408804260142582207221479967197786;
Dbl 4793199303745174538312642405233785433261369296561332117155066552624629407180961941906176776830426840550418039590063459588357864192666966331416300687219806;
Dbl 6240675840800272232170328319035448732775872397371144654720533143724265427038155228214498820776692951442241560597274817219518476427377239663825077203108609;
Dbl 1582461031925414911065174426165721204985772559734923703620435133509533114517285302402665598325990229331459964294176828853851807219628797321326987243076540;
Dbl 2076141783251647575999929546647250407673176761489087211991189774127839456565347427295865593586669896486542718719816048941791770212833404869365456277105332;
Dbl 155863331218369109387941209436800140694522770904499335837425597853849065614837974745343187260891484364429076474420604585979764308161773906824494601106878;
Dbl 5762759499978538867339267883335221497332743031548052492379378714606218470274582162354581460450394936392913683542415383323332890280556978809189571060076957;
Dbl 891729477720990295185169070928898605739235737782941144691981298368885287209853373610449170681076303974890977820617590733426694917472747406179280129477266;
Dbl 1279879729938832355852945832798661288254326083804244086390236430307822933946631488999811967368165382442793029385139526182519665414365917514167815756600172;
Dbl 4688896183037000985618859799613758711072785901487746713767913726287069949122151572311687204326231333036281266103040515323857784816289788025064065303965222;
Dbl 5652629746724271232034476816541668715220383619049644354692370484023202579679342063617650630104154451692319482627140674767217913626488406503161256739284963;
Dbl 2200618836765048784798885681133800460936830741527378983346768129234738966632846032879995271385526907164595629002252683062493447728233630876843335690142532;
Dbl 2412910281437051599808091365097149503907338474485598693192903749027075545572927348719283171659870664525133830559258428594325793475160653378172647357082318;
Dbl 5780668446921874751993067317316569477187623368098545969802862153555237555522401509534638138260016495249766013543205677712309879447718847324257850915325701;
Dbl 847834927543777603994373816318965892371170910506736494282741615705027883938812919867279991716577127393052362510123896991825500254184033072999938777291643;
Dbl 5036115604742838260980993954950373029447488622282656579681509778816281055643375831602374786909108808173632098797689083774266733187649028346557379906129557;
Dbl 1382924207644682959552487684086804857395915886709800647972503429394696080074103885414308320203903400522735361489282443298014891599967476479882946533571263;
Dbl 4265935218814439058937382092992750882559229233266122704966701504905832489382772241052824790559933207364113804767474473911247068061606325315041596738544182;
Dbl 4382242221780742098623466680336342595876722040897179517067897177317017873430268290161262852898690413225561803307644929380932036602682321752639106593390710;
Dbl 4729245734909442156927775954433533520779604634415478291932727813811044712997451359786780403083204321907448867343519108247094419914904950900532055976625284;
Dbl 2135394613002064537261857059899534313266051375067930333904972170162102281227271345267841303230655670014968810745738551073859969608413976152437787779713276;
Dbl 4610659833182008459209251143016358684947511608033888873700810360215642728370373044969123152186129220465616691538751470342434080834840552796785246199200884;
Dbl 2545903009259776222710218814946030114618836820235707073501114677012947381366981729504925396341407213505654495489000141491947902745986920697125346518648835;
Dbl 1901119934920632678869224739778972882302176804627471318918759744320264855954880661435150885785841845104127620258152834667722757554971194561028741553849406;
Dbl 372354363349978135945142894414477707587522945212550837467040590403348162829072212756808642888757668039399783125378434527000980891531251129626463580828955;
Dbl 4494652867457872617382571552563080257117432627084320271922123897050904354526226234052883107111243986544351286898530565668433981295615823413623690704287995;
Dbl 6440916636605552800908922850277421882792035272825776748287806156671444862184476120339859783477261148767480827221292527422146647364133705409702766317290558;
Dbl 1819082543174105929789644184458088583503764407032699540515495843605019947792530146628429122339716577359719295991637784597819346184772182919091279109275255;
Dbl 139667488180757663743335012130505545132545780779100723587489047661597610018879869190524458453153088083902993178331148748217831075423497529931534237527093;
Dbl 3502110508455601994650586371110961329018914515533981245865049998459245852272222000022968495222229040742513828084775023801877194348887940072061067231070014;
Dbl 267178221290346779708185070626410381827562728380253415950435421396252610193111215459848136949885387713967477092109882805266071288158384197607725992809678;
Dbl 3949232674924157805610431644883927267047091967162597968538811621653637086853011533093726981612123902387568813654620626711929306086047610212141612180702609;
Dbl 3970102909150026589326346922242278585975030536142378200999553695248948562496032618945223825327514646912464654364011830181213669614501024398591410571452179;
Dbl 3661405010426434528977751247333868940343355775730451391041785736402513886955682114309311243110283942098413361491534268150120970158822530417229371756228437;
Dbl 1451134903471588541280409562978880381222478008805767794596293892347794608655779717565295877958929716727105531095663418558326708172118552751933548004463925;
Dbl 4812559473612222083140531787627517067450930385525010691814049132035626514910228818477455642756528586850504521155828311760400272814883367582420898462435001;
Dbl 4474109725954863719144835591654519675053631624641348651897242184103625883885735284357774568587351208958177600175450463381542895508362811578112138052473767;
Dbl 864831223586882554691433040430532954175776673583333132143143334776938137368917433470180272777431954448943504992569791102479832493280669770376858912872206;
Dbl 2684335687470201602702719088233656128735771307522264930260387271760349063026782551392655732927155374252404823421089087826750003139332807414518195868859663;
Dbl 6217696581288916632804058921428980837327885458224166047263147590031272021881946059740081336622410930612145320155757030846799423770133141834084706981439094;
Dbl 6351659839417978013490488313071185657679621787061628118596510274650604332853125448022918621099440287005069682197159569075759445817795743814674101783690008;
Dbl 601564766621716162863172599235921066884323357939657905426813556554267334159155858593742349171279646324568858200246290177547044309464100302250356333776851;
Dbl 382531183870542752896633314401362252963207309844107282336472956816952715647287793582905727550909493839850639086050834210680861217491043584367065637240100;
Dbl 6043971524856144298524152274322520405978651754820725223228825539850642545088374725967641344617899172235334354857887640639581814104285153293138145621149558;
Dbl 2373979082475763797953673894857683827914971375556160069688750758600333418192594853533569697523952993207106440995306946291382977723051987596748564310331006;
Dbl 2231780397010733479848652618459596119158432648447744417173923739133997960550140919346912446137491991670485833066348991873975652727059213246669608289535775;
Dbl 1294985668790482394266318903131566337468382239314293589164196569390126034273726679595114280140090018634082656741348713911438652960615729574284193755594811;
Dbl 5508307255918384784517395023147895469760893436335381466130249217050882000290341678192186528247525558300706659894201088542543286507761185698904186913296015;
Dbl 4462620674912265976704460529975354855050945920069834002896821660485721107021180041219176220698218464958807360365930910192881752739464574388192170133234557;
Dbl 2219276509391047946811704825768868135472327298376873483381588239725213055561411471429640098186900693459959425779325688202765567391992093410019672597918192;
Dbl 3873270564608767965331126282721266445702643701006042620117953846659802385461095888767185652402594763598496433048014426680236233737087062628750574727189941;
Dbl 6352953677982270949023478684398311201085397268482880569207581292341584726100499645656153609047332210202263219594529724734095497135219345403672582249338480;
Dbl 2991887125105155887470473359167186645965035796848047539364456052609496743209929922607660353038292020424389395592462243697942272535246345854345570150096727;
Dbl 6633844961058237813323462825049196937688227165774274847567287987243553786184211401162557795908813340244941806020184752470588930200591552617098877346715176;
Dbl 4345017501956529199606364853536341994274694162081306711366231985641411582821346999052445270978392052233962823189394889536988520883022398214731408004740874;
Dbl 4804135630719108918847821899786776534213590556697181400606665831719025171971014989012506451771797906955406254470611184306865126858757722569364415095733746;
Dbl 5362053587771182010111509820871428971800703388981951783586278426945743858759493658653977180766362855673017744425499108174907190834166680753460027778868439;
Dbl 58946374214952042812169034670157965688049515583874723928835951416819683688967079194934798208635112245264260923723787799475050286055191155781717996008153;
Dbl 3976606889451141750712970936826455650330264559521716716298089159421035560458652165561000325566359513847509523036466268931820777533461991526770193217182856;
Dbl 700404803222932651449942147655758308041794205628832540562191931734575241027435676774161327911191333284835380796659813711155975814060278385652254376949321;
Dbl 4261277612679624750191736455908852959956418435033125344763844118786969608531019255232807535044899667314966786849429595797852945647775141905475633760045136;
Dbl 6076498643076263720987260429879942764043458362035334087662043731993027463091202197665462605508852613245667726982743671989442289470670536353742892964890969;
Dbl 964659410362098189516953141942726992819426149106467717412435346244986021991070271303736946255773705382117219434925968095298092469792104999092082003869615;
Dbl 5809729255553814629861319156356285039178670795797074210799601034455052452708005156042124289091376638984203844321748649255137453477393626513571137543234140;
Dbl 4577889055899577530646754565207018766354573626272952737851193433205469712828250396256339642135442441444609148341831739175341595521732108529805234309227112;
Dbl 6466140977486034805812188500245200420609637760443998098231659476044482725492541297892713660674856164838168398613883207388215642602183760222745202678725295;
Dbl 2942520044631293968896286328224776341401337963981858243536080124106925178019129084855321443125812916991229531026339864796200230018434259773665362815173229;
Dbl 1847226662419273146053479799205770433111485766535174499947476963873132980111053893695067360018146445621307751317707403575563286353252664650721561277231953;
Dbl 6301293008359577378718095005208276991517811997507378559104421973940784515433291081128146719522742173033432994928016592309703722283662782522243470689126064;
Dbl 5313730140529792563062308572304147914243803529516015016328801254828627691337326310817561611260806325733308697224956325689928681063534167453167828018090184;
Dbl 6352838844009432579091525729166170335760393873302041597296657337408324219229021969390352011633372577589685496855131727867245142659541502879381823752012023;
Dbl 211525554992263754251060413162059249846194694478185321881730638078281931440003743989832613756907687017452491844843529969625057042840031511564805807171264;
Dbl 5438368898465474492933984946893530899470859418003265231825803748676916795609459204703341654822844955551807321674750461075958339200312937796898234821180122;
Dbl 3428196643968536476248149290975026690555215508183963112388561371457468562521040881338161145226186389802874568922431667075790814270440635546976094063918208;
Dbl 6119568665622547929005530457588779455419324135998296611964372619990550767283545970388550223391030646456998388350003462708754634650746141070015036843691936;
Dbl 2044890702605408029310463667043301377734491015316823038128799413057150081822962686888289532270302468712921173980671899198755813910860426130975188553774851;
Dbl 2504040793924843178215163370837708643050473553391458954750173993265120085686742015164495081147585446430627303178225426122402321612466098948649941814342200;
Dbl 1341775375007324753461123638496968379715540190453323966114817856378439602742274866538350822476099151741569103261581027940264515741127169230696182845877074;
Dbl 3090048733875142521366629121724880217378974907751294550903741730453307896523574663578002485755079276658240465648501364489214875433736306592824211875226665;
Dbl 2841861261129286400016436673264141317065819139449424613411788619460711264446300068539307477754597049491579984819856718345389275906550711738446006838294983;
Dbl 5918536347170004056460767043518558602429635315184060743397565339230074954618618855025748985286156257153962679093426657161162253979917776005325750430727567;
Dbl 2861954908097429394940248710290645591201181114145530723148148910105741462425801270082196547748944025326742632416372060234450925729200276003392181903632872;
Dbl 4611964723112836740246527145121698071253952645069892026943364649865328927592319836989109026684210066485185621776283553557592312711882957941567633023913016;
Dbl 2121747706743876207381841572374745113302768251736712704370310617992493805511497101020286424875409107424478405673043921058814432629778330428471322522265292;
Dbl 5941132530966831112226644154902826825508501089511118001084236508164201880264503291568168501394164984642914744255914982954630055300357418193972051492397172;
Dbl 3352559572001729106475204938495136385543441703047791258864265343694717013103161423956853204028113473957636744744420691453959911828234154791395380213325940;
Dbl 2119963474490532201815320626915189994613054596071763577536256915056645423819125100007199052749797477025174878978126759631151830177963364461519981308101104;
Dbl 4005380047194029648559635672714492163361723251511042767749206000114073900858370370143236444877440081160363888323552190491529912987097987755492112678040862;
Dbl 6674403748882427023350238053427018719327444153546270007717943654547837612014225371357835186843383184356108472302108721377040959511322775580571722860840765;
Dbl 6103981560978865294223346122211533087448698900492953200762597359176115574673555187405997503735428014310523684067906852159237936409246022771791897226196402;
Dbl 996652141095382045499607440533547778854468051831190919648932345548247448206641650775658988775590079965844167039640167066230636222609467779331792465407380;
Dbl 1462893577529976244685879324508640700541131794783438819999238575294579662053105457964342812205305323612718449989514007956882845076970160190850608859468240;
Dbl 6641073848866817791382053793852081706339077724539771553797670217134806387985308824814453629364726932821849860129718902600306495183204677904087573021997134;
Dbl 6604296951904987692416600173683993021946661342638887518075178157592843890700107617935497053603778199614772880442653965739176227293329694367493078476385920;
Dbl 42421279567713271407038708953486493045279082244244394366037639627015083512898791583882308260609350421767768447152475407272734677393233380434482844197146;
Dbl 4674370753751957225553304176657160084219272313221436842320349467548396323644507191824147967801215103006701030954070045978609922897108845611559920531644597;
Dbl 4666637496998002361822109818056930185748175872988252420910632711546575731005933497000352534918164411342021593982959487697663967748077613290744106144015764;
Dbl 3079201855188530810926446745923569006420901487348060877735169698201144342678010453260819487954137683887208023812696057859025061033283954053695915192987679;
Dbl 2977758705263153728034261651888753514648027255088688912387061447444576637961544040477876585076212861902170051162325732024010531335569439232568957477657186;
Dbl 341413384636876188875015494894006196472892401385868990459167246882765072335190541939384401653601683662122889054416413378509044206961466521450968992736922;
Dbl 6053453629388906695159500273260953449549910516178866310522843813902413947605558620660958960163728755097743191101827329584901070161654429979311495434225573;
Dbl 4286053963029171915936090816439060344750522723782030552530254991037198356520905146521660677239036161493534559786694517834886430240179670259844925911737481;
Dbl 5048972903385966211824938933778779764641574690041799237386725569636803010090874863632570008917717914050731428857443079612045369320029332643723701235621739;
Dbl 249456965741681315787934294583924584729667918190216655105011636678123635215199786829011443009645326237884701308951360148126050569484827532904329552185051;
Dbl 108887813708099411703700539924856456506693955081106875679913624525967228039622634312171933884534234689674673894348752060163801593543000420217700629388594;
Dbl 3649987030520269173435569519416488842738980694422185371786898603763433302631543924656414419456530640136648455380329147801073337380731577106973812715615909;
Dbl 4470883524516431326949523032490209824822780046598209420384105657010720986370162403236971952716369744477472774580066623573305227901091557035295478821171547;
Dbl 6270769999625139246959641349875462151660694482059316919070398113760832946147832227425586185638456058893432803848950680236601016080803990131132677904168422;
Dbl 1580272057591079037326755832016399175978500945004170165523808435742156814106070311332053382112807607966004361182434668495731786344774076806427284267341483;
Dbl 2866621009794991949191021050175851858853052826842943852818782027686960103155925122271013248323651414897969975086156952155366677259348862983241278999384692;
Dbl 4600855847551957785841982524271701962661394538504083748573995166964501961844994470871211968465392424980693494295691013716306737441622958504728229302356650;
Dbl 6101497094411891402536903267197350047799809860161316182626065308066121808992836717169151305309559580526143551162952131464982692007948630529478788735258939;
Dbl 3370260096435563704144779498722909860180649559502477641687721633434686539130565298302051896563260791001017503870586416121741084231428555666753462670798949;
Dbl 3717633956194319834846764658942281955328205798820971764978127015259483889586659903260070220743873708200179335131389216218202999289166864817212901458715100;
Dbl 3902717092284967209897247606827381335039164525845630682162298933492226123123092154223505182352516570440992150336233432332810829757501097471558460370230349;
Dbl 2523778746335999908911582693014915169173243285248668622831581072241982299353554332669742191497437212193507169346930833464873778729842720136922933419479992;
Dbl 1524595170009560857848445286669877676896102827873092576883262178284189813066179285319036793668919733248771180715574223994292377032327721151138362880349060;
Dbl 4658380554211181835199587735668712448095118941765669384175851500140264775749970352924377602585482673731753190716390934445264604212637524807803151974760440;
Dbl 694379377891373036044941556571006396801197270528036015826017804551540971769591855007416383894589023765839495150639043720994926159448976357320091513951509;
Dbl 1580711419119209334306424558583956323727987776848402295720036313729404548773784381215423507304277806317145022211869089357285756344671803946941587019937850;
Dbl 1242566210692130793250669373826201670912322071640345635304558305732399285503650876202947154792522690835600373644437882535611847037281734439316420110759176;
Dbl 6034363056686850073805786968924846053173772257075877084362338276455245506630425434816870129969467041779626769207077870436085404068966809650950430730871646;
Dbl 412112964178397503162565589998216499242898225347793858701110854600376392339081761568742367977184798885552519499267124543098007842732594736040315647797982;
Dbl 57774791117435407240019713156267669973360282766748469747190404537126595254330150774208880308877560262872969833222999210665980210225781135875922475810543;
Dbl 3478819623598149020517255530269939893059293189568684416002665076726727604317713931445616679231747125765550521038938965841265671555948456655054898905821929;
Add 4811845599580576097086111227128763302966248262283687669586260388310525027522991597042748633715372714937144277315040259710651866585271620711128652762077466;
Dbl 6083833630924638810949693055444472605001509596421317121804330386148159236273517374462777256843626963027853363621176639842077586645215744942043031494247540;
Dbl 5494651511137613361239599406427356665190430197034759218862043322381286961396390672435694489328327889048928138890742633660476031739104591741840141335343495;
Add 4701519666301401190325416730729664739448627702524658642496140440855296664837766675638193682393525383046534952130302885278681223959695273929962350716612414;
Dbl 3464980123310647484145084763752858245268504693523520241890763898320275918155407067498617794133590191598375498308402587285348549818907134466292483496652266;
Dbl 1976139282068689394898635744616063568502991717150055407214748720531438283246210695356937671554180445244880742625761381202614557229976230232109890899933458;
Dbl 3856788116474611408864436227223889390544643402064024834258410566978131952706282187119821491852810733700946723079732412419311974879053341856743988759339683;
Add 5683651550076688154910556867660775907107888306588608608163446750008130643440744348525694112651440735095846809461186396020509297376076407594577078024894543;
Dbl 829631725332554720374465273511652142401480890443588590649177969110475577058357714063680349587324766046545660225404135754496910620987460125198990461812647;
Dbl 1264811804111086223433951146647236834373412543631233550513430431909087768395045224104029483368267590608283069734674246579741888261626993973132393064624163;
Dbl 2658651957879915926368085932001979524350720484653502495104649814492573319720018963695193789157200439599614220002796244553157947494923090322697370019525663;
Add 2884185097577749590799898461712217014841440095172553067794829425015475026943323225069271862783061623380596746534783999819210119088809088991762683497402206;
Dbl 899828339121995695657928763967549603100934789018056034058431340203390335422987072294120896127289829105056803314629531263301090793935719273794645796211217;
Add 906321064850945041018658381932624344549137737860286347958793695747449605128839411283690850094447232030857444290032420230873262001632278557655445746415887;
Dbl 1042447739298247821961730212789865990788402880716936771936977215420520150232498970242533139844548874918310358682710874142757273346780133672797292141419677;
Dbl 3090976897297925180716668299726631157957613430010119692019974338442041251689345376014140400810640175147874173685170332490800394685284550188230985334180397;
Add 2690851521812780676367297555698701664746555293921248079965531669999456469026245432298459911854684140545052057523800250086970304190080519871589664764023862;
Dbl 6642845454594602590043561523058833888913389645041936003260227844412971894184498295902958014199215344324485901730925014390403219069701769374563368610636864;
Dbl 5347083171475301801676063211218447369266261344524964608630717423496703086541995604274637266492822065132650875978968347934652841671193267086186006132363196;
Dbl 4367810852420136195176825486262644058205241387760319483950746804479993889762795940655028412313580069067317576281894413183159025627514951259261054670278360;
Dbl 1181565344779599146253552962148793822030073245394820369305670005063210047581993731781631664729967106517136567172219914334373523977292725725555437899014100;
Dbl 3243879892767489369343855718043544978098840944338240347151790073462941466513111659659689751377834495115076643971572938036838718821872349401703005633221;
Add 5268046307502105785586810928994360153696245618801413410909735760651541810410202014846617350302082330544285072025067519562981921157340887428683157760835372;
Dbl 4325529813760292015378204689413288494620297243878736643838776718191402073608022388205497010196043232613045701147267437870186938351421763819016469412419858;
Add 2091163952838051665212111317898736405691112756392473665088898912219242236033646819262010498805838419344237963727459491494318096750451334896248979758702790;
Dbl 2173429790731206687045291841950396932428806646910862667792005536016703732429740513347491356300938761037851081253403714287602859309471756801708342856964470;
Add 4442812108248695450065989228696972150161869324701349386056880107373876716420352871810947377354581282050789042935842358853577849112482399113391939178089881;
Dbl 831849098917495449921291866598832133411322293104445319519029562645539448665056980483863549905587651831927246023179215868033000208566201115136384009974707;
Add 6417439660539724517660227429367421890063282533818881454915035399520827283996358109162586908914907635673434808331819450292722642207001757787571086745052627;
Dbl 4452931184112790997949988501686435497797980248237874086645121886368653576551489409796845156166894340225175628973936802580782154547791256191269697447789751;
Dbl 2007948453193240319261909618335398447432541545797346394259146596294940911221566658992807509571045829869127152426479139487861869546020164604239176890768783;
Add 4240089599226968260122057545119000671179299346755704195754078057266412783652867551404621075782281604439332069163398209567296096985840014230808960352666114;
Dbl 352390432907460068752545257426762540799040606700490067139309323521800824687286948209539457423055123266732882739650824749376369067239489405551858784014677;
Add 3010946277123084506075663346520832649700714537500945375305804300032887232736011527105161684964993498591664934791152694463124648423044615952544388036292707;
Dbl 3465946620132012686202508698477867851474161300223466076108099788831292476150522890228182161258591771866731971935606371743323288626132144045086176062706673;
Dbl 1440903675285666505480901975121971281569566146023010623191678822385455754974397149751480758734719270150005679332105974361065114802275578595708911491098098;
Dbl 1258103013993967260625639507875583851746168530687677226890434869186718779662439623026746874399768753344626881452324548924248397744739097816470899069525856;
Dbl 5987268729709699784233405200972493988093388446914207253324814669855096735854809696605172326132333249343251212049167936302986445006677975135613528787156834;
Dbl 2679630123712591584504652689657643360038029551305242681255462188846551828249550930383112916240146375842988296955437843526119594589777531972079371912147281;
Dbl 937718916501412361238427317318459569417767043217768571474411950793405629698342963796928682563214460301342094250420707882456104107325484567641694003252521;
Add 1930042714708159960051557322913603409220773140115664775880520393815183711622830313192501659188625325350160354567688566522284115588417688919666392331948023;
Dbl 1001140086072437994678453132999285083353236498797972819678031404171329126325402590378411635623862365999979512626979356294595053445566068013228155952947744;
Dbl 2165108600967791265885149347390660752379026342336971183346473380764980637274189322288543827785619160544674027983022250366428297043656860343378682121524442;
Add 5998409048878824248906357285344840257836173399365529986490402566775812759529798217715347963360068146214543760514223927599662132725882201672967799664632979;
Dbl 4486113452534988025690606120450959438187055341269917157945006560441011893785434114604479489366919023558376673475937707719296967464308800697678891163372801;
Dbl 5167357232925968670770431401279827932868202876908624297473218856962190439139348427673478170624056277678947573682521844434266197858120805511979929263317474;
Dbl 1634204568356275469032989169596613314092218859639045681719378423043322413188899480019463188856061434919070506835519090378705387304692593549331134491122429;
Dbl 5845480587859307712533095337580557273241732889941721624768861918528907153511758950175842212334276770054089930828224682721607586106940969398179617431013559;
Dbl 1833403152697329680069729474630474575778335420867742059487116819924427567022084163572359396180989029147703456000047837037308154104906278377576995536099620;
Add 358939457119451409689297278366274032997945790468582063256790664854574653043224807576098202174154727991589370055179505746190557175559327466831209302657066;
Dbl 4779713344353117885039835392282372703885034158246186695244590818608647266834857208121466590927318282852900115255403835401131132996991050211128236740035557;
Dbl 4178403679237051568759335586024639548599026098237926136776640357939782336843590894003526586120162342163135579570927006110064562978494954845720202468979585;
Dbl 4039109166528777195629633296716889350799844220420756059042644763512616453408589655608864003802573271924164367800654472767722640484651762616141880828310798;
Add 1223388799834596486792988543355306560281412448094572835986244480548792342447493697938392691259741902163104223003950696857899854850672948480502739360146608;
Dbl 4514273173188547223173211804711682254525073291040435877571627882910392347898363036340488240820980920390021328562119944320311867079278207195519927982463547;
Dbl 358154170021224070406593355602234204423159854240664709598074250899615696955453881657590554214381351891591260236163648383706182214256511318515265904669218;
Add 6080530544907469954615217174812289936102272682919857475697207064687136154552981968265838044454958355035423919237496896407929261271796713579779127945161239;
Dbl 697530661523253345778740603510673481611516961004871497071217824062235538066134207076275368906312411312294930687955753981392171951454839378988957628433393;
Dbl 5451802468095216416086125465208073661190703767466953125745779342541865159443265206972615613523814754588719284052256006488171861385431394261365594419230051;
Add 1864310774667788865217876983567294304713612572991098637181945975945320172837400656383213429636075463218237495749154450633759902449590665638649889065190196;
Dbl 5541728311349195615497584344232571407123181965700660346799070818341159094950591035816986258712581885277431771415163022618890874629648089802063935682480274;
Add 466322904453352368119574572482609759915799031224352729323013979795567460610685384817690813456710274326444641362082138389483896551169039390640684900434995;
Dbl 5825294344872646159686472004235214706253235234428512190906824771208448705912176793849923929940587560444687479204833720150092244937044122141794001536168570;
Dbl 3346406158540413673493650456144699399931057026324973007835810097654249891106080666704652086458455819582227004386382166281510642336004352529137219155316857;
Dbl 3876462430263547487690339368241767822448219963117449537569542772884839949792454074516740223229672846217395772963631674692212854169113408147267195559151706;
Add 1487596427946828525472692815627200249509768842273142677847557088278978966566326896254163559885506763142350226953075194301137750475168552782524864155288538;
Dbl 5568221077897542622921183804558260367898325900080912840833298811310746868489848853329406793585548689980009985216803628304188376624615277590427404107605652;
Dbl 1102045738519566299769701890029009626496656700215548488968676289902781485184942188271223474125400421462124546113279251515363098697932373639201057341275267;
Add 5317089294638040129156534072388470196263154086192260441801581738516784476455374218793223718744736607212252855603388444028851514389686462414134609425629998;
Dbl 3429319958317502373506370540515013176816780587403495755670096102773355728078127397164643111977018104611677211541853941063588693187036140999370286875981514;
Add 6098598507386932715205932864225193644011387744864074887585811167138708787450726695455619072515869591021563858299605911119960088990816644929563063729480459;
Dbl 1586308759777972846407065989012549533141191830568132508703767711081177312888208876202741221895822074953309926682805544017602287285966687054782297890473987;
Dbl 4390997101217286295461211013571566808943134878205892074798881269714019224196539529659917147045060568172211198900661685460207344179603069765357551841776961;
Add 6086190337873179510876243522120591225445895763481247377842716555274254543464880605646065584841271117153748070385430355822745576135470597772963927723675767;
Dbl 1831146543636320810524671107780496989359336180656542764830020478381999227040627989992466822773335653839582161569022979793643838260457849983673755572842474;
Dbl 27221828369622241322373809285279342934052640038560014395982512081653742388277741030024713678007769811607893466084702855372676440143800800872045312054545;
Dbl 1683156092889704359621147328896706592490259457525200549038830390907247903487255445380276392028042105578866024146574289818193564325814628040455647759935907;
Add 4871071000895039772342904018973960361322657282007350617272288130196301519725613301161350635839149617332308883008920113496520648873962628094293053874218009;
Dbl 3256016944055657635432006081920984705763310648537644030835131186571374974727086283097468685007907731346659293343878021039268124179085651105679571272188341;
Dbl 4270108952181940442505968023925658889613180712464781250249777698747166215535423040948669453749442345326280439701202741532719653911451471594849306080495799;
Add 759530745680257224502123859992924558088739756181995536887725642010064157192502391496495374245763368033067729197524521405032581822702364373378949460673028;
Dbl 4459951537441495602873014203544379424611823642767007460644765212490347425310043233555140575385700204799543458202423284613172818595889480750251134439669981;
Dbl 4656536178670129695905256864855861938201948308523707869803480593208325131579705121488771606258417468741779929080280169572417549012625692387608978431611782;
Add 4871860777513471767097295257867499336312440180544467260297553494826069197349607275371641124590296545867318475359253082255926471770515307903699371958620274;
Dbl 3157933849016832074330212530191896836433928003476249657171750624586451843611815552810569908522160178021298426937074417990866153584113092320478063290532286;
Dbl 4606499243621842765043759509933613571824635753764815881956038517613493236136855348854302176887331163860836773773856073082349990401297347127156322772954273;
Dbl 57477793312543284296365257066626985728818780953356220893679634256120525581854919155799400443162096720944981505863222894067417534967303955363776062819287;
Dbl 488719994529300877835074863062959208361211083730823285790029189050249324024463763273189044094940573080560553596632190615998863435336280916334158665583614;
Add 4792780792915688768820032075684805773520508037019060353917226848566485631836131531286646568658140304859647219076167335366397929851150205640608347009580970;
Dbl 454898898257242058247858104129202018553901085852671295781233454023769586459306954167421916105301168056098681637926335354426242578004724308696391023068208;
Dbl 948297669409480274917362939210227274705032936706630294528980236278477002671161717343300423059352686422533748597562817771865159304353950591644452045408256;
Add 2251822742245646909086862124217252766091197906793839250964846887958271472591635505572074911001142393707790188107804665723993787940392008681557444258196098;
Dbl 2472006796308288749056771452076282376454191341960405596240577247183192713769064161919062346357031997977167085223648325616469826772432395108260274485680941;
Add 766456087536172391590188002273353372852943617979111258087647618661324306829741589026268205593822500236843378928063869747030545705176754246206461852724624;
Dbl 1645098087956380700445261927810563772523153255086225289727940154975809723971709222943200197304749154766687933506148699175037498200867218688228281722525392;
Dbl 2050386120204757495900707431170907682132437302063364423622690712531819101374536385070665128468911272582480713597966097382877315046523169748650895157759677;
Add 937606808212627361259566319234555387542788735832684257625605589328490408324611196336147719936677543709729069444361415870641313518168466253414829066691082;
Dbl 1577933597384587790966771621496007766747106893415288159188832519514257984676240256499281190437002540135403867667102088210827698893515039815477945846227282;
Dbl 4709201837629645278191329035608646223687827418453846060615399668361681256339941087538876795191201896765557470456937174051238576458480618180508539898459469;
Add 1465377126191345456082577310935884983726840758631704088041155813814323710076661390036738621758843770892823196337678034896605069768265539834682948109712830;
Dbl 144726580606643936659144432287180526152588517075556690926498093929962718259163329977780682326379785310968055336800360810256244993326653145346793736264747;
Add 6484210810665722972747207090988781251379616197494218728755628320036841607517222246487697963409547241449744912860349083196264363550849678553802115599406406;
Dbl 3928513504339678286534068360678324890611060158068418192061811109107019336578093025961462398088642163309812341276089127246748754490674934318556291231306637;
Dbl 3574510159280263872439185453475725750361327732767718281654535205146980900599949888221568051672195577785840262165141953610086569875781280190267878719509449;
Dbl 485849017747183386731847337870257320743774545274301717284448259340335035265533206321698636344760390770681690481449144269717132177393791777008066658624961;
Add 1489876698315568955240602051069183957576065789928696769533336553180437399699998258156882870129137759716771969551512505993018911226448300525455062414700001;
Dbl 2767648768354695403060590235036992693668942225441150611551839024862563049445098329630114275198328820364739886956102644953321140743505901453063268724588816;
Add 6195258598412876406432526926699601723504739639339163164904832965033822845445490536030777679351828674078774323803870672004552924097882512231854007964755931;
Dbl 5873221887368140609656492232355021124967565594890517919908658425275382268981230774936835339034220707997067877325129094158407331219666838714681755910814411;
Add 3639641800662874591951489286591005856064829183357860041006203039799634691712940687631788216595952251569932725840352959364899546261965299628342677816488026;
Dbl 2640998826411433063775413418580233632133598146686331553674013191549092747221155674349249139690007970027466944305652238618367857737782497144847611713246709;
Add 4722147733085358078906049271730501720258482903579600146306392142294673973925244509253929682428940321804409255388687766308853234638404161518813918280870949;
Dbl 1938418024085638651043972562132505830594434367970500502753682688749451024890357952796854103388790816458976597562994316659566983866452051986771568154588881;
Add 5086835143800919509661420910844528456406383094857227368045710071467101122997104249030832217714739185108943257812170913130604530428695011234974296071930977;
Dbl 498016207633901684967164609704897126519696370953866881528415039952083207035167297980423462703528044500960174119376014799389824696413065018783107930540454;
Add 3996086652573651269235666979451288933036357391327356664788382248411127441368279652393368142110329453806160080955616504498907475768565359499945741343411827;
Dbl 4944524314976866707298886614931299359557001587597171728461623886768479275156110973467569876911250997512910018071756115915165509265752911804600594596478438;
Dbl 4565017912957315769608356906039805944277450534429156835327551933059693506302432600855521142782312084039482888450128674829927679810844280728485360448581655;
Add 4045797249909204946225872917850972834038251936850653159315067906510694797094357466752588092337686929866444616894233477324395069159082124661461154666361867;
Dbl 2417393552289570460760009796096441318083775715442248095197271661480088232709727329501978856896632670578704214935071409428997333289816523428194441163619010;
Add 1542470518754764266312774268006560009136520111249172559856972832607926545207992607161881254649761699144503366648611760793301468883044218762109878595288326;
Dbl 2225748490660471702681817783880619692509587563962950579231896678706068409506755799614176990918519499693571962511802593645823367610640279968841968442346876;
Dbl 2942229390171135366559488653383143650346105810631207582520776020654982665210991727237081347444322919771435241045675637955235687641028664676106608662264538;
Add 624332090449779472380379284647630508272321934102902270185804812869542385158885824453031605456341937343202081982300655042631198191383025092295375977948086;
Dbl 5536348710752179460303675049083187317417484227807237997214600312753617321621883091840873107024827103964886228525160630396637870945459947047897435252611787;
Add 4270761078350032936166094781515132338436636103969593851638757562486466928251325328341896631438890413510008608948471542147559771264678701777907802259588029;
Dbl 2191136140323949566925658752869891048847923652995598094080095641430708289798003601794916688008053588292081783494180753396419988786819264359083822029929264;
Dbl 586555786618063535362722440184689922111911699565698312541420829112701720262103733470185786541909352430049040996241973592357320383007458686031589898350613;
Add 142662027890687852010091604599867241636427863545919290698859182123476719056540049075190945514042294716354485513675507159934321316361301168503616416307630;
Dbl 6021626427259266335489402547243050454588949946012039294100274301592551894050810950583318973957413219979221060700797634854002001759516259015257484791854562;
Add 973169446219178397391031771651218331544802268511985949586996024654228573914282629114438452860503354994545806995427023508145734484329800716657495391398423;
Dbl 6668292028862114488096055266375042350937516213637682334185417791704514778447533828581128909429332944896316528126610851692304328692166758982247167753511282;
Add 2789436206669817334052429924606122393141646640098500396665337643020934600136042974789471149724983785539404028157410920466158426410701232514290961110993746;
Dbl 5408813956986055603822593874303708647698708237107289524381868526614367301560804748359327976142407432764561906421154621072983269668399867728967162781262407;
Dbl 2441792753885051886637728154160405175838658031035213043103339791243473277725006715954626482379404949215971795066298435691688650895586857240718432023996727;
Add 3768544729368015749387511776771267717482437876672758714841251651748233916840023822394737401382906332553705335512555656869134133177785205365399819297600125;
Dbl 4647450227911259675233843729111341976705961448721593650527348079018367961213509731437808907301353931688169458953166420460193066089976107312443446117097826;
Add 1188211899939583025201877951458203876330614562518917311454834978644746113469414664345239639745538302818430765258041782215459378147578058098519857790448278;
Dbl 646651609993785279779975709981760872881564841154173290530620690580964337826471248895184940920174839250414875319244278157781539313829360537621564505109650;
Add 142823845411634813182918985865815318318950052372304703012655034771819777480422998711407730228145847839049898898085551565152808724049077120730531567860991;
Dbl 1044312519076721266681107428689086450303853841589780450636370308815843728971831723549502849854398046616065271592276368104566492726468867695721231689744907;
Add 5371322916185997341070643316923888956646127089014089379826699382691009518588848532514290147608308976291031599462644900722680306817149551018897332597817399;
Dbl 6198478685872749485148274044988921519109610203094006431574998536914242074007837743385705855177831930570037452851632969281198729550915825736182532303119013;
Dbl 2980084361909991309713901684502181846123156722327250165601367563765416379694846772462445516207613826940108977195846714763881215804228159039754938399347917;
Add 2792305513451385357576661935838767870512431126316882032750837265737186159851642896427566755244664499978471340496630007037724793317102837789225205952868525;
Dbl 3496992240119715238254386544226360633598814209211733216919057706501986331747158471690726988441110540367260677254897310835001248985618229908660443446955764;
Add 4235918663694601182703458922061838552075904217364800858485085565750699164186051432789085804275023741953208186752173345326933924639554475598963987413840145;
Dbl 6641968655400671793431795640109114652911424905121156302124173858552336065875393055044252839844427045831908263396867756997291508956415988241844422439613059;
Add 452323863192128720878983039227969957782768681656742666931635396254634366770355025242456452724032702377158421899286167316634140912417298510685518847390462;
Dbl 4966537911434040577685125060758318828702292414767447173761058237002597713171745586129344589666694209875307610478671709716540109785955102472760522630985067;
Add 387761856561410366330971634321539954789591464149273844514261141237667033974033921063053960873379993815629788939033756898702321820801394651373019860975388;
Dbl 2595488773161706674807371833085912347438199211094634682226251370844844573200573638725843332432655166681092780995205688693416311389168595867003485560214393;
Dbl 634227802942655264766184458932454176363194693082592747832659188962491778505017784046078069730640749304688867347052861315060306121835567153928604781830470;
Add 3378258616147634247755375219480259872231681233104120375350141267135274214172475100722210282064440544331228063668808286479739429351335112764996860777188667;
Dbl 3211494170872359549996009810648681350582936536403101516755125564650175618873365630230898528269021551265304657564737813914543530014591420988375909240453845;
Add 5644682574124175075281840592730613859951124818504579925492858000462378243668047469533562577725125988406427283897115359951671674244679010242370584952731492;
Dbl 1712905886454353039574617446205429789832484843287423407296710581027379918716556154690037472641405101228100397190087769672410074016830386447286768808671991;
Dbl 919669605915744706606935212412334173642279554683243784225466029593244380385739283415319411043496918526442686625265828510958250261952923059756943549343726;
Dbl 4069289902910128235891122994109882158862876582719179418921995507683756507150377381315247632860275597538601104607540162309533374905934624007312020644378264;
Add 2520911037113140536748886752100288268838809298988817185119776325070339954361496385336121554085403337752967100074726865978704370136285051462343216615791224;
Dbl 6502109004668453548433100930844954458231298806517664588450391171681398028661926794476359263827701725244030245009444504917745199916960350761616054445722454;
Add 4764623871135800302849989273936969325417280907966177559742537129317742113327782213189401143526747567084090245649622416739874022840364186936282524040426674;
Dbl 1762638428963292721350088736706042758291392849665519554619364157196860263495325176042379929446180521113814520333479640045620887620512710663608728979884366;
Add 846044251678508911536619908126943325127403898572618329769334489293967526727399649106464084961111064900501698856566841268287290454087139204123319766945108;
Dbl 5761410560849638616440035411590555605130414359664324050111043271678191492375204708615441734782903010884331873675015557537440983942668984477913337588188620;
Dbl 5525825005226646304036890200645234806794890130996362330923563634590289686369627612527214899422379815291909083126330456210261209090860255621433947545794220;
Add 5078206620062931083052455819849874862353899128972277943435535564135409153345122544712227878076121325739277301474687883593849286723257479255943567060288973;
Dbl 5189801196392194585677651218723292206221841285584659731151668940930979789672317785888713319342249682817073298212099704885793892962426831967107418035180365;
Dbl 6616725799044444735699096718419291543577867090860098269185438373090033491024623940234459466962758009496866758184044358094352435955763298759133303064970460;
Add 1945880499636805448522397209796463704725168424332124811808001839731689099414611791728643782847875936391288152301710771252089504074755607463480618381777092;
Dbl 1958167115700734241437571548477013152216009408304445286383165789085195664313727953785043779291912480282369800094541242934076901714359382437653917941460606;
Dbl 5105915987126810587516648088779531074335356688086132625098876897881339176115669247101824952297413977824187618616604274131369016771260654752475510604169698;
Dbl 4299531144253051266935194199718952350584408042984784265103254809637564133246662834720043213496884246967311584894081460512462287741973672072416113674684319;
Dbl 1732558381639644424811178731690111534559306079213162851229804293039080932843195406536744379453590006908760809514157125895398339612242151793704957622214105;
Dbl 723861726027319716195182121192734418688027413314014565276925106174557388055955882725987808571488873651345701074797320815714451403686874321004115913573284;
Dbl 5257950449029055304598259282572252201004620117589843663443453894110134666158183930239027296697476399033035252155309550400184564835283798344019312108468617;
Dbl 3636550908147699678638459074352578228933520817951684426239213319770945098073205634564153683263824174584666845196817300389713291353149426790252324909156828;
Add 5123267214911821083433424644502987475409719936320924785193529316828910857823471127462531291394230555062089314430856246955730940852949159036680737380780405;
Dbl 2570468174922521424582159052715687830335759732121780623663396246725335304509182323858431258089004065476432548048516489518974353345515310238325692065862058;
Add 6250022150569571288021553908437710869800889985106884478007961206891223519198229988762862678178055280459743297454193272819256119700244125797299991747625876;
Dbl 5401405031916503926043471863536579553265535323199063954823076933554648132257596501879730786633349437007487818116071059674480221494429113474632297746983695;
Dbl 3872658840241564365087044332543313368889888841564895261044261886725063942444727050159061034706823175107388000481609888657884760043235397025843177225323881;
Dbl 1549909144593885045274097035397813238798436025904397705002165548185582306168625987465940667526413886934059053316137659597207457704750792961578432850166636;
Add 4000928459815080467447005421783819610108526348119911315685870048199467547227966586146033794127020973210594441215804285224623065428162370214594759956811937;
Dbl 2280016823711598968985359985339184256537733613993186083029976297029150416595187076962224201019823518202982613527178218121426419550928373891139516168993403;
Add 5569997571576968322598575786405755171611813193946821607685583350121443538931284398111161430795049957292930054834928196659389566675226407654316469761542083;
Dbl 3234910900835824600502552338533537406992747254143511470242330147436004587991461800880764334298509970999338062091951032335392628839126413267562951830098670;
Add 4816370605901192763310171980692887068783114279442009447210471618502008777068217300061551234866932584671999049292720023525647349820855145671526101792808125;
Dbl 2686373560612256975643715627301785342204417432661731856444502408489138881143438391919666732641288713859540391596367212226456253830369390442105190016853698;
Add 3394932300394484906358327945818994853650236924230368158191742879387965826554153140320597200920792995111748970038593302949869163319560109057665526245936842;
Dbl 1120968084694028247406572277528651119994724951405627937150744946541791150187754192923685009324480671199507208600354351559108134602935289363131648970736179;
Add 1448421379601175483624366251724128443203371987711494991481467491912619120001145445178923747109420718942823261572863497445987935532482907716680048661438060;
Dbl 6208109997648369235343433149540818403471470847327011572320201217190706358489500746920532075517713429116693699723483586995966965776416614166713526751543824;
Dbl 6536149159523442556489422969051163464335842993175441812622345443563955622115577200715840215905195992496923915257170278334829804926961469085198303849238505;
Add 3593142876113613632767356459664899400617372108029262866736471772925848273195884116006999264369618757619689433938831325728682842443475510459161626275016899;
Dbl 4312618687913962025630549005224473828019683529307442197139357686683526666512098970676410226881786057832396101738024844095056430215385752426181011644599632;
Dbl 5161324942477038443199963638124425094398042278344860535280520803481614519083437024484299239075876314488308031758840080599611462844348572974098507337680034;
Add 414083018498217199365369238144073005933140470684078804340870066306414379591493593224201886074380224428464203253707092399778821155372291115454151692331672;
Dbl 1434472888737164267645018135157578548543555732746421122276710097554543272047630143210086409115406833576933371949603554482039855394792672735739678225043483;
Dbl 6006797416393927328219747015287130788370854911206735452341673400623358781087956241964231330295874286415865012566925846626706411139488653838523956373654141;
Dbl 814005829837235068200712966681093404438971200805586683156125742607513898726619253827794692662227059208727373945527775387952748374507955312076766811072380;
Dbl 5161019028877208274978657422943944798142284115351092002135579667682147898975114025147615565772547935592718891042197659317675081283342938672248382624364854;
Add 5659862660754751680346420437263685530950348901105665959092313605630020932840539007022567953006217167028901460458199716145247020113404579283508635739130470;
Dbl 3800411658647321857273200551078518629011012635958714449602826260241832182443122386541361388212334619135498408984445807577552803145898898465663124168393228;
Dbl 5067416014504249991862810750231533455789329057026574992421691322899196376567842089425150633867438306186584286121751905804027255898323961824893418044558998;
Add 5655297506489386778422061815341879180954833681101559462380695655137770950518590862323779684951378058552978239096643915024780252224801563221069457545832602;
Dbl 132043071239710912821571724239954013716751912686669391558582688386368333915841278683142127385818196130882190811728046694390813913584319229251474013235216;
Add 1293255439394119448259532318431469336309366913842258441796823692306298835994643259820976189421827160662894194559260872145490655020357669289669199214334557;
Dbl 2281596066495965154888578779251530882356437253108778137041903277894669651318896221659544724801223243794007083642055905119757663340228713524582020621105407;
Add 1909487095670146656099039044674039431785972946683930487478182535879223019185309322103792613524595059869212166480148081003356634643014881488004606614987082;
Dbl 4824130182524950210004607303909917455127679870761057597115714296267557493741985100497242411064152428073190702357594528102309151360035114980601656548616654;
Dbl 2449222202490258828084790062458901403521401253534749817816034807533669510496783015240885767897493922210010557051461566485723131364044693979494409957836187;
Dbl 4240485836758428761948173790181463224783360204403137004947328757108438175088240981575582965927043866639477971581067093900804764666039302569714676923069789;
Add 5935040093478594723186195355131734422821465086287231831588656792726240876587762141998788413797854754608595074538489269680074900350664508371436357581715217;
Dbl 1599100855338445279968335242458177400948828975164572379018156007578153974593925839332979585715419643681994206567854352642386910648765854554471782428375864;
Add 4869049539376716429195123615352661589321419065858802764678598149670365688136350376396704002242245973254804449507737402365775068353135842864912841163883833;
Dbl 2952647676703902357615627837057594973195377830376457122322932230533881983270360812640568961811649177228623795712603645943724778949551646509647525815084292;
Dbl 3262814425377972002193090588780040738912676380511444179128290535569723730267202899609236891366978191176585596100838346891432126021307484599353925350214001;
Dbl 84108698360531121139735407649178159217580493872069515773585443285845956452861274839149172303714808812469810369334178981776719712460290066162125194992528;
Add 2180873193766600264863124534558314185862313262787038731276674724489393369575740406548369003053852083843161268240706158873679098079924250339891552392040124;
Dbl 5473321228777581862501812768450676015740273507385535666053008755793934257140416793962696034943199487412973281291809302749498591620021729728339883616857588;
Dbl 3176676853812657802901357794603059919388536947464785687343273497684169382821273375230812654543178359843279490102019681731192409073039949535845896139302568;
Add 2327601579930663246023795485320471881720941061875100950281159455940580562816213768491174726986903858998165064140363772300230602029569775420240918454565796;
Dbl 4678691562581488315851582503134651155691987400428395007869571692230150461336072210478921162718898190956504905805065176604621767292892240489675350389446650;
Add 6200202332110407968157145941655558765011629178973212343592087534299431548025611371209697582175254181606500934584197760708616749347973862474559893307274173;
Dbl 5206227250699601339355312484425515061442352205365173846338053796074906913190443279697191184287981255247017785196992845004326483311242006866490228418276682;
Dbl 1830456381883305024069565803984723867342844893441377017897271130307833641548115197468962825530960216229778326454523846083601156725596405450561708280552942;
Dbl 4813757881471415032273713437269615367292775918141466648207454658144735600414389272455661652634402244889099843502057434204823547933055433702327268889560767;
Add 6570702791783963226048659994874863317369469941634759235122873104536129093925550693947213434601119540542646170062977142899379052427441973798051156508202921;
Dbl 1791132279914953996586667304060929714665210169998081284853306229143707327786084661233877602390551946561531764844940154624431304229454022705950702082410227;
Add 2618884523498414812704113360610274601794252620887161658337243698232238312836902955464768796299149581102954304755202751725789686776643041072202962087726882;
Dbl 1188639067735492621776761035992139545524192824737050232964612777630386037217107531568605615787246753844553752163372400479162447118575119114286032912246044;
Add 5549385970474527058159938020537799035271840069254491323300962229948942646710421268597707655937810616565019432139249106165632811734930027521151806205178864;
Dbl 2288274392986750102593740048271883872744251107636691005757187005687810132362753883347194405600194402285988852227447514227712990791903434030015772810215513;
Dbl 1200145382625073688951215721599890570170321935485158596408795963954220430890816074333503237622529506741478910978344371273371192088180938645571010556921787;
Dbl 6446034966041076871526723636948646326706657223174099897611760612003162830499777581227528444574861781664888327423115375887345306643860076478726223504427702;
Dbl 3822028218597535961575664940412826569558381918959571280029266958568983774552900280686167862302392275555929406029740414669145894370275330183046638891812707;
Add 1654957725458073267737298346330119461191953980352561132389302793452327631702155513059120511593354965880528209725803705998028118764368453706954008078570248;
Dbl 67313008473892560152856285553405994677500501261522132144376687437496919871134611869471929204205771686276784588427076302472331965028346019038676878057151;
Dbl 1128513526735405068692112841921533567027671771723198903775985898129530249766410976223064748272097490047883506708058098784414775547359176325758416723460411;
Dbl 4200127232647609593291260378904899803686748442321386681531286532210223867534051869710515124603612056103659888392197094555689145668884658135117250865634645;
Add 715137648520038855249102012677526543256222352761832685111045433281894893756956190154808782638638264593523297325698808347153280472547441882567050593838360;
Dbl 2056288759193071894096222328170861597506071005199675006896827722193894633896142134572032858991318923493362555549485238040281763605607194947756199464409332;
Dbl 6016919820102035518806310715612927752310483914861499445931839386740119733544417294850256036065003242499064588667194254025041774389971548870017809653774251;
Dbl 1888664526272236447177975387140138763602256520040583471922375292951062450117305253637978328456927612561662907836969549031344656360065425639637956252833267;
Dbl 5295118403081011140740612976066587132083312523819135231030188153743328220102701848722044576132838608859967811769892291537117261228036199421564069169336203;
Dbl 3694550398800605108604945227784949652656368252166927272087660958335553792738545892474298881385388487643326774825626778138063818316358753500994773706287828;
Add 64902960532181364841900238194861914757187608360534834965543309698837891522738903555493485690319979406167490413352955378139595327897093661470154123420112;
Dbl 736352493483812565013487387320634318336206042901944720696982002982335963048072742275272324832497456566649087496333781567984219360159504805594651921403962;
Dbl 5828412247508085676191694158616178699977120434012753949764196713518305687445710790025030761891631857124847857244337778813533997895585725102930074548867909;
Dbl 1827482972305536137094394668297329954494666818683103213983674771288498924702086011484284703925145433428914811796098788825589142142218481898498242146869427;
Dbl 1154387187448085374271873954022619197505912616705601807003217274147118796996701661080064219866130176606107487730204457547115572462186804633312118358135652;
Dbl 697360894633379276453152831041724051235088811426369887425513116894159931473004042955889851044876562974102832658725835764513082358374065728760106481800980;
Dbl 5165397973294371432746809437850814147795768121174165728465731064512905991658608291220689192956691935126828887361290271232039190788585468742660196593453397;
Dbl 2937037976441387406847594830844734063913415568254151826003111610434823135024410064857849525178977373320525625828680017679181660556733589225569671739896771;
Dbl 3776145705656730814514440695595357375087612063537369390498124436862338199499787380352228134319030988526277549633852377423748627998207719569417915488867315;
Add 1497087540211346550024038188719747185616953689888325966189447108672154973811034155139333723272664010047504916308565331551075393499134321470565414184258523;
Dbl 5534848657569750744795341979381748414472077775395303301443719647561827958811275439129570476507431025490542537426579167034395150903779360651235991395921120;
Add 5497130144854375473859637212333266996296582513432985117695958078221205542856147608587053132249475487169396516080204332303650619629533188322721643524240416;
Dbl 1743181717407143176392001167590329752291740542459393634794742296958707650347239424504818713959931434874394694608667704913065818540095957710787540248418695;
Dbl 909904693854586721922716309679830957361883516146783958756684755294033574581458388836012028690540242158276871063818244075610762806436983093335333604752081;
Add 4335483541015683012571423925531973791770494994856989780310274145065384949351168079644718590832857300766890591117600746593444431788294032513920204394817273;
Dbl 825493333019940948086664897731414629205083390034770814278466656105733599595605674336145058035226640050027608919976740984546196722236493251434017243782049;
Add 193396747548792246288684127192970410579848941817650965236895535891265876122686336177731646410045268325702425271943860296423973181654458869424905717035097;
Dbl 3034757282208514815009117064822947490965909187271527384623506493686245755103513595351046848194077739219102199800020404918692134172818260240161830946656351;
Add 5409748103617378178614159930755120759548437000490714043925562388071692904106970398826936647726266006575864399679457022931230970052397616421028122968999073;
Dbl 3870106869636876666101879861694525966524774134395490074787633898769833455347901066093740231135599512831354335049054003875815269580975995644758257863086659;
Add 6537033623648851525849981863382963843606686644519975069649982935930014596972819745205369176601366586989569087251772593967283686841477104921368066549193169;
Dbl 6212936207787056992360701579755938470789129340757262739102521069156291352104618181019393004967704179982830954384764903836118701426826670134338276627341901;
Add 1879260806466093756871893188036335077364840932680292719689806471111267623782415030332673662833328761862383798162718201043235846920972973350497006503161092;
Dbl 4743574293813244800425470165210021877129720803798384036283975072260406413654968725348361973372705420574123971368911388113216905791905763168437091039473690;
Dbl 5012840858019853290748704183912890930633311253379543982384379923322272997971755205335291080943906032777048138365547460179883531041014523031101265478910834;
Add 3443671669502812586558063668880771103822560167695580772695047910169510566667899334781068734160651960115456325799869796580488114787795502506827368111916911;
Dbl 4513648306749826370892982726232155147345760918638281770369614476343391197875242997053645133792858928120234155655425628405552245457883153616272176655718144;
Dbl 6260836533726022036998008877021853255246851199204959455061679900921170693705157392160361577889082123602950646098439495972648590310772750262360607413287123;
Add 790241595861706259748168004906111809614935792022249493532598680079889881728896704541160673215509974954184596213000097615618931006652288464369383128831923;
Dbl 1322638472649535988109328568491942809962700049730679386228815370277890912423839124431488888729928372572005982783140418321775554124788973835189236992801622;
Dbl 6090809648323765082816216594936059036272101031566119126435430553241916890672393031927622369354568566783194774377945145186909895147462365101863332497940366;
Dbl 6491002237015697988000769489413211378667237881253621271987146898410207464054501092788840350662919993279137102709110993756265292035788703352895182346552900;
Dbl 5588552709637276958423286365098212454973270460563010619814083546279247944094410700323597907686545405843916626737201431422396891194231795523820631304253280;
Dbl 2807282658465823131448038198591855100040338639279810743385309377070954994017235117930144262648536259455680513528224811199615191998940984697813068267360665;
Dbl 840899787467109131709080358209791073341458495235336113925605731019065019658642661252485670665973291224800227838725559706750981546176400106655785596216300;
Add 2107891873694954691773674497605732636785738712363052953868267655993359566019338495163641299526230709802142815658097542170420496065903154704419279494239911;
Dbl 1485092334213531139931526157123048613254436918751748922411840056165986066489274790336015309593879739036827566783851412846386543248823119992873303350293719;
Add 5216809440334393151033128835193603154497562814576064775242895531453493683563746943423362031627455320000687025365640749419667334793939176773144165859773104;
Dbl 6225833313010112742548869876468517802699121567182251128356221504361236538960928710498186011619608517251449579269043304014924247101084040567022218076527191;
Add 288260615803156059661279870271405650744400859552662833894533338467159515964869481349358820575860636436338215071865700989401950406869671456382867685779725;
Dbl 5628076300533608348292519550274790580128164830263397005860899068591044732611439662532128046803463854727100850290431286578648216014564386709881489013201917;
Dbl 4819026286585464667441114003380553410896111461941633543080534185526367957142286938275113037907128962188508976504925742897479259737587229800580431549323831;
Add 2878947868250090319492515940274455032312911001643477931086888728135287112398152808397433543422428747806584056442102220946881030616594294776700161424379246;
Dbl 6577554782280700687972047754817885288298448279002765924526277480368659133958014930822752013718421982634356958686063717616551768245558185335430807115477984;
Add 4193618236862627805938811748104353154605246220715178449585432894093182236919407825027293511891299269879202520078043644436923279514422606903371860115992186;
Dbl 349977056291412537587601322545417715736482393442231651235433093479317458131726279726452438870263539553697058155211372847537275115018793969513276177820539;
Dbl 2619418520137110353592043137320137064827825744208476576678141329361122857571581877119464915956686212666878116850920776608401393234230540005028066159164041;
Dbl 112611251993873008211663255736535829080112609762631753894303044689380945230672364232032155794818292743694627085881536176200315943688801608202115663232072;
Dbl 1542779535642837304510727096294192758688492363399091073184080903623492491294606414057478028443340612973293284920046804920500049427510817534511625563209061;
Add 2690814619205136779025825374690302125789830190446896276083475849649712480533757276529560119570768272655698921074499121729297203669648438623394275843736632;
Dbl 1284631904944391354157254272075463902685734849853628180782141306369194257685917994490628888958480992001704004340033215560044545277520038344618098561300679;
Add 3556528760539631995166481883831893404073436047607534573825923149009559543401588746463566448688272152235314697473968909038511074371646030215819813421879379;
Dbl 2511916752225314276553789452337827792642057557868877507918026205086507786721768775707692349758444706808659129474070903955719828370344526032596226885313870;
Dbl 4339280182007842251021834046262929654957965360963816466287658498363252412128898487948818299950567922532030247374988215454550494031497946031317978199743910;
Dbl 101488651426238706086833865634861148178286462641210632153001216612865920509327606146209656133300479122981746296775363883844433800094837497220389091682550;
Dbl 3291233488668569777134467153889336953573601447957146848313973086666854473844006896751003944819695201234866593760859498193188599675428441389237138806405245;
Add 2471325306027509813684655380275452420954469950757214242691900236430599617234556745249130900022060826311966593962824709509459837284108883072961187514967732;
Dbl 3549244381518098789261671861310763859604152660165752846286873821913692173782841457790064179897655890272366758639157424485466208554239293277084407743000731;
Add 6394363947018902047104945159064399354212789179125264494907833784863379147040704574072139446799913345441338522486519608862996700648606888308151054741768292;
Dbl 6482137465888393755755848602087330943264120600652689642915152565122522036254789774463866012283827312688266330719043132475314210340815726842394398024437188;
Dbl 465680908805363463549461012807888227095711816349436656365301674021617168910225897461967890454895085118648587150700081758527246884481582215357731098896763;
Add 2120245848152368060316453447866056792298374678899978414301439728897218846941687632443941937426129630714369239988176854403149357265431578812447535797685982;
Dbl 2668384810684591290031082522961596917264818412242396842152918825103912353148966811243084172369085835617648592189678837720160697299103535517276528818738913;
Dbl 6386612494489244636711673598078560204477391251434149672996429984304223874191119470233435582485097332958147389691702254542531558771328130560763521629439394;
Dbl 4182192849800446768738666146932510465359092700955523092261296626157942387827701553723792905714906578718700484405141652924880731372031306078727206242048114;
Dbl 5113696913642406639920285572831355985903762580324022770474350397140126272120011610500834792580587007086198822414349949094627798099456515208539993269223378;
Add 2148464067973931649409059257267932220887630382245387924109602785292167904541962473375143982569996408751717794836142682984072602256201169120419072126569571;
Dbl 6676802813837772168250408399574376844928274580294298879798686950031585275820124975606949020234208616751280883581490301030899673537952133203824477410296015;
Add 3422125780536767981941515806635396449554134000781971565709302568817037331881546699473361074308660592914585810101976959704228521888885664854577913004100040;
Dbl 1214622370690494905848138005972460298705660285739181300914061048566473488191668694892167326359227506336418809617350246777751397965265893900326989365124860;
Dbl 6519965065868894033206135886708601259365674139261857167414203253799542988570929233731576589149240418268901285654085861063230753109140859609940299129204703;
Add 5350171204029840897912126739282513181191758708391547785437557934206829264130009395834555660564420785193865743795181134596132331851554558611597775445631860;
Dbl 1635432109727002297104063845325453244021473780222817361329123714192281870717277767970524259233555372819948096128581626215057877093768557582528747714340509;
Add 4192398868352498204504671086528729883188945459045534502604647829950653045057754139692225604557100460139483380863555675413861549506837017901630882903883890;
Dbl 5161539830529711256560992743762988137819299281188746840270308654829551310027724671779517221425143969326824416319432076408351849919706095100701615546939068;
Dbl 194849467082266989380201318260646110577853855677639408793845243908577114740068996935672900950944804611219671159858293984567883610566834422460215649860705;
Dbl 1812424479008678214219892175432173734474892455147130037610315673644882194751866453511646004913098043687583678987908021563263058021739979186237032147669165;
Dbl 2468586772421294313220537276565064031878983076553267452581486929213952090041831914488738533115585174789695154164495014845250195654914244803744087877616021;
Add 5906040148400777012009349550610617014532469630632682695432616976549911795105356788535364172411070939612752184584033688673874080713160658232098215870432142;
Dbl 3946886667674031069194813713825256148227173557051690317104655081064437008911334186802959445251940740012969599997000308498059783393497841910485386470079893;
Dbl 5399394903002644151091251613447102636810257746991588691150353298598586063279685557211411476143994757535519825041810149265643348321526932002901418138413162;
Add 4695489737714206125288705943975381572846476791388397552783830494755180738530357405066162841333006933912748317054510781669298025247881945676102854535611281;
Dbl 4161419257443649886825070380388596272000137288976480567620634163977953089049689107855345684136619507744789726364996503192556716073048767532391263659759381;
Dbl 6573102370670001543197998814929672303309456162557498311321045374838208110439265413548595264099363379502679809956299714290309356761923699121764151945300373;
Add 4317866788319457994186775444690972832066157158214490404162988580663909152523208401348008923714674178498089934189736932107569224797162241405419647052026326;
Dbl 5080216900726481308391167416447274050772163277539846466951049554568415980578904608487914035645931377176183663708758063645986479144297565657675041878543123;
Dbl 3773443538757243100973198269940963606599752804191434990120462721758503921096487466887393164229262582653457108290073592083824469366042309194417074540888030;
Dbl 2843333796042996950301506538936196679287409879591781738002962867315842954041474869062695091455667311928075641777168034514595018296972444455450946132075926;
Dbl 3240574172326921692215054090094195103875302707768968489880419019273066825689703712061087393928397851057354821304162823158032849316146453915888600351715142;
Dbl 1616159984544037770554628274657266445185466225432849640455989813399112261884085634576787315242196587647381545365600128215741493578203488938013199180979148;
Add 6662236329848461854660973893062036013966136263069195785394987247573101101983583669284945029054332328086079159621317853516832366654641898721603780907234291;
Dbl 3094247355845122915921567817445025799911431300470588809257197284595209293328560966895352453329043281038143733342027392371124427492631903204434948933701475;
Add 1057432963197932983831213187814018104651940844607771576380656887051532068641678180824054924239921201774050514351663731101729095960141351406789882740781411;
Dbl 3738417118435600304929232927308082609788347706259307381111306490427148437879451735859290924752533629594322045725731808775662988342568107656038711065984280;
Dbl 5696476950717766888047638789431865122571434380994490495146505205435194524323213070810813269791490765964533087949667357405700155313301753189395655496179933;
Add 1603942678223336827172413127690924150013760316488420510426369728748357367951603123907329615108142090169918776484031510936911873790707017993147305670516152;
Dbl 5092589007737636351236271941140902386972038547436817531231195992893906342171528892557308262610813125352981267698407136689434550127174194297664051122068810;
Add 5007837784791473712335288808319795353650076754297046588709082033920644021566330220013459386674680061967018626723612987174612273911995098105442248600342065;
Dbl 4225104296443867360552113373574598820905603601868230454330594120070328873000373779712270533415848992153684390172750706954064677630896725954321767792379196;
Add 4337759356432587282012528591027615263858070532726104860620341733136361713951686031740993476495803815370953013772245010396459596087484898273203491721582143;
Dbl 4018965374106467990337283508703841464705190400840055239240654037914986377644082108907469434689441014562479916894247565077626149947492068252900407684933242;
Dbl 6265618381834577006147525418959899172396687117343755316767338644374224324653288726487539034000185034560109753899088808370801611686306975639934031078062724;
Add 1834680889753442118870782617837179243207681874903603981952553206839316400043129694663493265853763284595304371295507732349797801185993928108403564384340610;
Dbl 877304351823521408290739397417890614198992885084546552933121751811522270973104940782378932501779538793516998398579963232227118956004446985713248347502884;
Dbl 3417239221786787772205611874261443566967527390142772427659099545335912661746925355876287998757954423533692273053325403574160507210189761680803454955161763;
Dbl 6342807969974197850579586248197980028707282431249493642855981114281131658438245265834155837349652196051092060916957612243916058936168556899903209235453716;
Add 3849506196161313970329768577191203707566202023139341220177452466727941980482859471445341197865167188070433578586198072696581855005732206115619198693042184;
Dbl 624181267803476192116363853086888758637463002969625418553386729512185440247134299180139070270420281390038013326970715436799729070507028965413632011801105;
Add 5435262986350158567328723060398973273101495971789999647670870412044842578540178246015374710243137667987331134928762947007062617881201243216461314458132755;
Dbl 489939546974066252187890655081555511197954106426108791761147895014696709095888691442181619400860525850485974718738840610400978516796973969925052851579421;
Add 1876248031869155111913456568519194278590279510125954601707224978674054997430479977847823027583582688680505771461736914766125521181535085970217368821483632;
Dbl 3265456963124531996229410944552802297381448928309122246746114389532521963610833416612766983013614212722221318355932496623014817579891359818964291337872461;
Add 789768540180190149473165400421057109602606445785754707627944626471373516824927728907707473390715179091754486384926908122900993504464788175617336837030157;
Dbl 2593246448172170195372964963782966453028919202565394864063979171757697752484307295505243010730475517798380875983933657059592753345992657549766126671466295;
Dbl 4379029708745838501568271266086056157202801268520417755823268591400906507251823142802066493713225149795342825463226265226561323392256283513840130425499702;
Dbl 1591759466481857365158459788713820432537991245695865528018075813950965336143662045563500337436679314869056206907955524188874929737999321851615632343687514;
Add 4765276011788027470783423558641632589825146497189512459530792657969086054879740812620329340859237109660931378406396093009972088608414356224230987493212539;
Dbl 6649375243052121006906410885495131639492334240809504050050130944407266141266595108094557417796597802334345104795734134680605758951511762562218598784652027;
Dbl 4472154386403087094820676990960474508266698919969601129844093242011014923550435955744344438467852587894519624331707678085086650274882252062875641505516779;
Dbl 232422802217806995864971438839593419993442811520129212753773367745904456426745318738313245594688828125240955847579925785825929620370917865096160374775320;
Add 4104491053195554067131395270785641723396941653619816264752020112059398261669308403186537206381247721543021918981374981022327986568171379592550921717011791;
Dbl 4140821978720177366174210896637812572554566361379643410059632269084933098035977077289280680534090868507135323256784281402312125119206112185453915527400046;
Dbl 804970016155203106420839910356070483842746924095752024252079541553667492345311499937934045428666695555943673218653627831759550994091489317127514566335415;
Add 1949645886507031941270704052548665170269414178089832967067888073801208531697645126743021426637732651655425893356414533967952511257750690902353664220366191;
Dbl 821113828145562602411302310505158381362790865988513352073093690388428225789691778544594700945207028193413853611772464740824964211237074846694539295994770;
Add 2184725277401824954246017479737035577237972824213707093921336429500202946756157787423496943040939580718527019443981344996844745133664986663733933120408128;
Dbl 2179920340736945552202608050667899775497372962398401006446545589505265743924563438265155694579149489700608838659194605118582616098707336234653064704358275;
Dbl 2158728373870698779910642512418709864200826403988994064028340182220334381178299814559784634268305334021807702421405728981711192055974411819479454677566793;
Add 5027348038360468823800808490282874649738397235893192436753023785575443756130836905845072078369335719970797975508761871783304358539089767591714826460831515;
Dbl 4569320995953181485562926949725257330498177499908643324743222189786815925727930233261299613230802536933250385702839354027811941456983551926044691197596777;
Add 5204424039887989378166211283237675384714351145912282094686228937821619967820376656972233281554611442602106870361047412955649121762512066303699124085619394;
Dbl 34192868615609074594142259130676311077633549765951262387487470110882813776505565996989556121448294180581290849954163998503473022860885143529242783764747;
Add 5989621577384567583811400684229971606014514529490015631167697662784424652828301291201581728386759397797055903405786481251974962639394636945229123228682033;
Dbl 3201398329807060578824909927408650120450618504023708442652046544810951561711749835273633990871603378324814009983914708783659303018177053852171106439850908;
Add 2130547098694905203008798257341165672380157514045571963590775410026908090381968907712654704844209379314557195092867692901206309583266368905253645247881870;
Dbl 1339368859126964519333634934955808173072250060965483612472807932698186362927852804633811085173746896851821375083415273263157005085726343058666711999604212;
Dbl 0]%bigZ.
Lemma curve_checked : check_curve 6703903964971298549787012499102923063739682910296196688861780721860882015036773488400937149083451713845015929093243025426876941405973284973216824503042159%bigZ 6703903964971298549787012499102923063739682910296196688861780721860882015036773488400937149083451713845015929093243025426876941405973284973216824503042156%bigZ 2%bigZ 1391087797795557258711735874750463328666729297647553860794340434982072762491277963324668489993185089365703033494204180568181905548968011075910357787492797%bigZ 5472517130514047254760433071281657274171034389553769779747941603125796549693907036696237273952702637857580071293254240945079496484373854264998452887027990%bigZ 5491411734303384687001535006409819129529012351701496317752631658400785500491075845915812222060616663565685948835700742049247561874704607087653459844318573%bigZ 6703903964971298549787012499102923063739682910296196688861780721860882015036922585419853748190383615062910947743405567510148398820717100282856877776119229 steps 3209616116643017806777601134777819162190631659618813639496998996328422774233893980444922035995501946025578531366903056160107470023954385873505301455995357%bigZ = true.
Proof. vm_cast_no_check (eq_refl true). Qed.
Lemma p_is_prime : prime 6703903964971298549787012499102923063739682910296196688861780721860882015036773488400937149083451713845015929093243025426876941405973284973216824503042159.
Proof.
  assert (E : zv 6703903964971298549787012499102923063739682910296196688861780721860882015036773488400937149083451713845015929093243025426876941405973284973216824503042159%bigZ = 6703903964971298549787012499102923063739682910296196688861780721860882015036773488400937149083451713845015929093243025426876941405973284973216824503042159) by (vm_cast_no_check (eq_refl 6703903964971298549787012499102923063739682910296196688861780721860882015036773488400937149083451713845015929093243025426876941405973284973216824503042159)). rewrite <- E.
  apply (prime_by_order _ _ _ _ _ _ _ _ _ curve_checked); rewrite ?E; [reflexivity | reflexivity | exact q_is_prime | reflexivity | reflexivity].
Qed.
Lemma curve_facts : ec_disc 6703903964971298549787012499102923063739682910296196688861780721860882015036773488400937149083451713845015929093243025426876941405973284973216824503042159 6703903964971298549787012499102923063739682910296196688861780721860882015036773488400937149083451713845015929093243025426876941405973284973216824503042156 5472517130514047254760433071281657274171034389553769779747941603125796549693907036696237273952702637857580071293254240945079496484373854264998452887027990 <> mk 6703903964971298549787012499102923063739682910296196688861780721860882015036773488400937149083451713845015929093243025426876941405973284973216824503042159 0 /\ ec_on 6703903964971298549787012499102923063739682910296196688861780721860882015036773488400937149083451713845015929093243025426876941405973284973216824503042159 6703903964971298549787012499102923063739682910296196688861780721860882015036773488400937149083451713845015929093243025426876941405973284973216824503042156 5472517130514047254760433071281657274171034389553769779747941603125796549693907036696237273952702637857580071293254240945079496484373854264998452887027990 (aff 6703903964971298549787012499102923063739682910296196688861780721860882015036773488400937149083451713845015929093243025426876941405973284973216824503042159 2 1391087797795557258711735874750463328666729297647553860794340434982072762491277963324668489993185089365703033494204180568181905548968011075910357787492797) /\ ec_mul 6703903964971298549787012499102923063739682910296196688861780721860882015036773488400937149083451713845015929093243025426876941405973284973216824503042159 6703903964971298549787012499102923063739682910296196688861780721860882015036773488400937149083451713845015929093243025426876941405973284973216824503042156 6703903964971298549787012499102923063739682910296196688861780721860882015036922585419853748190383615062910947743405567510148398820717100282856877776119229 (aff 6703903964971298549787012499102923063739682910296196688861780721860882015036773488400937149083451713845015929093243025426876941405973284973216824503042159 2 1391087797795557258711735874750463328666729297647553860794340434982072762491277963324668489993185089365703033494204180568181905548968011075910357787492797) = Inf.
Proof.
  apply (curve_facts_of _ _ _ _ _ _ _ _ _ _ _ _ _ _ curve_checked); [exact p_is_prime | reflexivity | exact q_is_prime | reflexivity | vm_cast_no_check (eq_refl 6703903964971298549787012499102923063739682910296196688861780721860882015036773488400937149083451713845015929093243025426876941405973284973216824503042159) | vm_cast_no_check (eq_refl 6703903964971298549787012499102923063739682910296196688861780721860882015036773488400937149083451713845015929093243025426876941405973284973216824503042156) | vm_cast_no_check (eq_refl 5472517130514047254760433071281657274171034389553769779747941603125796549693907036696237273952702637857580071293254240945079496484373854264998452887027990) | vm_cast_no_check (eq_refl 2) | vm_cast_no_check (eq_refl 1391087797795557258711735874750463328666729297647553860794340434982072762491277963324668489993185089365703033494204180568181905548968011075910357787492797)].
Qed.
