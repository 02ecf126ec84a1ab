(** * Certificate for the parameters 2012_512_paramSetC: [p] and [q] are prime, the base point has order [q]

    Generated by a program outside this directory (factors of [q - 1] and so on; slopes of the chords and tangents). *)
From Bignums Require Import BigZ.
From Coq Require Import ZArith Znumtheory Lia List.
From Verif Require Import Fp SpecCurve SpecSign Primes BigCert BigCheck.
Import ListNotations.
Local Open Scope Z_scope.

Lemma prime_cf1 : prime 3313.
Proof. apply (prime_small 80); [lia | vm_cast_no_check (eq_refl true)]. Qed.

Lemma prime_fabd7 : prime 1027031.
Proof.
  apply (pock 1027031 1027031%bigZ [(3313, 310, 2%bigZ, 945126%bigZ)]%positive).
  - vm_cast_no_check (eq_refl 1027031).
  - vm_cast_no_check (eq_refl true).
  - constructor; [exact prime_cf1|]. constructor.
Qed.

Definition steps_prime_d3ed2f0c7 : list step := [
Dbl 47806250024;
Add 38157831484;
Dbl 39805673881;
Add 35604869733;
Dbl 2779356453;
Add 13054247586;
Dbl 49130460717;
Add 11554755901;
Dbl 18201598983;
Dbl 23785297412;
Add 28131384453;
Dbl 47654015183;
Dbl 6237059525;
Add 38646265191;
Dbl 49210651977;
Dbl 51845911232;
Add 8299615092;
Dbl 935070880;
Add 16611604613;
Dbl 43271896484;
Add 50588323948;
Dbl 30508719296;
Add 15518376245;
Dbl 15512639633;
Dbl 12640405188;
Add 13012728465;
Dbl 24137382386;
Dbl 6321335201;
Add 24143451051;
Dbl 54986415867;
Add 56057556437;
Dbl 6480424522]%bigZ.
Lemma checked_prime_d3ed2f0c7 : check_curve 56888586439%bigZ 9124358685%bigZ 43088928416%bigZ 43804646990%bigZ 55669085572%bigZ 44016694447%bigZ 1027031 steps_prime_d3ed2f0c7 21464282279%bigZ = true.
Proof. vm_cast_no_check (eq_refl true). Qed.
Lemma prime_d3ed2f0c7 : prime 56888586439.
Proof.
  assert (E : zv 56888586439%bigZ = 56888586439) by (vm_cast_no_check (eq_refl 56888586439)). rewrite <- E.
  apply (prime_by_order _ _ _ _ _ _ _ _ _ checked_prime_d3ed2f0c7); rewrite ?E; [reflexivity | reflexivity | exact prime_fabd7 | reflexivity | reflexivity].
Qed.

Definition steps_prime_69_170ff33eaf : list step := [
Dbl 214043691604766019354;
Add 163210575276281607;
Dbl 444802388490982695444;
Dbl 76160619626257707104;
Add 164993559259014328054;
Dbl 71243169139275737805;
Dbl 269962237145757384065;
Dbl 252012415406443105635;
Add 404409956827051822365;
Dbl 226982779761026159268;
Add 160860797342173294698;
Dbl 458350356964205769007;
Add 42258327775991069548;
Dbl 281956345067057336351;
Add 188805922695161360969;
Dbl 239098028239658889497;
Add 207835944624454983867;
Dbl 375786246281099141892;
Dbl 212789275835519673178;
Add 318790915887680063;
Dbl 104414042503746380638;
Add 344135793403301175255;
Dbl 209676048355957668936;
Dbl 73078752668372499104;
Add 298617859418347337125;
Dbl 208080188203038499545;
Dbl 85390315477392006615;
Dbl 284431468477449488146;
Add 362089364116486520227;
Dbl 230297497510168467683;
Dbl 256443601115213609925;
Add 116876391696643753458;
Dbl 267221423215283300383;
Add 404777300361182485097;
Dbl 398725673137351379182;
Add 459949101122783936322;
Dbl 55464963180054737714;
Add 253228424877466099728;
Dbl 255569944654230366283;
Dbl 55416288935622227245;
Dbl 215981771713585970710;
Dbl 244064789184273837872;
Dbl 88449821680960200995;
Add 167690492571024310861;
Dbl 184260740365983613677;
Add 113697227828829842814;
Dbl 449747683838990165361;
Dbl 316515522543943233138;
Dbl 338312858260805580081;
Dbl 293534186547471823510;
Add 84280297880251637259;
Dbl 242072307226453391495;
Add 206303515232211306979;
Dbl 390242723053281365090]%bigZ.
Lemma checked_prime_69_170ff33eaf : check_curve 476184794970048380591%bigZ 277713270980220513237%bigZ 355850761738636523670%bigZ 67543642682676742280%bigZ 399939554877664237015%bigZ 445404182683632967277%bigZ 56888586439 steps_prime_69_170ff33eaf 61293148808439495361%bigZ = true.
Proof. vm_cast_no_check (eq_refl true). Qed.
Lemma prime_69_170ff33eaf : prime 476184794970048380591.
Proof.
  assert (E : zv 476184794970048380591%bigZ = 476184794970048380591) by (vm_cast_no_check (eq_refl 476184794970048380591)). rewrite <- E.
  apply (prime_by_order _ _ _ _ _ _ _ _ _ checked_prime_69_170ff33eaf); rewrite ?E; [reflexivity | reflexivity | exact prime_d3ed2f0c7 | reflexivity | reflexivity].
Qed.

Definition steps_prime_110_ae907a8245 : list step := [
Dbl 67720098470296575424841268781396;
Add 419799731890738243451710693002425;
Dbl 285009724504070202779311402835435;
Dbl 395702294419565739021771557331446;
Dbl 834004121341359909139429046587722;
Add 265568018387542036641993638040049;
Dbl 768694532886480475928756015704050;
Add 167932670978858562309451584761643;
Dbl 727172767229834521562705764727322;
Add 126306987557795664335106746594224;
Dbl 715500273788111798243612891341318;
Dbl 766403772807055708510690319736637;
Add 799289715895559116798962504795426;
Dbl 702086982600807055112773436078661;
Dbl 716123057539367920110412652121020;
Dbl 369329919971641548761603708763627;
Dbl 207218222383212266443509683269142;
Dbl 582341957349754695636728424736327;
Dbl 448980184401166697962891327371301;
Add 321031018177529370281344858840473;
Dbl 244490112121448076599137943933316;
Add 738523722666905388654863535052467;
Dbl 635053009703848239351789905389544;
Dbl 477590676784513773565567748372563;
Dbl 326995987246180504124377765324819;
Add 158986002650962692623046383425734;
Dbl 401061359775176553054514843059410;
Dbl 267437564091365800130955168303330;
Dbl 454071603884970165794520550526832;
Dbl 274084888787944832770576258529245;
Dbl 166539437880076272009199639570202;
Add 339421064202608455579332650802891;
Dbl 103559723449698911430011158779385;
Add 663113078028177689641782443042763;
Dbl 702325411926336376446906975516049;
Add 490858168290148990045665066168775;
Dbl 122789822383310315715893906189834;
Add 405696675537414861694578187299630;
Dbl 523899912610861705297342996850921;
Dbl 671397633953023382279481879689765;
Dbl 515161497173318745811433517106666;
Dbl 98192390577729461362062905214730;
Dbl 55930672212014269741489751436416;
Dbl 351818766059647552346160670792304;
Add 456103496960993247963833939514889;
Dbl 366986530789489249528136043080889;
Dbl 24111131089630853022052547494675;
Add 307570061543382552953795765224998;
Dbl 189472639833819871776852751174040;
Add 150768515556534519076324966552044;
Dbl 371159169538527507083090564809236;
Add 81170394295429483275907272984279;
Dbl 7857331522863037266105766103599;
Dbl 715567448994649884438074469861022;
Dbl 377443654300179364586742802131856;
Dbl 736879332797620753315832088994010;
Dbl 584394222836318695689930061312461;
Add 801035068954459373899314070878191;
Dbl 36629440285277778050551589226975;
Add 547160555687901869186065452770064;
Dbl 617322599748458534505669609998743;
Add 454363577837190846077543582477204;
Dbl 623192529843318985183721791215705;
Add 698771314395554928977706579060009;
Dbl 695253180473845798220908012763996;
Add 666383141637991238927173728152460;
Dbl 773636563616639112205740228579688;
Add 652294436340622294815009230068675;
Dbl 33241319207943226152902405525063;
Add 98243550913467208828919492039872;
Dbl 825419703933817243462817519994835;
Add 454306248770406443025291854796175;
Dbl 473754188339842647344800716634323;
Dbl 274421646097106388810517626858753;
Dbl 731334028203139283872186360418695;
Add 667371472605994244154625575569132;
Dbl 361517750293549953149174433107952;
Add 1244514698126151579111582263159;
Dbl 830888823265320885824359069221906;
Dbl 522544911927116370802959562327677;
Dbl 653191161098665970820291416996279;
Add 709666998891640148994875309899698;
Dbl 455703080496877268920784834742800;
Add 746988276954642828503892037382801;
Dbl 391342682723571155566064800346348;
Add 715814056331966265712936902763155;
Dbl 446987776524518286226677091746213;
Add 517451958760347484794382437536218;
Dbl 508608537666328949321672173431284;
Add 166268062035310000111238767770546;
Dbl 792932635716635183576766619185028;
Dbl 265477873191840722066554064733130;
Add 625260633134001438406222827927354;
Dbl 106357830628062726337331587778635;
Dbl 796201542994172982547479523499193;
Add 9712328673847634393623942571107;
Dbl 274906751260358614814504075535761;
Dbl 540957162600787960291444891726170;
Add 221826520288449166940452015027407;
Dbl 732982892616996202290210435702246;
Add 441453049067425050404063562561985;
Dbl 440210011025526897243562183992898;
Add 24418191904326711173788420711512;
Dbl 494851030079107593657549999679070]%bigZ.
Lemma checked_prime_110_ae907a8245 : check_curve 837914357128409155112502247981637%bigZ 782379622771697982586468987318584%bigZ 215505487730944153370630955997774%bigZ 120958728488244258151068169831147%bigZ 492693936523350591077598438530504%bigZ 346364145235281857199722538845510%bigZ 476184794970048380591 steps_prime_110_ae907a8245 114515850826624388866830734855668%bigZ = true.
Proof. vm_cast_no_check (eq_refl true). Qed.
Lemma prime_110_ae907a8245 : prime 837914357128409155112502247981637.
Proof.
  assert (E : zv 837914357128409155112502247981637%bigZ = 837914357128409155112502247981637) by (vm_cast_no_check (eq_refl 837914357128409155112502247981637)). rewrite <- E.
  apply (prime_by_order _ _ _ _ _ _ _ _ _ checked_prime_110_ae907a8245); rewrite ?E; [reflexivity | reflexivity | exact prime_69_170ff33eaf | reflexivity | reflexivity].
Qed.

Definition steps_prime_173_2ac32adda9 : list step := [
Dbl 1590138691186753033165210860488549207550945563043210;
Dbl 7556932406068298120507712729124414547555888560808673;
Add 5425677069215381425561933970183892651407304406842547;
Dbl 5170101725682537767989247116526370217010070170221222;
Dbl 5487543986263305110897095100567613194168324639331592;
Dbl 370763827838945863242452976928286100747717686977206;
Add 4160799391693763161279137520028267267462294937501702;
Dbl 7256843127794993118507652801704273039888054002664378;
Dbl 144063108607286046495064530289108332961893956420522;
Add 1190351194222479372633363834878790432563719182912158;
Dbl 1795116431720470281187919094933204830522491028098188;
Dbl 6581573665024045074498212037395519803782822111817052;
Dbl 2597332421838231452231802486146974789958862809093649;
Add 7185800929698125076003199597465927698173428126743339;
Dbl 4991260031650039670933884940781891009495813440230846;
Add 3228102889623596771858087371150389899530705893263830;
Dbl 5086925226084138135490597510779309460186327587193526;
Add 2713363342771737297353169783064039565611949850370600;
Dbl 1697177278635536562010173227018033392421381847592592;
Add 747969268650542390035289563944731378555975416924766;
Dbl 4175030403581951941170793915901743162063465040006434;
Add 6421342553917426525469658788235567671070223780197573;
Dbl 5299863414620096613227188903699587157095777880541182;
Add 4405031443989529698937108952945016352764250112033671;
Dbl 4828826555070906570028396605450517434703554802140735;
Add 7470337686491958462574282330772897829140502919593431;
Dbl 373319773895883764774649196328277147329684592992925;
Add 2940275766605418985682911895819861808373996722941931;
Dbl 690232279080547227388833629127801438701836126562152;
Dbl 6553986964438157597232171383528738096865958898774425;
Add 2481059342311767472442781590008702076325124146941144;
Dbl 3549751900815411844500750414291536214562453712406712;
Add 1065131942691779638370304688576897519099917156633490;
Dbl 4376543089744383794345000619072967100420099223411283;
Add 1331998113841574918972436534518998268863757233977920;
Dbl 4097367066230924304844996740789162170709553859492839;
Dbl 7200945387754967021325530669649658125519062632962584;
Add 1754406523618311711179847974410375925405400353486845;
Dbl 4048604758890647429461542598692550010876913583353750;
Dbl 6107052553536066587556887990947648531940574092886670;
Dbl 223270177508390702243541848155877677332502858854612;
Add 6444401024449750644335771273259849159322774578617763;
Dbl 2254288841110132060934948358197074280992953445776697;
Add 2463343809992050127104692297094984532016238670199495;
Dbl 1750248698902040506090817187274758985456672359446702;
Add 3939075308811835269988922192610236030029138570252013;
Dbl 13566772187558777586063787069338012713896199657482;
Add 7314047755180849888532103863591417320571997264900611;
Dbl 4510380376229013186850527741204034952677475193041985;
Dbl 7533436590899757387937319559746985654829477284020073;
Dbl 6362438838983493498178609575287910553040486419187465;
Add 5623204755083520489968274860246789743333207217973477;
Dbl 2361036176210097807786144049493488085427121219303909;
Add 6568877467062704739790612478355540551258470079512145;
Dbl 4875569459431403067797374017064089508525366848629098;
Dbl 7465089493259118644937042956209866553178395610628121;
Dbl 6490212268945213427457485150741553335945876951290002;
Add 813329346439679524499691788742503354047965789727150;
Dbl 5384567143776078475811472044399921914022666785518184;
Dbl 2866361383905655306792957449704966530116662112219724;
Dbl 225970702217514351113488176134934653947693181744239;
Add 2037068049231669602654781610799669259702594654866566;
Dbl 5858640518905098605087398614003970549265450079257498;
Dbl 3025751817843705191508127849594910168396273356173389;
Dbl 5143807195104289012516020726958742480882298226610967;
Add 1417014263202151826574390069922166382539025716130594;
Dbl 1898473913167390436581605585574385968013081244784539;
Dbl 6397181797307321038408305005634471248646098265561670;
Add 5979973053507535211304047308442544999388278531658182;
Dbl 3120121334579188924389932741521988762756044841135612;
Dbl 3633509608501545530808571602291126080388199381970783;
Add 7037223184119710940361259384909338209784798327975180;
Dbl 7370021724927442098651053034424301208298729551001407;
Add 5793446138492929909727620936735718537785315258599649;
Dbl 6981613389390215985594470510152275359694497885242394;
Dbl 7486499510459431079965983206640565006158428175294274;
Dbl 4029747922815331278579493948357773492577042632383687;
Add 5580330749700689179563219098758773174426281439688139;
Dbl 7505998632564602404537123380340313620624049139315971;
Add 5008598682560209304974762998261296119469806614599169;
Dbl 4704165660198889581117701151085745215189846911331136;
Dbl 4411510882607382310617449513405384571572190268941650;
Add 1295323524360406084058050538525722574045083150590749;
Dbl 2121061720217838257006132686339597849518410858432150;
Dbl 5893344120903629341517500474930764994496821191414902;
Dbl 3003326752779236697076138779134825505985392143109868;
Dbl 7339610361693581086853814414323490509499289060578593;
Add 1463081922473118303552633512253174552898363815029939;
Dbl 2483800865431571614283442764427880794370879962444500;
Add 2765400303729636889638313000673922137735526967089644;
Dbl 1015096810804660379960719592305990240115111945271112;
Add 5584561110918894079558848771552249267591593876740221;
Dbl 1852683620342546424429348751821990716289815674625892;
Dbl 4671847940285943813190707042625739858313242010397416;
Add 976129480030271097183438274741961916420123212282682;
Dbl 2264155530619218056052618526482923257502866492015136;
Dbl 4100784952856845432266408119260309069680871515983059;
Add 595071085112019483820286347410896979260000404610160;
Dbl 3706201195001689482979785800754237793521302202010628;
Dbl 6294437301462950098898736707373114345370199558167981;
Add 848723026598994852438751910048537984557617481243409;
Dbl 3005714470779252978716787745672317396076735574111223;
Add 4859116443328213232630855125794688313773051249117156;
Dbl 2953828152730453660923469011039866897914848162926344;
Dbl 2549737873886793417700904643829984981816766817784662;
Dbl 2515416854154680076355000787680213738928893042260284;
Add 4483806642138863254941373811601499330011066268000831;
Dbl 802976391300567431939476731828820268822943133033620;
Add 4491604063979837783339455909426581113061009744154411;
Dbl 1068642017895921060874247910668595542533851119512633;
Dbl 1033585365201950083196986563326076581387595715353071;
Add 5470983628306539840216460584956222161774921620884963;
Dbl 1574956086846227983083235480593583602087854368213561;
Dbl 7119177149074254861693791842351745331974475517534108;
Add 4011289498027796559749924052944757688449653225057520;
Dbl 6000680040415045724952331702394777426605647219787803;
Add 5903529164919066374168150530504005243197193867613543;
Dbl 3788077358409302017797600015787939399042462648948582;
Add 6636441422752483286886106142002190813480801778376925;
Dbl 1997082472690452685138079241601809568815189029443943;
Dbl 4279636951383230523324391342385315555874463573465161;
Add 7344559393795704042035630464962166919717638951068580;
Dbl 5268490821753956471934310857212297318944149174758025;
Dbl 6228606248734435540210897100331195651535567287051434;
Dbl 4193842261869705814808241409347904729241771624469512;
Add 4251012223432992510752847150878916926316190096649768;
Dbl 7293893553433578358118836880173455628915523111974618;
Dbl 5059479094753586157357746135547751149748406262784914;
Dbl 4767616831920774169898886920781819031236699121599017;
Dbl 7255731652135689056296577377784172188065862152519278;
Dbl 2235987816528232430724684906240391737308785086713748;
Dbl 3741781074969382166953237410604030233930017913485377;
Add 4702758314084118737678645135578802158296716173417254;
Dbl 7168332821486957071020777941064726534962815726116326;
Add 344658542588509279739996261920507728668540468221140;
Dbl 2794802570046673898608235328029193236695405977724137;
Add 4009274060345085141200469597704590903802409907603456;
Dbl 5094082283104561756367833583181892586789777053377291;
Add 3446917553154173713378086770052141907087808717823023;
Dbl 5623818958939104157896044598444504930183827898178853;
Dbl 3993385247512915573106079468925423839909172109179775;
Add 2212854168419193816588416775939624958368360095422354;
Dbl 523550904147137638220178617863324232628564857569180;
Dbl 6248814359118781994974376456862897766726048182085255;
Add 7441679705312302758259334618309410952706287113290499;
Dbl 5821681294686526717657075498053846508167470172542373;
Dbl 5178267274513164382105135965899935479122088688766111;
Dbl 411695942740779561957573910624371563878765314745231;
Dbl 4333081635346943949868521037066580498373118500977745;
Dbl 7463312338079489144527168027247201495325980372391218;
Dbl 7154884776278182784826087914055451999851307803112155;
Add 7170893611872559231712494909814110411308765181057874;
Dbl 3705760880341117580393652075756033868651596061680441;
Dbl 2560699149823496827637335478677802628228802439705473;
Dbl 1866431577476099615009040995182681383323010479423002;
Add 1487422545307792521026818484970419046128145592773479;
Dbl 1521646716754612200317490133443934024401026172752527;
Dbl 257658619235706147364584023859483524662593142088815;
Dbl 1883221011669750288945472038200913508644204251801706;
Dbl 7284261104048642102114205731317685529000463367581292;
Add 6814765981857975602210183292618276403789092488476446;
Dbl 58753322518772564380956652732491248532379197712770;
Dbl 1278245822597970178446333238745750218083106584310147]%bigZ.
Lemma checked_prime_173_2ac32adda9 : check_curve 7566222925651515924757088327419008176680259346423209%bigZ 6883574070711436785534131709057301889563551431691237%bigZ 162331866141262636252256013002453036740068477662835%bigZ 4226540806226567035271196423096765968880031846854019%bigZ 2489536356961661553456822978135363189918710788858747%bigZ 7350443598213190172049172658526082991637786532272031%bigZ 837914357128409155112502247981637 steps_prime_173_2ac32adda9 1811767933205025600275411598965200595568632157079356%bigZ = true.
Proof. vm_cast_no_check (eq_refl true). Qed.
Lemma prime_173_2ac32adda9 : prime 7566222925651515924757088327419008176680259346423209.
Proof.
  assert (E : zv 7566222925651515924757088327419008176680259346423209%bigZ = 7566222925651515924757088327419008176680259346423209) by (vm_cast_no_check (eq_refl 7566222925651515924757088327419008176680259346423209)). rewrite <- E.
  apply (prime_by_order _ _ _ _ _ _ _ _ _ checked_prime_173_2ac32adda9); rewrite ?E; [reflexivity | reflexivity | exact prime_110_ae907a8245 | reflexivity | reflexivity].
Qed.

Definition steps_prime_201_363b4a1409 : list step := [
Dbl 432901770378533416440319779552420414618981333022226463131016;
Dbl 433544800532332772925489501252755123538062662769292224461777;
Add 2104831347002932263696961978333095894699899843616581581918978;
Dbl 1795676972653963567800504534978345998271242435196590579589382;
Dbl 556170691852137500158673106176113816326290043652506528489101;
Dbl 433443637958602153505213758858985005207398852221214980832580;
Dbl 683258226843743836396534398875039098925803078180930487410811;
Dbl 1360090152554348780086629051647104112896296155981875012297210;
Add 222355457817517007763596902530442030707851925057063667650035;
Dbl 1364334602117822936453437549780374316995382192969922539555747;
Add 1363927982948025749679066378468381061748090180337369443781468;
Dbl 1192780656390501059901478932291436603061793330960221248285186;
Add 853240652475524022770876795571953077298020248304580836210267;
Dbl 1372770018120755685142380323450343161764388194452990702952405;
Dbl 1037383330283450226599422851773606691739541728050744253393692;
Dbl 1242816778179776662909157932727097514404452377154600535394636;
Add 1817188526717001999004740030446799830515377230206187591185014;
Dbl 270896468012914285435771608964165350295774111176196690617109;
Dbl 487861594580038953940141831376615740237142284732942373598232;
Dbl 150563791815061098893653628569624498558834419986405796842592;
Dbl 1702197717946972291006751679721630653820588297647710626167211;
Dbl 1318262510057065213641128548677246038473405152609414609739187;
Dbl 909250650248889368780598134112314305572807882104223283428348;
Add 470309729004512849334620366871487072503886553964622063578258;
Dbl 849529117268716608163309381323196491432104294248199456353571;
Dbl 1057269335591642201844009458238703255569499357829179223700243;
Add 1413078284722450199194708883308968828763424688626948151507727;
Dbl 1533302472963807603439645998029113994827801162474212701579343;
Dbl 1380948812176670068852256128517297675856810972983068345815359;
Dbl 1237829912219467901457356038512932457718678075788936916921780;
Dbl 1685342387584990202702311216686162710958517137179692132854953;
Add 1831434322386949544720931669463972140170951851879081329116024;
Dbl 1370237878266972359760232329438099479635863290828260053318082;
Dbl 606903547581496407671235071093401898564002867999530008662741;
Dbl 415083386438328959976150154476395798905173057511651290112050;
Add 291795304024573927110722724619621193055822545700804916711643;
Dbl 184556431816427289817482187854996248148674934722224688513250;
Dbl 890119596261629019484410253778898281037905236464992641228692;
Dbl 1900979502973396898184149436480670919464847852248610268155162;
Dbl 79479048339334022287791758680239256499613925662930574177799;
Add 1980778603124385822451246631958925309852253131495709625081086;
Dbl 1085897861645432151695105576052334173532116475333736732857729;
Dbl 1376757601966484343305859280733200506301718773569598880624809;
Dbl 1965650687372369636223487856322959439954560187490774897831009;
Dbl 12347410701874439374632776146372726448308465544011054252528;
Dbl 1612199502735279703440097970035579427209918131283126008776243;
Dbl 1440682926217347578481577670875257837505667036762198795906015;
Dbl 1435661040192310188344111856166603557913829095990334719324809;
Add 646669504529636839085479577479289761267382783839465684489666;
Dbl 11439253975630473133412186741051208682188473295097440847002;
Add 1412295202876008255131322718157569535539414180869314606632821;
Dbl 409256460373603826592770007926596186230588717476060103418110;
Dbl 2135253166337722648407753674129935722809893776897284781735351;
Dbl 486962314696436074639370103772991232495236191343462918470188;
Add 715389791536540635768910077614950407068182497888038144335501;
Dbl 904193314662598819705618201397188476521136645387773945666504;
Dbl 1006612647329497417502837685502258072304976500980199151808291;
Add 1058570005509135170701770463402001288128605651669767236964988;
Dbl 2054433835861901508116381317951527267449744678237439710844690;
Add 780391715321948426534334719651848482745612507338207142734641;
Dbl 695471365487642178680558687563753047961964810867912091131089;
Dbl 1931130011215811474255693392892738553644014794317773692825371;
Dbl 798361034340996456177337988118606691461125258676046691303481;
Add 1665076782541576304044315743913857473999671103803651554116929;
Dbl 1770579468364692550245665484535919171824546050716954879200062;
Add 882725974546070915566115046620679551543405911194823299743295;
Dbl 1436165867529800102684241521616100076977190589293024329099636;
Dbl 173784562328919825524429487768534171373150172117961644026226;
Dbl 445377717631182404100646115187600900759129706499749722854872;
Dbl 865605830316103157329147145359973999736034317181578852748268;
Dbl 1555268951121064102196600745284842803699699055982065674272316;
Dbl 1784910424998692095075180824656874795094403312898338487421362;
Dbl 1644099560144346688706067281493744407410553623396917575988317;
Add 850559628177131788812574305366886698482944058378940262178157;
Dbl 385247278269945413542866480588251511824791637450597424224378;
Dbl 1503522794780171474801929977751112765720765670942186055220921;
Add 1534020854087284762754938996999630943574503031812566559234546;
Dbl 1350894820816025780873780168634047220224183114154013190573630;
Dbl 1028942540073599968760224324825018129754161204591491886906518;
Add 1135168083131551128172701422505993446139365133560379746868962;
Dbl 1841686140588906452479423265588982745809890166097541572324548;
Add 287339462906594964220256667658047133800704784348208670649331;
Dbl 1731943979343405327194004167185157952013764716457265619577314;
Add 9351073601741623836429385019481563254744979176450549480797;
Dbl 125129597510809132004606234241821015856565900615056450967267;
Dbl 1305272457055385365621598612471738985710923820253502737637602;
Dbl 1090744034395747147304382727999092804966700208058547112298064;
Dbl 380835535096571049412916918353000840317502637242584673159681;
Dbl 2131164542533694052454737059536998581998764641799481725782674;
Dbl 651235988056911210509655936377734770114750590879822580768240;
Dbl 63491049645864481205910970378273944534005189770804248147495;
Dbl 286037491588685374331716824940602547352851857405292406739381;
Dbl 790597967943761991380720422277185319712519833004305838185096;
Add 1687501689094750746169351164612533381598541803504526375688701;
Dbl 1986437870533531054533067970269891211215316875861266938730137;
Add 1759715335689367210103857923732835395072812274600027357040702;
Dbl 150607019449880436528877135239590628017035448612558558261631;
Add 1313892468052260221804460493527043120166507905204472646861254;
Dbl 480711087107180258828010653386921371080945048668127417761272;
Dbl 773049673776630053436227283782094853715207268467513363506655;
Add 706085260709820150030818669417106790234812591455020256628480;
Dbl 1192672585307046562077588376106477342642036725489426258454077;
Dbl 1328403855008458118613502003822345697648278746803810417384814;
Dbl 2024429058675850915881969672545798527224803069884598320006182;
Add 679408272802375377411832447083054501037163555401170094798880;
Dbl 311288728030857613916851198330839801938622099214400273497069;
Dbl 1013784896269199562353988102796968845855346432647564859655595;
Dbl 1050149013350809110714134281567076264386024614719491603694219;
Dbl 1411330502098264858889915645731367815201280618580873362157314;
Dbl 1616357801510787751761263213822783730548144804865682347376285;
Dbl 1746253323029844768928924053254074463350041627271099274265181;
Add 465849063503008725524177640132730058105556743812816688469351;
Dbl 194209209343141919486654093250984876127042155142153376329755;
Add 31527051385655977579236332531879272538084528416968211426606;
Dbl 1189719656242340990562784783593727172644513046222024026928878;
Dbl 1250164964683084178724696149368112433258677853297358602475419;
Add 718301858287031893232952702299442482487397118556105260005318;
Dbl 57120763410459245160600575478247320027754194527110737853249;
Add 89568499531428943089350838372347777424299521809759256179900;
Dbl 642757075199082504480186397172317994662857035611394348325414;
Add 1982201188414876275887278906997197106107185515525532554243272;
Dbl 792064504805782726334764854137837064621732854826713047850149;
Add 1159909110382858204736328144803815647958704998135727972182283;
Dbl 1817907058399578294253329713541017775216840204138038971778985;
Dbl 1137268631004610960037803887814737120602242331729066657855236;
Dbl 1050456118423641357430481914200053855337347861677989035710633;
Dbl 1734069873752287311469134767277598523815192374398444389339003;
Dbl 1500540184529339954160561807939482041028886041793835507366947;
Dbl 1420956140665005630024601337460852040293015423868981049345711;
Dbl 516597323054015935371871920307514144586723067913117824280717;
Dbl 1070727109680251309475399426625079745802337831534813930270142;
Dbl 308190041683757431734227208003039080289393266082090790675220;
Dbl 2043626867368351161749197073388574981316188422211579714196733;
Add 1841701648003164011864314675144637479285509350190723734805278;
Dbl 899623621836447214937489097004827788378618149328586419817793;
Add 1357663232573940943634356982676961723229981620318367646956169;
Dbl 118089405283581494142901885670999512633620563174263532489244;
Dbl 643605235259357892721293140935780980534389450048127173224617;
Add 904223831440500839287602178849687047655194344466375448319261;
Dbl 1849778847573229577192913644916054529174779598063510132547426;
Add 807228392158842096977172743213494140866541279285880935731641;
Dbl 753466230371976677268896954381878728500037519263588220164723;
Dbl 1134503414150228918405242704458066970841415358395279901152574;
Dbl 2047626065124990427146921709474399374358409571655071381736516;
Add 343556940492674071636003293797992130283919680754863592316432;
Dbl 1921876030459948439169450522874994087012287294068239541976324;
Add 226919480709236883446769652999604180349340773027622940325942;
Dbl 1621985197164340124217331740794506677471331140950874876272211;
Dbl 1736300031878921513228196339268413518828640827958395418979412;
Dbl 2098423513682137819560876693351600812390828533821722856126695;
Dbl 722248394522597829715424744874350608572766131502292545953072;
Dbl 142099550455143730625005196789731093456840079498194720159518;
Add 1958516231662269476066812282106449242028324365345363988014965;
Dbl 129979344274913171674541898475825311362520479243582215926586;
Add 87537509172463761461602081019968059853902145305716249034067;
Dbl 767218112308072051766873190972819975279340773484745486635223;
Add 1041178651210622300880701938680618785852358570700466943049856;
Dbl 288536858831649950057893136655800486281568216588445220582877;
Dbl 630861906633573214098871952650636485487677647387564050202565;
Dbl 1942511323798001721407511827113238385451982845759378988656704;
Add 2142076411133300084189316096498897168715023911632671404824870;
Dbl 2016371534662022827007572781815477469762713326194966397812866;
Dbl 1201278563559502591678082052741490283457678971239952408368423;
Dbl 7859498177733929806547091491073490212776930461329903829747;
Dbl 582750386805805370612661963167664410088774025558482096501886;
Dbl 213635176697844004325633121428062042445879476693365420972643;
Add 1800600148330974511650856153625049591082050886701468724750755;
Dbl 2094966857749318966268222786506619901625275420072780780594871;
Dbl 528348145045221556078751053365508131682643034244751890786500;
Dbl 379189807159595739461818139952462977006725564336390879058386;
Add 29963369843567886271194519545828650385066796138668344957516;
Dbl 232719613430748100258760643617629124032287948321921828810566;
Dbl 1492759682793466161652893187947335099477037861799107573433350;
Add 576049216720880946439569599773954363610562504592239802728725;
Dbl 708944624521499333301506267477116957009148457577214280919144;
Dbl 1813952602180606759405883883603854357281850674805001111068417;
Dbl 478636921092584306360536949411398218383253821283228498715066;
Dbl 1027004898632779476368045304883881858600649034166878308901377;
Add 2159622571102686078330860362487991660089507638790326710403665;
Dbl 1440012307263002161432015311503497148186020526186794958055909;
Dbl 1275390473587086008280010014190488378573352343819744706519365;
Dbl 1200513591572760552695465623530204037026645485260167880113385;
Add 963461538110283936533672281009446785968729300164911780241906;
Dbl 2151971190200126295297190312182706813484943938998505135047058;
Dbl 4798832562173141118533462768597866248296547246549485032103;
Add 1499011193349397158831593343614558313873301275057871027616731;
Dbl 1152409834865843856099169451968566294723778331038695252453395;
Dbl 1563034600952597777905686514652274474443852099203599314563895;
Add 1341306576184506810315931717306102404052603508785067890767586;
Dbl 2010262659631008857595250237608235489488675892048521082839288;
Dbl 1724567866675721119221088077172317441875509625887955966930652;
Add 412830894507258499376407646623416123570985582877248500824979;
Dbl 325842641703016415624678539948713898877142030652466680236099;
Add 1281052437872722421096613691908031673491461595960651529244729;
Dbl 166942990352453211057714711934743679715789063185092605491094;
Dbl 2044282461549895794427093812114581561541110443702291023197143;
Dbl 802641116258696279107509508495291280658077656921998938168844;
Dbl 1377780052356826004587793079544596744980807693612682070179386;
Dbl 595868570658228411378380131284503921972650650909068328079850;
Add 550968218035860297715807864680937771024826562966436121123117;
Dbl 87865246871973328779120641129930263574510361791724307577637;
Add 537069466801514794358326608685827207404142050319967951379469;
Dbl 2003939626183831381879496120674119620994810031070574171522454;
Dbl 1984928842265061287432543182810178770547873349368599448123925;
Dbl 1776350283040684492596598634964851299368756994269701842720577;
Add 1913908381299706649861320443016466865396258591229015036861418;
Dbl 1125781790533760598795024865788265363241873755220934302617044;
Dbl 1011725166426413585235796215725933757135601376432674486548199;
Add 1794714678716794063084161533978068400773221556682703462223827;
Dbl 15332335476681217628268137527504325706323172681040696632277;
Dbl 1941348039159308293680854478290651687407700620135132902405827;
Add 2133291186799284765269080866373217423214330452597935174665887;
Dbl 1290901917672653946356406190444408994184786491374277006170847;
Dbl 232335713676187595776369540785802420777361922796002001805088;
Add 381612433915425807303295887295092965046538940521382057586623;
Dbl 1098266726630839857629744416937485597950761710301258797277701;
Add 901087975734395496969522150547667082979940547113127484820202;
Dbl 980437777388006159785178783666148569565755629746071811977236;
Dbl 550780334251695226256488219110946514556102308799205357259598;
Add 1436624530391694187759424774637502259144052914242150934942989;
Dbl 2109098129456838355018033382866833890627695106071406577476502;
Add 2142965634452703929979227164607967923275506433311945551399809;
Dbl 1954392249335785919709188281748608368605673709096222546466577;
Add 2002627897418019934771922010668273833695971503417563461170899;
Dbl 624544053232829565121301212301984007958540646379024320342100;
Dbl 1978725994915881609712798080303663397001330729104230477684151;
Add 920373682377903530053280308729596593548175608175346155072828;
Dbl 460255370515900800385445519420267837591511552529988452161049;
Add 707858305691017414739194795381550560569058486781142976115849;
Dbl 512695554632594928918306575311007936568367635885197093931080;
Dbl 689371431851441598916294973388207724199559879823733660535482;
Add 1672766800824235918755461868428170944931629723751830955358132;
Dbl 652513054954298583272428742442383484978315492201645461974831;
Dbl 498685807214778467166192288542533921439793361805859370688683;
Add 1668243642199220243267082864706705128205693004809247012559770;
Dbl 485722024642602434878398693830838955306483931938529631466491;
Dbl 624944333828112553880573206738095597042257533956383219344752;
Dbl 1608434187129528922052006338041491975399402936161549573837614]%bigZ.
Lemma checked_prime_201_363b4a1409 : check_curve 2162803128463550481152246552802889721309066939039549657584649%bigZ 604609781620773467705306714107858666345136756425456529273779%bigZ 1865641554426653759119379637892380219397022385397939308900132%bigZ 210732562670241153194543232459360468458106943536097252943029%bigZ 948481399357604483562649356854778045776288393899827997535418%bigZ 1787001350426815356263906118030032734867048833842228056390557%bigZ 7566222925651515924757088327419008176680259346423209 steps_prime_201_363b4a1409 1814579770096917927441490084387180064630837909924087111355997%bigZ = true.
Proof. vm_cast_no_check (eq_refl true). Qed.
Lemma prime_201_363b4a1409 : prime 2162803128463550481152246552802889721309066939039549657584649.
Proof.
  assert (E : zv 2162803128463550481152246552802889721309066939039549657584649%bigZ = 2162803128463550481152246552802889721309066939039549657584649) by (vm_cast_no_check (eq_refl 2162803128463550481152246552802889721309066939039549657584649)). rewrite <- E.
  apply (prime_by_order _ _ _ _ _ _ _ _ _ checked_prime_201_363b4a1409); rewrite ?E; [reflexivity | reflexivity | exact prime_173_2ac32adda9 | reflexivity | reflexivity].
Qed.

Definition steps_prime_242_3883d86da7 : list step := [
Dbl 1129605846750806778848351573361164342674349516785635162401904957576612775;
Dbl 1282223185890257930561408058145907361478459112798270839725722436822572613;
Add 5581533022025413922038981751043736455276400242276909173325425734106061522;
Dbl 4737176039199508920134095551826346600177980245801555789311645984994070563;
Dbl 5637035019619890487683282350988688527519900048253536835352230053570242502;
Add 5456744820269131964487253754609520505759423117275045635554582521943200405;
Dbl 5612680898984284200512298380094588163804320602221173502368163536228771345;
Add 1834668529915707101298670748278898511463945161078250295310175869941912708;
Dbl 6448489436419652236757356170983644620460831356844659552350296041108882289;
Dbl 3770650019155425144946295963215970180419233749143491814529604065571895450;
Dbl 5833834921398470619838170800917435629853392348278743926174709030216939029;
Dbl 2779953059570338827471472279795051575276127674156433984978307666357279211;
Add 5274680468016502901023614792297752976743723075516796193060493066382936472;
Dbl 6483967194571766133735083127216074570002030998997112340237568362372737854;
Dbl 2066284145568965484232028335641524463739900547260614405447527624046934988;
Dbl 4522984562761964621065377579391784725794943144305990418820616131302814317;
Dbl 4893423476989475388934069696627552658484344244554107820508823314510655530;
Add 3875211792656274213664287883944792191702913489606062768399634856030956055;
Dbl 3202964201379604278585004509776394014131614800346637653748632833223462795;
Add 5254454800950457065131358149882680082883215418612906686324410602785752748;
Dbl 2918790923879403102791529434559597668958443544189133181341326072462346723;
Dbl 2219615510343333237373821950031001292319595379928732762866620448133823607;
Add 3310253771481811898788926129135777301306848376494926150080119197885302902;
Dbl 4586976201667046596639220620233205668433797137053492326904201918186235681;
Add 783661060759108441898362411938392594208499545259082134937877179754082086;
Dbl 4277617567670812230220250120980136262154852724808516913946397098900508259;
Add 6130775658391973429472906781924225841425375307725557783631693220825885918;
Dbl 503302394657319732985419405086754502038239456124581536021772947626561029;
Add 721176367143070642718944216150863692559659406138081033010392776195641569;
Dbl 2315982227074232097440918421496330785594074430021794606559946705780352077;
Dbl 823796055244663790644797286855510481372523246986417486916840159513182479;
Add 3227691582680653760982253532942587276504117743745545373356478990283557031;
Dbl 5178573878035671719100773040117908192278088951795325244472842854183348648;
Add 3554232796270579588589463366104554841064042836281378435824238549356076922;
Dbl 5009981555362325698695265619022641117723081293692725778311834224925669799;
Add 861415970162439084124644787855102574357987737391769417989327906437926299;
Dbl 1453900473193070266529246499165872299258987545609491245290498644933793246;
Dbl 96530042315253427537220487796823544341223431930882911839020456736325669;
Dbl 1032385825135372606113190056443217464241889164676050881237175898329284462;
Add 4241937280947501029176836053004804492429349268722838036391044206586189726;
Dbl 5409416464814075119184223106764177690916667821359469768834457289318491652;
Dbl 694682895565938747517942301622890202314891493789480072466140734386561377;
Dbl 5302944478332983574271357393802602231026723492700181721485243409984122454;
Dbl 1486884868874795596680426740253600019921341321347885883318497714072836055;
Add 5621096766316987067539399607203813596633303544802266525151119791172096062;
Dbl 5095002066109264536868273283910755871247127841080793663563840519740113166;
Dbl 5369197365896683436351242384095869400570589120923784021976625107443788258;
Dbl 4215191285737560959820083080292244251404693371290893368163981817217047001;
Add 4331921330254646818469272565745259711692088106921247689523125866309747306;
Dbl 5963285918114241362292532549921100120620561632392605545981689382620734887;
Dbl 5113197728333599734091723839856547631603460937448767256292361179503639530;
Add 5007913689238385646125499582924544387591853623832851365537399133548144425;
Dbl 1187854920233113576755545748255747331677035606718333764240501634415716655;
Dbl 3350542816034937268568367970737332202316233659167225543790349789060976480;
Dbl 4033522987849456566681504001983290922373402128539150228106646116938812698;
Dbl 3218869640511007045060650557655573125966180041938972149795665927690506078;
Add 3268194952151063712292267628592214847921481978053250388605406933308545916;
Dbl 4772041803248009520678026257336651434630978732320798093860677192830084063;
Dbl 5684136329836401434730324580287955422097940786933210506485955476242169439;
Dbl 3697947588731155940377250257514541662206114564833511084309771745191654396;
Add 1767220071700598953905607535334890269576491263398505747130780905369131116;
Dbl 4706871425603573447945672968697425027162723375560722885449027618246747942;
Add 5608123004332325282035924157070082581714487016297630398600182988627554501;
Dbl 2339817339411681608818320781321751664917334552185257694258508107181794019;
Dbl 4974339857460182458176922754171193405545788736233708219943147943776354095;
Dbl 5108458938214587923480646668500264977566722394343291619520883028949462003;
Add 5684538992887009195957457850177917797130431953689243866569383673945731233;
Dbl 2939818424276532246683821172299393689616563200261356014320163078587634591;
Add 448370232248385910159844111066522978101463620753517621360299580190573704;
Dbl 5977727084248121914941856601919959610923745151446825591796873747520043050;
Dbl 5576279330204031401413459609958437889997307269167557493255451489878486285;
Dbl 4556998688950555368206045522377053560570667647338696461253457510889000824;
Add 158333880074596141869980935192645949047849730718304368431309108277879135;
Dbl 2527166239100079279305877859552078837816766105605483038669474894045233725;
Add 5748230383177122114043738650837257067810277994718128535294987951356352699;
Dbl 5369197768270248235461953982375544221719299409732266786661121801800990188;
Dbl 1221074292068695407047194661313866400841549930554188063838801563070527995;
Add 5702771047777425557613967131028296673252889434396704206617739876775390711;
Dbl 4851324870326408859841079734743335453007007516982995396903500958153505788;
Dbl 4577724549860536135350188156857636582111465822592466987622369403790385242;
Add 4888281527361020884197082272855633008812094690044540315932313362161213389;
Dbl 2826264632395629489740751839414316478560263490019680989277828675354649793;
Add 6370342398641243156127304192550950657353511536451113261467063418585965919;
Dbl 3853819062652206320784792627108558560137848210210491918647931154847573976;
Dbl 2382257773266987159902613803175097621377770797891013349499614159396920023;
Dbl 6368962901902674632634632556192819890940371629462942084257492027997363317;
Dbl 767764324426881724243696260991090435340310088286742261367969852042568108;
Add 1123541518919762907629724506136135671133622885688828285856220168483223618;
Dbl 3941597848389642246203922847051910388735554867735726676391041621898690088;
Dbl 6148291448919361571698598628509189474131891755359770551483677241459988019;
Add 5718995565380194559077373355823595328123947395570280059354757277174085826;
Dbl 1593928019835591189222116015589724089444252277691349926380712094336614624;
Dbl 673407476815294273672441239527243157839201600177785209157891401585896894;
Add 954421861099702202776565325864611432132995275882583525568941956725663932;
Dbl 5990229443160009957694094172888154781049260645785058025335275001102335927;
Add 588909669512154561125496261006164791374482872477932135069183203501931261;
Dbl 3808466982242114098799951448412917523743179389833981062430154507213468406;
Dbl 4372977041397088096614423213857812359495870638204047472387371775915265263;
Add 2286568910616879479542690682086723220017555045525224127472362820273879933;
Dbl 2841109645872095027121964149076116350283870768912203248016307298432821657;
Dbl 1143578028262722191442534365094090298259638249096014200495321895155186106;
Add 3695870852925596569826708873003371523169132594719402513375950559254594177;
Dbl 366798795837956988773303364744366905452370319820998848426485291253156011;
Add 4460835989480478721899120032032894040701503340781374463715326090894423343;
Dbl 4686936653005482940890395894558162004145336302097478800282261630244445843;
Add 6072520602476899814462405623530216748294396680873720675265511022197955970;
Dbl 1149271287659535064130388999600499870684767978770653876536672411578777732;
Add 3689287750062781439126232631801323519492190097835370241682194826532631265;
Dbl 4922520212217925995792732962384999265789873632249907473817333412913664561;
Add 1777683514161010100443186606015307048204744259266366528917821197621258936;
Dbl 2348372339122885208721008410362417021555474223363180297566181739927686422;
Add 3804176637561382516546127574236334723544209542741154260219095886058903644;
Dbl 6422683025836400781912251454150439996463381514307151472593198699080336996;
Dbl 907126014590338315428157826473176774650579028977072728203745935713286445;
Add 2821086863467323270329154098677179653019899530493684758576864077383996113;
Dbl 745282043893965190959217293500864282776373319652225348530856727822837123;
Dbl 6187428060195641888704142840410940253655358936983847077315230844524054837;
Dbl 173689865911248523972486354259991953775059010230303635907064152913438151;
Dbl 481187850742163381141887010195607663789190352378777669165718097184652952;
Add 5167984819300368077928704063663911261483949765688691808075912704053240892;
Dbl 2058761881083645345094502056138100667004613659413847865579851778190741209;
Add 4252448837410424634693886789608517338590192924509051393934129527088433831;
Dbl 2970059645867968056718494131030138358846998507142085597470400697572000185;
Dbl 5028348792009029504215022411566770462565004300727976786466461229978640996;
Dbl 589294265665569384152402024459147998039592584037598340737109492524715549;
Dbl 724180106615463347924499774413166855189933087909466626438960943683574596;
Dbl 6116010743405628389286849630250342959082287602795351991900165315357853624;
Add 2331257748800471172297417323010446871973912605917923727632762478747066665;
Dbl 6243723380089532238170107433788634003761022428595360968823102805597915188;
Add 705541719424852277809974380255169440574498010213603136157036567969060579;
Dbl 3039248253425072507891191980873418167467638291366538838266844705634835115;
Add 2639351305809312645371161274314410780106000321854725712975173502668635237;
Dbl 2493697078317929732240371917889088423265943566389776620184396024699623325;
Add 199713775954315236943718611861570229289039391943727708413834875610510509;
Dbl 639975413455681329665811269787596713376300594687781265985939980392281655;
Add 3821471270207875628568670821536286957217146211707274658214122645033775779;
Dbl 6453674259622838483982240351962755074693587430414546206691207829900567825;
Dbl 2942368248728272121960075842415918633681395514054250984967890086521540745;
Add 5559910674353058655126614538669246095244227729315609467131920622426408853;
Dbl 4577066038083029215509646252566582823029524327814140961119136122546159740;
Dbl 6265491271463887255095840974143068251266413337037618289378646694780823468;
Dbl 3066433148578451297612764871348481720305421889011966036897640075899237004;
Add 1422173984255517817677266115539621539382393499925496337010733548923994308;
Dbl 2714484164983345309435401430682228315727348291268451584391632072045638108;
Dbl 1638803345497042330738335333681020584897894512060231374921811295045708611;
Add 5390674627035855476125513521990486477455344732311480379345476157651004885;
Dbl 5396573394812037246014282888232063354826167223506630576133353344374891273;
Add 3822245880386953456600080638149886896662198905173513239903985859574771725;
Dbl 3089962684170111370626885709115881224164191268256359865103449035059082295;
Add 2693348035484982580439211375754435791110223733664150230443489182488111280;
Dbl 724346749876511278776500335412790708755069918102668104589681764028986420;
Dbl 2710685353671016932627117587712874201191172967346090123099132637914507254;
Add 3465038931422278229253061452033682171162397333098584950978386281378335562;
Dbl 2787749887487975107959401497199391541582424729366335295542770060546779719;
Dbl 5840155267859495172792577454372749240678971237294082158996580569773396606;
Add 4278159282997429655064249243777155375150210296567906357667025711882587867;
Dbl 3813739332876770297086722414300295920913014992129118150635667565328061721;
Add 4887508903641102175742905955798326504744185965887026093609637330502056007;
Dbl 1625937195191435516933557405174368551059657784275090982976006755507609438;
Dbl 3707597030059344311602225552137677897220015547999591788581405607882951367;
Add 6084676050200644436141912937047378952980246832234030628611091302959622652;
Dbl 6201469853531018371103481557939736335385095560554436683219902691857181807;
Add 4397563244130863737647394489201890805915687757069862474400115338093117847;
Dbl 3923923479211868313682317161884823384952866265542231008779263514542922105;
Dbl 6390941109575413476738830169313178810249854582518936483792548694669974246;
Add 4876459799156079389269760125551000020141652088182242118920575658426629506;
Dbl 751398170305760996290911106164174949000095788724887323928849288657160161;
Dbl 3152556827802891799550114550245794485392569656808256217855128739371892609;
Add 460716501212604066511879579200666346056685651306020840994912307880114019;
Dbl 2343301424179949135130643799664699063474720925204823349638891665057781548;
Dbl 1548227894749367523672371999812636414387636515692011263837046876025760198;
Add 2628557754327384518992775153016355432680418955624696094251721391006054512;
Dbl 4355682143592624349615888423569125989233822388589721907186930840613110279;
Add 4369007969677661864784939556781294019741861376718369634232749479338168287;
Dbl 4378935610434584589466311123051991783570552134907706035368056704552386024;
Add 6443392150501946800327793800004644587824937474790800765319379357865520636;
Dbl 2095593250193986323043257777884077874076411577530243248405736312129392038;
Dbl 741188171838925359558890092698267471954243455859565719120568682110709335;
Dbl 1945534270673698674011778119729823500763595621478381128711095213786703324;
Add 6474532198171508869811457022841616596008488557555395986164776305247458232;
Dbl 4050428610879272517770302010653471783424684181113838682257334186646299550;
Add 5273274659670831216910453664850237819516559100558851992717769159999318539;
Dbl 1310667282108496569952371419846355910267984372266477052799517289101082663;
Add 1637560993339260153664384486345041970655929901317431396482122264451860029;
Dbl 1753906021580750175669956285232827595569516416751211997098429214596585469;
Dbl 1110863630222072409390054525230200144589198346227327364632545245982511164;
Dbl 305387817583777909427325303488319251000022593541836245436040802622502097;
Dbl 233602204586164434015467691592294254267435999998486529010506694509124507;
Dbl 325090272030098254958942237737469467552943960726141870060728931962906931;
Add 3593710003947170129373102419844969729076971616612737992210754197171886800;
Dbl 4055315478657667837376891643663841847216707873677591530735392216389049012;
Dbl 2247407119557547791695681413751593759168347160841763044787832221868819188;
Dbl 4948698024109394565494710329046454472220789794308732109856491918771064482;
Add 1320619979809921329993897397325679875531528266514147542790032664732216335;
Dbl 2571772658490055130067822040825636120383327675892477968925688311259305459;
Add 4694740473882822620764620790716076224833148958331965356381624044249809084;
Dbl 2304445915126842895876532041162572047240145850041149521986336381778357939;
Dbl 1024454830092385608301899731071054205143929686261083334477957426906923201;
Dbl 4824759091577255560118402513903219980321179857606751618293755438121746999;
Dbl 93785659743628732990877447728599071249116713810818244858786093524955133;
Add 4997608850223221595509163153720227300059340867804793106316260507189765349;
Dbl 5198323973961994448766426454174051158356122941651031889741112285763368976;
Dbl 6077237314597740465362941522745206223271352242796863428100052407560707815;
Add 1660935066002371150914975444706106883648884164982190956652278166988463523;
Dbl 6124958775314268314654519672206018677702934259105992724541737913208355861;
Dbl 4775628669546172778986905670757020439858088118947458134397531654167820016;
Dbl 2100814172071609742229128251924988106974906739595776316660712381940331396;
Add 252026556357125098525268427879368045064423576006232007772950271578958952;
Dbl 1625593945002891262719246077635077488665112029754872817949117925200643732;
Add 4965985226119691286645915164013502141623767188616367737332619539281370331;
Dbl 2818785556817605712972467014463140042054156842107644609564629420273161012;
Add 6080796194112781418145394940909316757018308220248836527092500044698903621;
Dbl 3625865395941891089865425668898828287131901849960193033446638119562894586;
Add 1705720233400926092874596764263078938451866211158039896648995864129686458;
Dbl 454288278630142688419909914142999000207493823837459114638502979787121143;
Dbl 5452574047485192019857348500906919960431182980133940220843470225200307218;
Add 3707792921074843514614454641225948566652569344375566836296529238348234603;
Dbl 5005144098623764286689414125061734214306050683125605541135559642184996398;
Dbl 3901794784216032650030105957855395415885974817322022327436415722456133690;
Dbl 4709003815122361873017241776513319360428342656200788270843500047935059036;
Dbl 1049241264057237201870123814355031932856499453558132338319185460953577739;
Dbl 3284263895944304701566828207658885424215523469826164725051666787719261997;
Dbl 2791868850549128149094490991834748912746230830467785965564060773788106231;
Add 4523254299312609034628249106904199519991499527359185557110372888549486235;
Dbl 4399290028426825922387574429490858819471173354017143516395993221129920295;
Add 4691520128011097621418501153832961510716038643130827231593764746665043972;
Dbl 1185713899554942356253227769112202688968388752386957927850276041216460789;
Add 2204030781955298805028979760835686159494148522522676500564530755293256116;
Dbl 3506196705055788450794655289610798698373766478582057579145928285896949135;
Dbl 5829588828145954299066965346712330377258933903475177322641880018326099926;
Dbl 5383405539661898855118567605811285636404255546818901242101115792240936367;
Add 1566470924526250125168068921926165476955765263878691631034628893173407893;
Dbl 479710508001957322233477376988691352831503429536258220908399021413710793;
Add 1919067621007075253102134214928818203091021148520643869089270403537428358;
Dbl 1593639418215204873111985557880236070400354788106039400164978402365044188;
Add 2640581803366132813081601687074762029336780544552030260229921038080701480;
Dbl 5048494906937411974918319678292809234448713453999312821805255324553896762;
Add 786126227066733880163910473861254991984790794791119173366193744052276254;
Dbl 6258939141409596536608773591619995788202785595160184411407214192758326291;
Dbl 3956647748101763669738888497980819089840757322688441606159022301885417494;
Dbl 4260987213042705497489249745740611505720666326499413861000447344575166227;
Add 3402902393897661647436317000911643641865281794509896559815105835359283405;
Dbl 6413549636405758496476904359704617002339483038266421192381959849380619480;
Dbl 3114716165705540260973350375375648058224685637535312179867342488400033212;
Dbl 322008890890870385294993501444134794389945779157101123169920842321768201;
Add 2341348952064783728646749218327009415451856538247176709887688032343716070;
Dbl 3859808273843867022086514744483552690135259213979707380371726255151973138;
Add 3223457442233940319321681082126071165267463337338335817437717912231320004;
Dbl 2414881220356645443369399557085810837801785798408535728937808879019264906;
Dbl 3396360752225131330651536651127234978428995103557513333944679486836292906;
Add 1811078976789265791980081942144556426406104093675631066817654007515698934;
Dbl 2984546502697201229589118671144622446524998671324391287379487628990642270;
Add 5344788405097473751515309347650962203155115744754494783541468057291008416;
Dbl 3733164190813890872526652074552231238147523385619860515098838997509826657;
Dbl 5777791743521643136716333326281513846602594716159483288528269242924844490;
Dbl 4785878367863516087870546488687220568102612867654142123045267852698156779;
Dbl 4093743858846998771670383037915682493562113238886542329537518072068129134;
Add 458776771946104487608920418107582906207227010963257046840665279415939270;
Dbl 5866969659729438970046140493674691927409782745975771858187287338333899813;
Add 2126999913679697736773087443288705745814804134875381343879690030106381147;
Dbl 6132921659926100458947899387142268070370428822399018844603489259295548166;
Add 6280784574018167345126323835095573521586723617862977072410450788781083105;
Dbl 3575634945844882807760477836627924811354140514557997556976207036216661939;
Dbl 2554069038523730183742784301820450172462936420615779602719245604031543349;
Add 972090578944502382892744416638499928723341597246344223985315831524635642;
Dbl 6347460462686618078565711413408112102159246488410224651059805403613742156;
Add 3478701346864105016103730848527385768245788728284889208469383100188986441;
Dbl 171635086141708064821580067250432992679005210955893354689053865926576319;
Dbl 1192704705210118220782668550723206318201628622685123419403484836105551424;
Add 763055458703891955310560465665873382017002313432605797347967882420194820;
Dbl 1039115987489948665151052850227143123489989084810729189289913556044286274;
Dbl 2346034105346643947647262398486816295059378145128240965687153432916941211;
Dbl 28455804840009587704189608466873272456436201441014606041427216637893377;
Add 4546627534576662675867777193352062557102616166196821408998469257356412781;
Dbl 2340575453140313938621496726868092872666322220233699605069382464539244976;
Dbl 1792564688810842311935753556205574194593170102498293952514306894339844386;
Add 3595221197879199520452660096038754370807158362376250231262251266990379440;
Dbl 2781024969713703174956932061183468478421071433396067669850306966642366490;
Dbl 863672920040922505733461286083089934004865081135463345057768021365034424;
Dbl 1761902303880054296757665389108453981391767990851028045372459317632837369;
Dbl 5235157884347466338839141046278798425103212978404219209974973238511073670;
Dbl 1537463201193670718082435202142188851123538958126852006176586180496666212;
Add 2339132951859160283526337963191635680031034133740691035150907399461569121;
Dbl 425475494081893459290432049487480975269979817042706917786003663468198346;
Dbl 3830068056225047560887712117368394679952047298192136262424398911415288207;
Add 6474300940899177948852760403412074762164549996270906360536543689255735667;
Dbl 1151988033739094586224368138926826139610291598043511713884078379102365329;
Dbl 6162232629285796054291341149576570655744820809949730804401226309733111260;
Dbl 655390708825444983597485026815323858027220613849316454515616960487386909;
Dbl 5664870098719095290226280253277262471098932578205104595509217191943113980;
Dbl 1411496153575223533304717418872106504751061877458286372185623284492702603;
Dbl 4094283996352970655703253624242096536180737397916707299302580935574896173;
Dbl 825031841094663731554447580881429177530642592680718349213679506535698839;
Add 6216835449648549162800377464413790168226119963630154229344651656032730054;
Dbl 295805987526592694166758080901257313238289623283740426379954947612481667;
Dbl 2329459133659313784381017354961788637799363220669350275813640405068839527;
Dbl 6029389869799454845208954326404419745932875576311958909953527077596693867]%bigZ.
Lemma checked_prime_242_3883d86da7 : check_curve 6493735988968149140157818886779659692614783835992685382164595798456167847%bigZ 3918077023501119067189581283995157551332421021107427204935326243938389115%bigZ 2366088237354044561243924677128217065590128130599835786982131881124484952%bigZ 1155536109357915959572995189395432391320696266993138228375592614812673324%bigZ 152108171790424083402023238025142151579507698042794197692548861354413854%bigZ 3502569618094340642668008695385872757981278851626193012190995700878293136%bigZ 2162803128463550481152246552802889721309066939039549657584649 steps_prime_242_3883d86da7 3176648221613739995244366812333339887190678677225952428368620280057870828%bigZ = true.
Proof. vm_cast_no_check (eq_refl true). Qed.
Lemma prime_242_3883d86da7 : prime 6493735988968149140157818886779659692614783835992685382164595798456167847.
Proof.
  assert (E : zv 6493735988968149140157818886779659692614783835992685382164595798456167847%bigZ = 6493735988968149140157818886779659692614783835992685382164595798456167847) by (vm_cast_no_check (eq_refl 6493735988968149140157818886779659692614783835992685382164595798456167847)). rewrite <- E.
  apply (prime_by_order _ _ _ _ _ _ _ _ _ checked_prime_242_3883d86da7); rewrite ?E; [reflexivity | reflexivity | exact prime_201_363b4a1409 | reflexivity | reflexivity].
Qed.

Definition steps_prime_295_4032df8dbb : list step := [
Dbl 38024834292507294042389912366230562882905970732563172699028500233478054211873906067265845;
Add 1016417717000982695033943539320040447322397527671285869118522580831337498847230094644018;
Dbl 37223665229841452402815292244409235818721340698912310748677048143545361917885570265294401;
Add 3901341491695928893443941472159755821271642955775005394671299547175816515351738213890000;
Dbl 32788030168953135592113624268510210011953897413194265979372707048335790071667435957940879;
Dbl 7653892817585514026005952946001442241111492039358635574111287812123153320375437087210416;
Add 40343914448344359762017179635146386163304978427563844490029792028513777088099560997452607;
Dbl 36403121066853833061140887762468037664699825844057587966420647001889655375500449915795403;
Dbl 40668838865386439949682722037008472957772869123998587625818718682146085134746868148093763;
Add 3115872189701657639324796482864465025465534117899752752489563875785231682525389430655110;
Dbl 1067133354126892636202784762605779312564425193258635906741884775525602174962702660042333;
Add 19527018099775139951391904058736060242150373588549029510272896528700985162118146187167505;
Dbl 42153468823846588173106875174414211613946387291347274740441515525349758183600782283762505;
Dbl 2355933442260464692502534949169738282154267850293749467335094831557659409915588947819202;
Dbl 4204766854794632022765075980163469501654327201263810578670910622014639525779409840630019;
Add 37873756229202122556134584926915873582638696253203685447060697627140949792574234899835488;
Dbl 33403530661659938424607059490779087400125904077983372110702828771567292283691670307112825;
Add 15585863139759211189713416868235337467958715340182830254108693342528348218377461367107815;
Dbl 34375745920313748463998094281192426624156526263612650025180537474627580599818917274401040;
Add 2479745846053408310442074401998316678654704440027030868318691422225953910133547408168432;
Dbl 30358202149251093437276473720076337408039857779681957871435749004646030649742354498152081;
Dbl 34856215298902017381583974588777827779885044817635213686976920843292417618726972328574020;
Dbl 513749566000481137097338372887246936812673609755552096950697633074653900906608303964454;
Dbl 10769610044836501170440626692925223461693325750376246457317302002620051371311690757303500;
Add 28478521290843838505730746032503434557829255844106279656481322885300548556851544546884299;
Dbl 2955396785897466065876260532487377847802247509699924669877086158364320422668573916223026;
Dbl 3952165256535967604128609107546045380244115461620255579362011770221872053943147252238800;
Dbl 16031493134592607771253330573565305316551065775755872905610728928180217453203200319636225;
Dbl 4759869719902970382156227466973202053040170344404606186093101684661740520319015431734869;
Dbl 40338908492015693750910516850394832215696599903615989474280162759085171087080095168435467;
Dbl 16816064546736348173825418720241537511117524757635099525216112947119026444358465053125832;
Add 3766064039972749695887012358878683425974169872705853365988247490278627988488476008063696;
Dbl 5495503189126017983533254347383609730860886757497320509601823218025222064353983193438749;
Add 28131149953845895167470614721500475004451430932037766405773748281328013682619270454513917;
Dbl 10148401475569273603871059587314599394616089138532643419080981501221861290623157689855902;
Add 32198184224337530760753863163649955620321897163960744411744782844730720430962398142690842;
Dbl 24224417640523685243061314278597802856898398617573949065870701546421375612320523343511102;
Dbl 33953100002270741316529217776554884252316301724242073861390913993480339957631825746254114;
Dbl 16981629135868717960281348251125974687315694017670864994349431422545052529047101380643235;
Dbl 29321525521006140537420024405279043986869720880864175508929914972756803527522289267344124;
Dbl 37714948288641669458420557014116044295712729352124761363723729286250077187613290036099224;
Dbl 558423791848571301388858490669705722291748697468883008472298200438508606409564690165281;
Dbl 9245769457262504810734525267882175732216447478845347348149799311819220482993772379671793;
Dbl 34347395696170784353940949387901237214436469555097288298669032255679029964541068489461810;
Dbl 20886394945008741527706444325046591750840352574630958328361562964457521703527217278649913;
Add 21058610649246703202912689480903488870560601667230322729435437139179639001217437018001499;
Dbl 17071856668789679779354541392947960764101479603684554141160473317235923406465821852972848;
Add 35754951058589829602037199919488703543115330763869754508748493973261360429789402791537066;
Dbl 223716359748145182629454491495731788133274361502556626265415000413011674471931228438433;
Dbl 23657799290587018052280413343779823651881835580220400280768806010563507833432970482190105;
Dbl 37705763885370020471796425330890540762192510623577082812799934509533248295261300087182380;
Add 19180004297512656882304189935718772726878126419604821044273932479043038175231409534976026;
Dbl 30557925926426830340874867293455522421490565350671993977654145909605858020773674370381372;
Add 25434540306497320984704101885048552518326205238748215430236662345387291561117366542709937;
Dbl 4506284257999417698016013071409209888764907445111453658515008917476436681048964554286886;
Add 34910366355229590681957718529722047799947330498571690076754325363075768297306331195899302;
Dbl 15698934232412313286164676663782113785392542302846659748093981480592667877714430563039517;
Add 26480405464509340938631971855940974168278177086874428397012123594748563439793303314410923;
Dbl 32040066479815850236968984768695679224270772390377089175323586989129147301406173673977258;
Dbl 33320973918378230330552278802797434954776264565063654588507576146208909309116434717152699;
Add 40211167500511093299900164095013878823005044780065102662706754694235886532258886095448333;
Dbl 27333200177354628030209917713422798285633470710745701255907432478238505646913095374118321;
Dbl 36763700219611769444125004804207036167482310832221436693617935111627208070751389348502743;
Dbl 38379942931108209744195123994153580494934128271321779526001168354841536578933301943562994;
Dbl 11250926876551756219677518808734802511689413175289009771542244466242912680757147658670101;
Add 19246884561678386768195940723512025325990124488052736734766630961819608560552308630134968;
Dbl 36710221159027697456856639197134974755652665580070364390060592397860619646415229855877971;
Add 35492264022937290272349490792297115702174143648306095329722681162454195962941630374136018;
Dbl 1182095025234986187554673571955115300198305067640573636280346041424667218612044271408;
Dbl 9106607691604927269486604086713023582914243640941673225936828118592141573982266915745983;
Add 27194323339372588225266991570010568552089449806790491831990686684918416029721821478473988;
Dbl 21225217965362725576882818944844072205187372876005195132169683404251859546375824992725336;
Dbl 9225146786249437544574883597444980412297485849379436991660649560816458366982836997696239;
Add 36999566868364662315404379433330735567581490606625218050057714894375313871978560708399276;
Dbl 1551494694733241888328716971574422664304500618615505753143513986621819662287971520492028;
Dbl 17660935657341617859022393712614206316335478411842832395687628020614601149103654629620232;
Add 40939534012104113274013976617565363996807134588890493879310559722583098286874654266456354;
Dbl 38770848212487812365568275357528962278859750920983847066026205834765797974914344443431033;
Add 25648748629288557148551761287758688441575365433563601782703186890226165000048590042191137;
Dbl 18116903102606854023701728679835282307389633353893301676364638565885061614264584630654937;
Add 24631282523966636437941131142070289276215110502884860146855754391813472436434756109829775;
Dbl 27841893740633672060083717308547539699657863530768507537316694914516006739866332232974075;
Add 30393426501435779124987162949410336081378392512489409503310665724853261249478088745149044;
Dbl 21759610267069409730882905232718167897249358768600931191761228917045081468810007641460272;
Add 39859067321343284543766177682317566326261398956154297509992039536836589538983222249336625;
Dbl 8393933293704723412722133015564863573922603349905635880915625379098378342799584326253863;
Add 29691075850205603081323099385425183060004638939398529834575906843345440783719459252050766;
Dbl 34908005761618168437097100187883757519778521621157553144631553986171313861181346802340486;
Add 14029450468528243082969876100888485396302142796829473329728261179609506195124315933659878;
Dbl 20654167324608639035862503052569278147157196656544061879382076500885670260913876661040861;
Add 3951602211384358180819578424685897769189975277565520505036591217893088872177740123577869;
Dbl 37618722148823800670315343749475201785585956613980735017217389177679651793964549772451285;
Add 13043097728852131814735461676737881831198146868315347039567051173150634475781061177767308;
Dbl 3621787100053866730259115250828346114949070784910641783777322189092408685275463493029303;
Add 16857648861586205017175607650320975426453665643978512935975257780423727226615719509154835;
Dbl 3097486735296412061851885416433051438622751623990617621906140052231212786443247463242570;
Add 1722623468651673074216663397880799377216448439618486166740569925946122969756725152706825;
Dbl 26213439926822349883372675032635630402943561609834095817815224541939424286636573631609796;
Add 13774694535365889871520349256382038735959717817054183520746618559904690664994264219895948;
Dbl 17052882187491906675145455830224708546653380319026535422222740238449023945014270370529706;
Add 8952096892499007290815860689809813369971044479585675758569775994568354180880686891824477;
Dbl 41139701592956010491694651300180802528036859418541000902172776741557064635703136628044777;
Add 33848425946720404299864254101924761114329009281076657189382052104577445663629178254817929;
Dbl 25016877819606804772936962687781846694619656420128267092543780664287036196722941085512612;
Add 37871508872371178204041019172371354378111419962519619662463130343125898349272425699187153;
Dbl 23319731834544527598556165379482180718309814709541208860275826667745077695241883785508468;
Add 1699557840495002244148181398464663169924898649386237878335577620021705660732506182732101;
Dbl 6188806064206582491409015699846844436727657210143751148060702449325072131213790131745396;
Dbl 7945604826400246236403709322971675218954203723975272460716729099461565227563963558101940;
Add 21865695716287984738948681512628921511016250136498496350206403419833712819062486538267326;
Dbl 35128427715542547149433798528857865861344191361986233919355375119639861574648959615357414;
Add 11250091917529727674257039136023531394082113744531182695729944528586634973333048588844242;
Dbl 25668924803039170368626857113635494246375982583555579777889221062751104486251225733730671;
Add 15500365788481403220298461014153683514230289123496751041798382094775948638079160962737686;
Dbl 1541425004802529478866485690755225937138266723314330578528123723371764468056617354711010;
Add 399995623307513416528181361207173338092074020880974094909986148488962241426465541404252;
Dbl 33983242144203619504068125656793812764077742160518248901771577055859497596422930290695756;
Add 30763382943395652616457396214310877018209707352675091230470195819095660096289603068549253;
Dbl 17095141771778522334346552137677760180766524924645064874796336411675846165509353035449595;
Dbl 29567884288683944939851683034016300681172183195820102746598612616976483544857009564386210;
Add 18344371133192480109356131891155852945750651505053314442076307123488362982040684648643786;
Dbl 31722739084896314474916162338728147778561768621838954181862876359166831662912463470817932;
Dbl 3411709964367022913926081641800179472788512683827285447247356402312323580579730579990050;
Dbl 31750307072000512559355362216602327811307709665313983790344675731855220035912042641031769;
Dbl 38991623620489092595146042472249847245717716340046329003840027487634298062453849873133366;
Add 41988011500135607361413487568777488202856182361895293430953668151046642731655092377815723;
Dbl 8619667921529779700421758487115607104759749061182570826726319386400594746734191730102391;
Dbl 7553049877622248381918929859126241600341576774099552580222397525182476262642345061015749;
Add 2003671210075444003893421194591750588597361449893349336875856302243252734268848848569560;
Dbl 88058472255290609637119204465403087723472861337975089249788702832870314440517155595359;
Add 11056773109171729735918072498730541492155412381887163015102265554391808072908320401554820;
Dbl 12188993265790836356465299911280507268558556111962628193972053824001941856559489201769924;
Add 37645146549177114026985595828877420690809748843623127253779635658010337876202959571751312;
Dbl 41941092182294091433233681035436088695412656252685908955052477045779240038697233194326303;
Dbl 24613116677323439629086121640374240921929171498222812265194315615414399687076391447554857;
Dbl 12347005585087835542009808787896723123482806727844901011032518616051175944663401782943359;
Dbl 35259697894143077213462029579213562982587965082152909825554788622980678398994413720730997;
Dbl 25649779598966207909259184808814541570811248355065367967128737250803426359984123398458193;
Add 14451382291870799301397238747364232561984874981014586277166253231524440608740530527752891;
Dbl 18373144411824393937393324051037153959344085386088201426675703541762329671390886747816480;
Dbl 10459063661791178119684565849267139108584997425885431658196483336549968845659079647251272;
Dbl 30568749360661902191630390737735915629342353994904899102047848653530564608887251078439133;
Add 39153500296328897577178618675981415443238894194654006447247917124572171959543696368612709;
Dbl 19578574147925283919000557780731287326552051038717649262003878475325891055362856107478666;
Add 18025232911497648637914067935742566280731199162657895731507448761103640794783751505420329;
Dbl 20961455785398510164374381457414253402219670097546024404071011455433862734472253856373368;
Dbl 18298017076352398672398398169563035527165514064748469463405347500176430144986477850484407;
Add 22078711494772315057956978428044769388564845290184652564860534898462821719841145782625718;
Dbl 20620173991780292579832870484622043270746145321308761116060668300116181224460938660188674;
Add 5000907859371491215210257835555359440875627001640213831106532091918668846277534538375018;
Dbl 773465437224719371044910890412939139801586512959008872715767864145048109669344748953256;
Add 35627539182791651098134711096159355848305932343366977707829703137865973672351904533459646;
Dbl 585712412144539722157948621644877414508529903876444380064176485860219515779124585693348;
Add 37398015768474499802357541856675882501019316298836411141186127020441667757633372490112044;
Dbl 18892865183807406995474502451727277639344865087055155083320448683512008557334488883795860;
Add 23836936066830322275882213128807217740492208993319049052610544130941736309699614652421604;
Dbl 8936165587087615736760388966400190832601491467456708576621219158533855967487163778654856;
Add 9882810944473011622569978802725843301337809545000870685820213096269798446450208453980098;
Dbl 31751996031751139565251981619389661191265259877073998059625775642228255620915819088378052;
Dbl 31250468055261890568360197331948454204550116182949520778934318852244759339389471753261296;
Add 42360071677567218220272310919686652773621878851052374729259636035022741439084591463398755;
Dbl 9394667377666754705810839306368224738173257755119495049106464121419590823756439624329684;
Add 5558905404510604806519338479629330532408323030041983284308287168572336259483091277707951;
Dbl 9058611925086936848081615508336380979560981697116192250250873164563088763521516995186710;
Add 12868406855732255548468005361645055588554360313131157450586127596708032674803865647618264;
Dbl 18111556970505984657011914515683740562418934164024972004812113951696660402718654674951806;
Dbl 24084609166412315861506912426674245088815371046908782479917726858990891677126688650613950;
Add 2736267821109831078148955101231716735020795401324197800028232729325839559122887916969119;
Dbl 9723232589141675046423955486165205948803425174798446390622326778716617024939042604494748;
Dbl 2551243307662429909845925273765120219358001859402255762341547696991528019058172784793601;
Add 40110919135823655506878379970186484481154241808784348562694664852120333762187758757748150;
Dbl 40493337262669421442828846587155154173692128139251858558959095577901070705102619994405017;
Add 16013133040945761402438983940837039752972430343634362464660820453739823755505148247802787;
Dbl 2946857832249318041082986478370770462505812660451205677902281718285130993890798801053944;
Dbl 12729493218913412204173237643075054552589000471982810081501599495540644717360761417869313;
Add 19732908752372872199120287173476979315321016632838667288318633254178479664670612441936443;
Dbl 4932038014475964450511924672355921557417059456196431708697363633902944811343084547556850;
Dbl 40285372225777605720245464531919742695994250255733996611703811006888428780908258064809323;
Dbl 7846235910198192262059556327548271969954903195460603698227533299398624466400556489123813;
Add 22141908538037529907765001656076894438158405605199084555165707395645742860042662354661662;
Dbl 40082853077626112755178845719493122835342133943398313996513134801853484175246537344297615;
Add 5811224641890661859627948458001373417269609688262734769076054324543000138669463766878441;
Dbl 31987758362083732309006857704333627157636227693779970200113305431269781362962230527994532;
Dbl 33925532437359488518491624470201028599823890087503567636567509833352046084194370746407625;
Dbl 35491284958218810059354091685642112783956777832676904679236412455656944511843998793477392;
Dbl 22139954087508655020447433278835302690508397752858522515884609799376357829776989745597555;
Dbl 7592714703658690789626897131852323772479138765991505038193679856180911502239531622077757;
Dbl 20372276731327108909120663701548304210613100461486679454616623609563393655147141770860417;
Dbl 6573752986535986141201829011177537496077582601368830118707257518317831222025677435501247;
Dbl 16756306598324717917002442323262835653221272953456735653838208648762969130746737861784663;
Dbl 31555211170638714683260170996922795712616592484630700875672687353212134529052245697780998;
Add 6368846320488988415534781633742179718453421642159964786464680392112199163286474032870355;
Dbl 41165217127465137615207827109152119350702554427392966759328552702296359036385972101195726;
Add 20494036481674527849210591811278342308223189398618999030279814883679011132855839156554086;
Dbl 11463079232399967068799582726767157856043066711495521127071280975256267247119102388153308;
Dbl 19939274282918193600956207069423317765417662048849459345962696197235138049510994489210504;
Add 25956049871772531761150444830555803820170551106689750668651838196851157673897577606503399;
Dbl 28566292358279958754411386271148910577476761114158259594323144277224244937455106504510443;
Add 20280977368238010206000315052669199524613723290603780650606221892046995657215208546543872;
Dbl 33788580765457233152713424561605988791986091068242183556546419444957324644729415850833164;
Add 4584984387802877091078645745876174503690936895876592418738622806589769623817431721178194;
Dbl 6458568863048888391613429868139663872948606159265475795178000557025957012621085231661738;
Dbl 12161851492160153935130530728709618950527680528040884735902017862094098387144110783407244;
Add 11773219497287072660868092567451770651218606151935717060351780638975671778490212035970257;
Dbl 34573112794200242167574636163961358869478728135199078154033115629351136610256255082977188;
Add 32535429283464783472094940332633843864455160967515979416155915309421782777433679957225633;
Dbl 13601634879937784679636448849367589763510145448675154684263304979650916210456417765096559;
Add 39118346154137367412294302168397336931516454157095209127141136356744882250051766023289373;
Dbl 16819155791579652986449508481283223029663907770113832847986616368994289489575821951383091;
Add 32045297308771569872390759929944292509857598165452366607963986021232804887138223515554271;
Dbl 27388815472020466906517948475349123561271230763129881159195206558150284005924865593272406;
Add 19827222843355125000151056040054375812907328782905562210513981144630228930148214678376116;
Dbl 42422399700534733238815188078691051275948097665586416225153907826266750677776066767220634;
Dbl 29657926555776789874273289764502241238983435829401936440258832693924698450557880144240150;
Add 10028646336816315537195251971610750677876748770826136342677241759681395745449156555279340;
Dbl 15840334482910547291133265960806968505399983638342061455818940644206212385169162524870199;
Dbl 36982583637579647369786847884860018952263220763475039100212591576666237701776722954295570;
Dbl 29327658361908543208183017768734162046487215610927311720269526541553853906657474579988860;
Add 41521136972676131821778223909938076590114249073494815297005821029346478507528783308543871;
Dbl 25044266094096925536637692278296150897807190657058618100008058101766695726414391614565270;
Add 1985296346961467241104382749401203142693951183942600598593141238111685567686219830625896;
Dbl 9114342737079980457913951109047254193104944084380310772452334403386017554133046719988332;
Dbl 30385929043089516976485098270853508575318497023428878914506294090658976558958556792496752;
Add 17219522643968912787155987877218575404897574826018519754255920358421045131213605812375134;
Dbl 3604471418605549079673393610908769136106642424382492975048975050449987822215263031721029;
Add 15590490519624670203789841170534985435595437194550004256907852472750124733420780505337432;
Dbl 41638329754818631813511488392612379043034466287134236167944853485304968803300230188428245;
Dbl 8840373632614993634682948650519401914623291648967057332580444791858448810651254886896918;
Add 1501427491541020714760653934124447947796203892406291117027210811941168403247756627030365;
Dbl 42235236514803864074905543111197608430518111660532007338765663488462039692142684080430508;
Dbl 26851128397001053452639825177123768471403237893748713534003556687691665797720854037360300;
Add 9758454724278584264427926136879083642880851200043976124776856045224769582215220117284642;
Dbl 33423034531985013926006294296252501251199676470320565998397719780618346106849230646355966;
Dbl 27325693107978413411380232168985674148089147301510893969652976171266680941584450507249891;
Dbl 677242907317574487747802873553619329469185686508572963607933261477919252576588218127300;
Add 30403619276665112867223132465587268914832616583984953282380480450757106040741447362851855;
Dbl 6153634359286339173628851274670148045697254537116550682896947267539562118629138262219534;
Dbl 34137679184160874588114308749338045153293308226028698201427277202176472869828514604624439;
Dbl 38069007810767470063814055003672173781336435512699822184047626428409295818815833765458619;
Dbl 35407480548717213049032088275139125763281910206146471646947879046381844468861004636435065;
Add 35658750941815439461278063985700295604030989548349765808045761816133975194358730367538179;
Dbl 32466367873086589159194655246902384629813812555359953624039457124625211368917462244872512;
Dbl 41764184014224188861548717674051858278725233257120996014137956148815518343904451000033337;
Dbl 20642274518238448449285757213090794348093219999359914234766840187259752027333268874804927;
Dbl 29507035301500981303489143805154174324591470559466477037614835775805447239143299081687631;
Dbl 24313554743523323354040248945085779026510549451931361702765823217781473988858728484529117;
Add 36600779312345309114481199054586280328521481267480452887459281797034604485530907390270960;
Dbl 31575757613342238548277381425457322376238669250046197915977475950388155718381965300901814;
Dbl 40504581811709475225903988425092267707296530757910376746292179926434295006637601569459199;
Dbl 24228746912780099911334791002654205008463118716568086539362228814462655827787624331963966;
Dbl 20473897469571074666387747123362860424597773064920924665656131107865020031423267042908494;
Dbl 35073365093306673495251601463673758904463015450211972285694492988364263732271146551917168;
Dbl 34707409258053205951754439578993197283905461890988620003584267665338756859650493233455122;
Dbl 21787249418638155980791334866872443729775158483781001635871791693685758681937620363232638;
Add 39623852428522357135239060811102033671617993374255417326446817078966250707686943214981957;
Dbl 32611705245732443089559967157327149190061316990095009320265021376285087304114567411447771;
Dbl 29368677247666503493241137356439560494846395998204371175199343496116912370756508278743734;
Dbl 20994616807689181673868660400117576323868918058898278124068889592113952536261870573174474;
Add 18668284241327400554043275847252052709998939463883212767340069400012080667531874488944186;
Dbl 10092173359732021560274384129946088337467954757532448893255727626125900755944995264869603;
Dbl 1446568119543739646586775399813938353667999526216888670430222203192167830186562983965213;
Add 11746333663023952828453182968861022914586382079309383589047299323754311559666833237285347;
Dbl 22053142411279483016039649847603644613916190584388752525240513422031458437062315935888667;
Dbl 41076210719082683520119242118472585647041093828422357034323118882283220513437993044917589;
Add 39305843152575842692778086668719845051486063110544120870912035595820697650158414067543241;
Dbl 3148468282960181833355495079291670340140017887251651995541019219468284720397006059721072;
Dbl 25432710199256579252441699481026882753868436421201573580857757797969894490178721194524919;
Dbl 12513877739833872162967905686318367738688293661110796896030566969250876996771446579606166;
Dbl 40508009131834266982366138762519923026367170914761709171121407764379465890130149727522098;
Dbl 13114593834321139438398676139827792389201586600487002873844907069352340709168471569080164;
Add 1344084970764833968816229767469604636159340840188371050425623053566811232619697594962922;
Dbl 27299716158766673412881399178959839935937075014669812531493793841686843473457878148688596;
Dbl 9873899260649488544633775906258038425075554292308008266435839338714248018780036236897931;
Dbl 27044812521901202162402293383148060240851867935270400427634367018898005220553080896752425;
Dbl 11212648235746460393136824872539904323897276861703577257214763415444860266585328648974912;
Dbl 42625626716327625057276588397525703452380393070783094470495543058909784025968672448497371;
Dbl 38268471724025967049535608214235386576467752872887390193231002295958749915429777521899557;
Dbl 8368636741181185086940828890489964766875681214836442327148866479929135673112373942893786;
Dbl 7021202792440949230900949665304759067462743681551022089772039450740460157332838947680101;
Dbl 29997463722522181612740455866345647978346394127656121623378723526077327386985072910018845;
Add 1776769906328646499407686060276215358932320405533931792653740702170469824873316067529780;
Dbl 22423311862628260693281249549699966909473550578052475391285658162502025719892824088826823;
Dbl 37997475147318659043732163506536874037375504778920631194552179499490006879188054402768040;
Add 23625864696205904410253992824177516535686087964194623402800293505505281660597874693764788;
Dbl 4892476047409988686240900017190637374341957749938856884251352114505877620193535808616851;
Add 33449777132692480617010629065400182311827396230637949439736836570167404586330540253747018;
Dbl 15909358026969332115152553398056479439989885329653467790824749317487656400607441258195235;
Add 6853078928347060415943378646037543091901312511872142405684472703004556165503669513329203;
Dbl 512624122751315590041876740231886894339865725930728245782788711326449845768226307166984;
Add 39382306950476214134879213827651754560600815829027848486490951198762432314969575835311822;
Dbl 22991358372924831286017531249608400506989988383063639962355853349823139701058990742155132;
Add 33075681058068023323248592913585658460531691044241629108316524715477035292736567572672025;
Dbl 33180152943339229294525698313511434569953724171163947801650610796812355536785431726108166;
Add 18588923311846894467015473795823635553454240581789116943680145838278449687935928255744696;
Dbl 41020946260816143527689881350271154808433605225792265237002145723350396813245637103547866;
Add 19383875973608912114699621649090360092712997236829932727396901099529104785591582108293563;
Dbl 31730897146409822009485560049125949063921115417698821650282358279991911272317198406623536;
Add 37989409465883714890050879399982897597265523497471599213346508538718905964267188308167438;
Dbl 13790220667146663266788676820250670185344171699205672172389449297291919359484134815264727;
Dbl 40528374291298699535874463880661450953827160760493854555475592305965391295113612372031340;
Add 10961575451486015466189838895300726842252379921413251209318939668159862885605816089688865;
Dbl 16529307846476949847283376270680944380863448342872776473040668814923182260770437820319750;
Dbl 7262544171678280742145549789522701602395705614547811031130346353627952091803048620319955;
Add 6672419307682163513603406694031348975861588012589114217281144337532086456192568545999702;
Dbl 34879648803274745903508645765252107461051031411359864605422224175724518263690124966995110;
Dbl 33901300885317555609760000014031671585073197728758638874292838877157368353697418174117733;
Dbl 6973641484807694939320812701224790548034636313058211227870475500268887751128111327536811;
Add 41314942431535530652859781788264547223450658325642507051950986632976785424067959937838676;
Dbl 6404689367817214591243771232209862696208335371589471018801368872761053666848710143491824;
Add 12451583603043184977337443294138979403709346510985905055341500421033806585252618630457240;
Dbl 30040641119430180314191924605549822078267208788257931364258105952817887935340242242703022;
Add 8613233183402569513540922839151708977452275481725963936154734933110287661923972935133923;
Dbl 15011377462555182753201961987718489413677009987073249601833065435843140494791328413937219;
Dbl 19780725152147612968835464595938504926502479594183803869590276089642216869107436184980738;
Dbl 9601414758191391002669218097163160474701574674332204271812855172793054188914926743871865;
Dbl 22384560325824987929838817565175266763120593994436901437875400704364999948169411329469677;
Add 25122831266774617179384626496401356222255874376696809287476565438019835285790903444138376;
Dbl 16291418218090396406882705127170662497628623778236429603504871013080386555587530109687602;
Dbl 21784978470106725629298407763360706604358875229764509845098531162213215927706632713358444;
Dbl 39853339536719275275356200132875558129066078923187265054089478419684806202059415417065912;
Dbl 19825224607456768132759096067344608632423793226595420102093996049824706053864597336259065;
Dbl 42078766868705317972197767786713427220924463195452186429480774769096938624953176582405398;
Dbl 42096656886961932243681828353727570599118121168209315302123409786772376063555164670172357;
Add 30587814410534526882825502174690636864719018933680229702532489059895471689836215321125031;
Dbl 12515366333769717719395872549579860578833916574522413761344631003540637892912232676983943;
Add 10924862885220251630652380911033537179343791312366758580914165936050633342344843433453773;
Dbl 32193340478179290645036490011727348678113231177559181175161055388591261318978427800618920;
Add 25950740615557146463979080413884689178177429544313787947576336566694255459535661802260120;
Dbl 2546793305632521434229331738041173873178240050762544716016445379463416967279247897546631;
Add 42389542926259320444090776169370895301385435480910477877687104304878783310603344359814276;
Dbl 2657127919038829068014653995527032449712937489055545203786938382356280070345545520144478;
Dbl 31968390070258588317449863410114553871655685196376917347540795473274331842215487061029178;
Add 24944514801129577116463595310842956694367889153665354612121721539604259664889150259596039;
Dbl 399861515901123172116311175877790418341854722929610504975631784368157035884787075767980;
Add 10524503418038270123358973992085732513739771205246836657449321951795395423249363976736458;
Dbl 13662729976907275084222149596108542835374753600162957452086184741329507736914760555114173;
Dbl 34417962750087205844497819918119331419528056546790490265512236625345726482782221168810055;
Dbl 31221624148375923855927786183709348821513605770811322599544494491148953021040710057670857;
Dbl 28524810877372334407518222327335999347763316135601011226821321417690719958601296552242291;
Dbl 26852781207886619281369967993727279324956280022460517147081538339077356256650485020294785;
Add 4689929489707632757127477250347130257552546306296653118046147095174227598809745969355883;
Dbl 31252014361427095882859741244654387586280457102256925931214148004085556778433678167096622;
Add 33861488954773768405090089001010662182220878034558018947014833900806602318846739123761136;
Dbl 16485309511245385663371286205807368452628808622382738543733324133590439579729736984395983;
Dbl 41652165268451184279486739636178392704319888049349229027739846797787270255176540776144903;
Add 15408931873340920331337164894089262706763192887669271303281522603717044834863663205885347;
Dbl 24881926548327749052326929725884783080584787712546044389823132909510433033376547063257138;
Add 23016427235595325212412307866915498344234166543537158053508825427026330147713259416841908;
Dbl 18118629985338242188655634545711469983825885070383948872338921083724316308700453231215370;
Dbl 11037610084810929006295370048681373306362361464100548248930961053545650054615422420631731;
Add 40195024917212196994135438085484251396673294558859699961275331079365072563482421013904791;
Dbl 7031982225680354580663865222626474295191183950511070634447144922699455160955289411093040;
Add 17220416472282314117803916551096177361691760750895318278673395090638484452793932096127897;
Dbl 31828183929405311607341216840315198608991895970584517090723384564806377095628439237031698;
Dbl 33405871188460530130847759620584049882767718619067756936302999788828598462495266243974758;
Add 39493221863689050768469740052639780660126396807759593343288280192789777499131950481656751;
Dbl 32089399811882721758485946263805252390474514305001177198597676703998967975009297763654747;
Dbl 5803881363830910674244271776841799827911011095372356449122434492799018928852602507223975;
Dbl 19002539257532793874223453720074069315135373373197180586589180610234842109271429014602424;
Add 27469985590951787277346171092711519337386760992647895057550675217737049761783651389886623;
Dbl 41326650552882382089411770382024018039060875768949789838852803242255124425911715626478817;
Add 19811711478405942231592286375697229525687146093652415121214837822871717102274727926964108;
Dbl 22934844925451036329766955119154863318897727476086060176999711485387378067292562261571034]%bigZ.
Lemma checked_prime_295_4032df8dbb : check_curve 42814186968763574198237375213666058406531865312757709370423981517044358132023184068677051%bigZ 8149121592705859850652578736560339908671721545440979180840517233890459237913847745397676%bigZ 12124340094403044549332173191015277603286374695251450580668572172623819224036114828856344%bigZ 578419086610008344998099415751671614273730959598205557839079147753378269364414030106638%bigZ 37037691413608282502349833704552026211087168538472373165472402031051978493715681922549137%bigZ 15574661666809189983288085508532316373491927010039470924438158304825559016354610775639289%bigZ 6493735988968149140157818886779659692614783835992685382164595798456167847 steps_prime_295_4032df8dbb 8412854446209859776558979683874547109393813379062194864818882056040387639315807349902759%bigZ = true.
Proof. vm_cast_no_check (eq_refl true). Qed.
Lemma prime_295_4032df8dbb : prime 42814186968763574198237375213666058406531865312757709370423981517044358132023184068677051.
Proof.
  assert (E : zv 42814186968763574198237375213666058406531865312757709370423981517044358132023184068677051%bigZ = 42814186968763574198237375213666058406531865312757709370423981517044358132023184068677051) by (vm_cast_no_check (eq_refl 42814186968763574198237375213666058406531865312757709370423981517044358132023184068677051)). rewrite <- E.
  apply (prime_by_order _ _ _ _ _ _ _ _ _ checked_prime_295_4032df8dbb); rewrite ?E; [reflexivity | reflexivity | exact prime_242_3883d86da7 | reflexivity | reflexivity].
Qed.

Definition steps_prime_321_c7227d1c3 : list step := [
Dbl 2475467174759114584147291705796270104540472028175822957725868578769858809862289573066525099505103;
Dbl 885966276672255652343271748066903419020665009826257469565231719161505158807881491990264558956568;
Add 2801012442746715398164090054855644554365435398385567594986490596434190641449755296460611292398701;
Dbl 497059511591060206074935613390391351642418866532736676172423968520017803196075257805512161138787;
Dbl 23269693988531408384205084846779951660744590093786838903508598744445853830248608963908057504249;
Add 3752709249406608712508975149944291534807898262854184137719716709899221196934847154675604487006343;
Dbl 2557560209378006811154568645583587580113101130135197129632536308409763374963999350437794523810616;
Add 2697050585685498867802770173448486825037139091381908831653295939394011554600429743106945445709836;
Dbl 4091436565361852055801589817404810944060715956483594217063030115253237205727717855056964038868251;
Dbl 2995135498388288717402223909742908552142868021950316012547084699372201511232027473710419508468388;
Dbl 1913621999036812526610237740472046212341549226763037874684613576732448296771863292065330432126683;
Dbl 2714523447768934874014184116480270107752153023809391038971255382546759681151407190225892422666706;
Dbl 2112732415628773801169759482484385579778101743957766923935389372453666024789182815289576555194754;
Add 3964717897375993489490372384401921351616064555718191631124707284038336210809864303809337601080192;
Dbl 3507971606291492800556450898242958729090712599105572927471377098926330412660022723477192356229661;
Dbl 1619011422469334760070482889382449162220138580315446904480975140836757516009409201286204049564058;
Add 714331874966471009602752151006887937672363225950867131633296854341686641464080868182019629823921;
Dbl 2724420193306728367254439384280072487794393190312446563810398557326457011363287625045427951392591;
Add 1129544379670798849919397951127213694864195337347225690435844120075711572707645723932013105086706;
Dbl 4173995658427279381892714721276061194048383381406835224800808362142513360753534348069502513576417;
Dbl 3508704590076073110171315043942680036424637459183195146664178483538389478935998119768448200955080;
Add 4240151573175193211405772774190985485145001901279588951120015696730442134773525728373673782144867;
Dbl 2775178667483812348528141024938342471853733344662915796246280963685410685274380567879056222580242;
Add 3410552522060325483641499323120808964090908120291007422930670625962384708206094664672066536223774;
Dbl 1050497650318321328949066479580470345025873874252673921613897146128742344677402933714531536433593;
Dbl 2439716571234485580296795763503743503154926691232402073118050631706610054216363424439815301054309;
Add 2748869178273816139545555989602399000395500299760119726079860458389723195698465237766617385103429;
Dbl 1173426589119509988363502669844899261186952935525295942228290683797596226765334291913507247431123;
Add 3537006079213239771961624832842467587335257355465899928913288285551890959399554198065204478782336;
Dbl 2519310788393806911440976346914016794012452906867726706880979769013459781478573125387957345221045;
Dbl 800511080433825815825947855754457470588859329640992543027334769320299696455401846952880981840678;
Dbl 1766193722043685558766330110427202903501722082980597232296573553390092086335574293788823163831537;
Add 43444841565305948514390215301849404504636179634008727716708033172115813698607909306355673556401;
Dbl 2706494265290007952680481472608362850785889941824410515420380722913230763389447413131742454034847;
Dbl 646616026852252864943024444698134165042875089371568096477686243008561796895868714291116162786388;
Add 3126200261693427547120342704130710512829101643931410919698806431977178132472372915820444939906031;
Dbl 1106593669543366414213515565642588061442250503166128113070695929372019869918025161595479587133815;
Add 3782999606237925376868933838068327934237338821193956525999761324019154254249764911705135177201999;
Dbl 4044076831126438899178833211061432075660607064816168001746887925079558396863633990772603673639257;
Dbl 3773665971934918767825354081788724596109269449916622574609117827001763920097355366551764226492593;
Add 1265012815906448722043394897086086914296057572115641990855951863210879635378353452819940846870602;
Dbl 2112422085309793337240748920032196710891917645702692133632069513228048089738242253755610666084586;
Add 1769420445566133045049539892197426576242693721683310081266818827090281942490487101988333345642462;
Dbl 1052558969370627300788282738326957382904214600086526557652241778869197339328046549949009694118623;
Dbl 138287329567622667246760572312963353573209122032430577932545235852904960689477922556783091968937;
Dbl 917005260948676608201754912274525143208460008745630390744655372113098201287435029101203628215549;
Dbl 1218884851564380506402911765862748087211175625548890294030197446870203385584372194605782872202189;
Dbl 2343178707987201139500884738987467316295764721047601680603052227141755041016205852907071409509573;
Add 2512963614740892726110823610174217898457639071778435819698539889423660546896962269979232398397023;
Dbl 4060375321026005649026994523567592530720097634897340461377607932952235437878617761960434804060063;
Dbl 1575120416016923246373248963723766911536817840728955043721559183214808756730268555953451661137851;
Add 2594656545126469933122336560112196306821101798568098783259763866955914505731928254320802044192997;
Dbl 889007789897084692717384827640208698301351060043545892655480844629025630513351608347836400234554;
Dbl 2625721441390077545401431432321206015067232119295817091744577794713520086442912335288133182716158;
Add 3151560790282787305455935083688319326731222309299883959634480050712299528269197202182825775072041;
Dbl 1998179755801344426663318569624808306902780480413572376346193210608656063124118925889132109453829;
Add 2768021388757135779159370004102948393237950687682752523886793857721119680051354447005661815534483;
Dbl 1416565574049226927581307312308109265639625239439266620177319848235501377231316807279781444483977;
Add 100474948947674182547181207379335461530279295633313686913600080442407088651162531149686826574432;
Dbl 376860642660467204178515646177410485112862346360392501498513715440425816169905091104477137778577;
Dbl 2909545730325225095573623371041535621881942657970718521442322251392814927203801154150764252362269;
Dbl 3816298494573674442242060562198229567619206471490045711729290084228959346686640578409592585068916;
Add 4000878552504686238492804139296223756094638161602438018897862339036312312330079173474933023044196;
Dbl 62541007728387221017767271560836099508411790721789653862255348029382286970823107568110343632392;
Dbl 2346273741019405081590856709754325451031523426519160949502359030340699015261755677139025316035694;
Dbl 2637211297884101576747526817136435300353453936552998896229744587142377833453620762206661804212888;
Add 2503756427807736527485767148973368085134675497563427633030611537084057040700250134119566483629424;
Dbl 2787483268816425461437444348110587124313734243710473830582103889853925288084885901866388452850432;
Dbl 456627412248752312003821860532526684813098755908484344131630593707359297174851604638191176330767;
Dbl 3227542083236801851027493695025866801086228694183366993105746168334752926525177440713937958578259;
Dbl 3786932415748660928429750045967845662272881673808753962455362955391627953725503050692030730561120;
Dbl 1465002044992573540267917536090189844616320708080362973180416741435150638275765314173543166627786;
Dbl 2795554397282505755951942842750910778680227374474923244413786486777356248155270917123963147598413;
Dbl 1113926471382689835829197937192318467024071043368728534286839274901732748519164413331863407656301;
Dbl 1111324711007072972283386816152742582184866377094774368975182166309942243465217566921543654142101;
Dbl 2618031134503697165544825176401277977642398749870582860878184896104146571899805500933315920029960;
Dbl 3786942521093094438340576468714389821715438796626660313575109449967564778171682427127158822446044;
Dbl 426321306246785923363793483773659859353416180686707306365284130144437265510279515871546537132407;
Add 2685671085298945305719857062830233081941231904582873061798050841616849252490162175829820304962129;
Dbl 2857492478529661127165963274211215318207660313545018024808827284159748187954711106649401763547398;
Dbl 2163543436283588134493956277598794831813295675218846889186321325879962912610671891970754885672446;
Dbl 1252716918624488751728925379459523500184590856250476448048008552033497909806413996361838104541909;
Dbl 2385607822330591363295822381313313492200113289929073114852030730280022044058709529689573057011668;
Add 4168636649931140002902777974014396972267321380823631853073819390999126102571576329105160465560011;
Dbl 138706445072866978074987128378276549697730638307882490261856813159648536649687768520612987648845;
Dbl 171396924330169849183450886980902599512454744066421407860285296543345149773633991508794842302136;
Dbl 3421815527763599540999561797582696246892475880399978923302104536226299886555113767172791736724441;
Dbl 3583439976544386038941994335381834767861824611601845088375502653206501317712117611684541530495796;
Add 827304889898530423200648251771641125853347820829790986425616076488906629014607525242804817039490;
Dbl 2026721267779461715078676144199940159699784654344901411620075340642344951141196034578439096384405;
Dbl 272995778318659802856813147137910680707931497852892272892160162038338579991732274648306019743744;
Dbl 1129414239403155575212393022760707718891443191364119395168484799664453080952433846514526543777630;
Dbl 808864711115651279944324159349004490711563397230697154271546982357940925670579383203318052256992;
Add 1966782222002056643556032613242096823268210979626832586388084134469583635375263248953772441151294;
Dbl 3986466245905749456297856266573731782051096874376623764964307263078879043951723204225252246131370;
Add 3474922951187271933346474789831145356603301665335775055609280878696090344565796453671025202202114;
Dbl 2178676511023214835718503719954556229160054866053097665440758101173050907467426035387561433095854;
Add 2041707747194144776582606100437595121176328538618784357871059146555851863026218999056545338564319;
Dbl 2566978861365930370245249901062848675626766100029115169861946574648097503309849825305447561284857;
Dbl 1432728696203034288555633336249520799932329047735595614470808816594376696895742621641535026705246;
Add 2149254750691785751687279579310046952572008089517853819851563085803233996135328501465311822449550;
Dbl 4002336291506849971809633582679544178892880345577128970375249903756133299840241353152645596512707;
Dbl 913726152106016647575436891414039453545080308803307949244105965354563445476451049457868790830350;
Dbl 1879240797481318569225820712977949771920269251685343625418649600354036402072038156852781443327142;
Add 2556430466364761182664571478840839759699168570067688690767346951051065359514148468217373378481280;
Dbl 2001619858470960975724389086561457245315727614448927498700909257097997341478785158997165836851678;
Dbl 2129628905566535228353234738263769022707144741017639060122103714306072991887957181412107539740458;
Dbl 4159614218344115219399351147008673058119014790785893868772583592460093628106158869749010158348556;
Dbl 3412015797001178741081995366455518186683831439796991878650223151752125871882118116640067568817882;
Add 133320605045291617547875870849284275333884907660558282859621356439019752736781538013086079821711;
Dbl 2189637738349714927600050675372594229599110241457695489803283212823513018069688823990622625834969;
Add 1267816056979070928509767191831614429479072000057364665613866935970936715476826446515435085859871;
Dbl 4096345449649526841986749262080944573427504029746469318477445809490416944753941471527283274516324;
Dbl 2411166334169581054488715682085762421753033295205122098946602555612788183328652868990822474334409;
Add 641326535605914315111467242275461957255410984045071408477978356200813859061903196046953870829593;
Dbl 296486051912263095272695519116350665104248990946742556289067229160598528836194944442643898694240;
Dbl 1626728933094385123761993478818202031282440120930978999458936926682646170461258510102291776454336;
Add 267058968477356213171736455805092781471220402684995941266108313782065376568172146582917932616060;
Dbl 1450125571853737283179097681631298385975911810744772760885492559443716686889335298392603142246190;
Dbl 420248578497198046838811476512264463487201834995637172260893695954508080242545669374342686499819;
Dbl 2947926275698522644281061173057510432613362071882891494074273016796392088838040939608376013571952;
Add 1492896963513898976267560453871200558065557149612972974241235684981841200511759150161170473114291;
Dbl 957007067626226110499467283453772919414962120594384426925500517559535090372784673645580315914652;
Dbl 1617392101182855313295923275283459301153467901198316211901574640838933628153287569368265559232759;
Add 1224172595294815027554226189648211335192968441486063076262744098062974054148336528464413487063036;
Dbl 3316896527359702275273782770075885360739715486015162891529396549570054759294923649244271519515221;
Dbl 2175861193195489033123255802576531809412819310290040818863322652893454257516260968650186719041753;
Add 810733509408638814563867849960588904902123621859081990901266676159451783434105385480435230583698;
Dbl 4030220918420858487707582819816082257155467370429377760932317168265109890701930361692692725853183;
Add 1629364809482348139960360996882875188995943044164666684218949545166873978782376672840974334988130;
Dbl 2763843752528052758564270365536397015172361894760572398022662951233825549553936349556377764330351;
Dbl 2144346482604893986041668076238638330053705810489444773041121185726520154329703308900702253741446;
Dbl 2378254756329130620241969810847667394907348765629535837228946259930590637102599308247408847820418;
Add 2726986031278695409186087855981282250927187959811785097759830423889923374585272876452835671677722;
Dbl 228416222628946074553469550444910961370871803341444991173411731854056472957248076919189492453735;
Dbl 3557906194875744330317955060680609722513127146931137756489597559841985765470107478468636687495087;
Dbl 2123835440899604174290067333694281648969501755941407574819134757990573398616354083720153524290596;
Dbl 1864305640267474436038790646925314633665949800748710445844909892994196662359559930568967945111753;
Add 2551496201891523258737758642326518138173156460922668987578716632937014337560870533754537202637424;
Dbl 1255769570181954304089842727760693136467136090186415572532830135900678779186688989619394122116799;
Add 2124637053009009689574333215771246522506374895722913707936920640637635624229945210462387653423008;
Dbl 1325927455276941116849873439047753383220123922176599916857827696199632506151128526705042285698755;
Dbl 989926278235438944025712357483278229046635187306117013207921844417888521720720297519698817605168;
Add 4021539678606786715376048660695789482661177591955790270268397356567802600416179893673678426400818;
Dbl 194811942823314389987507173791576850796335285040672814430189127063374111862913214477555709646998;
Add 1990114753411407707480399970063698101063824628297612095166653080049030886317407114525629744911055;
Dbl 929332839536529475199600560162032908662285560814761810263515111632901598378122936328463942020403;
Dbl 2124876575934192173764033905406951118838293706887829446479002221518419281386696824062453761096291;
Add 3540212023016326622592432747719698210349450999822849070922513768524500315404281302990713011669527;
Dbl 1923671869882679455506883648151560120134352328978160032954273764423818300122147066349515791193116;
Add 3929258564157809718536146896967727356765891268712333666895764569122954955046546408146558440976965;
Dbl 2401202987939759983834039574397392188207164380611654416984468951013114365067796585256027207634790;
Add 2020935029515419559151734256379667623749166191003776729384522005921415576161702668402539013234735;
Dbl 3262224794566035838585899172891708190343220433520280020472094715191045732360146116635976164871791;
Add 2520651305444231591479681843021405418471578319012614203916727535976269935765535014020653324031113;
Dbl 2290622775646012505198551533947552007532667547129738061500718458450970909380521484154305355406543;
Dbl 2496868700613480157762138105310939731843308859283810998545295140664771538119341776031165410679567;
Dbl 2388287900454600897067119493961173439182403894254591982669408043124653525258251805992302226760925;
Dbl 1828268279578174814485630926480971540975660367489211047603291416215145883844419974460524402040747;
Add 4062218706425973411331321386548111943081620099782343040277454786666793087218606334957281934322746;
Dbl 2561501230502991227178740954348407192024935132830437536898144751058013718738160685148838500915144;
Add 523853932935458940450591645023294437299551404803924829380342152249584923798008649797970367356959;
Dbl 3992134835568855094548026312250593712633884085713880652289310833127902901477030999942747952976368;
Dbl 2064771775245445637877434622588344493746844563828476871527326134882254190303305483223545493353545;
Dbl 3513189470673906072744797921722274773571799247941254715517357439309686499052993072336150330658907;
Add 776715800886533593247418785809340249740807393203537779439521649198463766787226622971375336005016;
Dbl 3509330221352189083548764161451551122632223510222681422908194139575572748759300178775865061450921;
Add 2969743964607637094294525106185420265291549177628384365742580383602872372379757357834996577064673;
Dbl 1689894963557964289291501533271074732445998101548533161387094608177156454604088150639987330194659;
Dbl 3637246776818029767706743798366560559691640873831549308962866201020962145683985947394526257112739;
Add 1832167235568528002616318508162226671250199372619837745608881650942290670820313138421255882890377;
Dbl 768892119056631580817210529040199234936873651982961228380594322278349699809310725402762647574919;
Add 860448628596014544094679543917569461588960877941098853060229783464873472869227298435484709375327;
Dbl 1091360097182541611648851477457518793505549185371715412948119977306768729629009949782800389965541;
Dbl 4213069964337125376552624391458451802544261463195897499422556628243582761670939939144468030379927;
Add 3845261342088350721867910357000655094538277431915751698591273746654933764049443750397777093730266;
Dbl 2313613532435818158615466056960148260227523555384771303448017716726082808642883550629224608420136;
Dbl 3280800443283232449118528998290518154130387016528575944435183527783475063524437813278420896769754;
Add 3948048648923220757656236893683710311754865820911318110427285286648187693189058212689670412139455;
Dbl 114501725318492906804403716427433408114152655068311616743582874026729330546512337919583258193361;
Dbl 3017592416612673352935727067502375178148726828295442657491928741904011233812905539072727918062445;
Add 1766664921047642148170122907158960110150915416450403155468214754960320795178283385703225533578869;
Dbl 1518430271910411965268214997181519727769094033386418827415902797971775678484248447778521565728649;
Dbl 777385929579529858999995206546230010222565600248325599018325468406687149874382014524680863389699;
Dbl 3217902106677449885921060626883630579775179231557969486482268429916213197767532787251731953744742;
Dbl 3360674256904371439032540719212005929228389033664126633146088594054911088524625882520427158467546;
Dbl 1437778923960439732210043187598258816153087168080057078067953695968050974163897646846336777827772;
Add 2006841188173755390743203775083720623680074227859216818140461553879216483755076991020401554698754;
Dbl 3785745725582862345416875557610864539138396272996725225719065507804749158658519978706090943746186;
Dbl 4126064456894371488017986869598639282088556924253806145921454656999038674623710250179262256055788;
Dbl 3549460967898591309743620045067937351351541016507117129530667541563122129596264348217272542795661;
Dbl 1003877614720254790922505924130554136962955726778939247425497849692915012527267820835132953496445;
Dbl 989357868655136510885220079365759672069348615374936166802383261262317367479484803305337339658022;
Dbl 3768154633798723117733988432421197937361448583892214832631033264876953415233944367666970795909737;
Dbl 1220650203471485495124735155655242179381704237884738901340012412323793643773936809106916588208506;
Add 1444599935141497749358619075114976471598603646758320804006566837871527907935619305564169061968974;
Dbl 4010263619399539655464305557711831865237191040597510395537616500722144718040126526167452234090269;
Dbl 1646737378043965766437176724310161050411988991954455481247529879473936090050426166836521104172344;
Add 1225305907505678704975734232107085016082705803542362678747076418462046346768973329156475805050646;
Dbl 3257151594763290732004949398088536699199002063572390436373664098951299447446792746524735631460450;
Add 573509298531873011990135351073851401252809061992894542682407673619862262461629921128491846945367;
Dbl 237129292988097737842088956036269825360782318889376173669730290560764578830378315554926394009081;
Dbl 2696971945654096917246572657829185769839628564928004916105423035236541942973742812823536818961561;
Add 3777895763095445034706702379510191983963674219589431798938021900569449142221999768155926198790426;
Dbl 3274995342391305134464989241119577815009829465633417619337783331996528447180689709793815985756714;
Dbl 182186671995063602131594380697191915170973499358869715475447189416312201982484730524397213883251;
Add 2008528047755042458607775762328768784005986240182253581745449715958966844159457814480861778902780;
Dbl 3164360125752795810820661820153738528114454504856787895855096218020617554743499552631037319341512;
Add 552708839001750635145408477236703440061752671731770469571188004554102034325111252088323005421392;
Dbl 1084713571855205113473228202328845114736230748901750454423365156600502347584562579692396167296487;
Add 713020680180901622854165402105049444164914090064529399771883832185429380518003451903428863064000;
Dbl 538456767894421033923402446355644414291749551760993279453950955717003867455756523866546895315546;
Add 2358034970494981596369929947076948166599221059518501775797697795917642665996659700861076125439912;
Dbl 3884436635510770687620848376132193443940938840556690278972042513179802097591730632436296504110431;
Dbl 129045823698349848091608048751234811712194303753567479825235286243996808790600768726859438736519;
Dbl 1977287939788564832656538127615449647580424529229525346388404415379589700102317833557268543239210;
Dbl 576181202817589686277752058427039630043137070112336654452844251457229972737262550723880095568593;
Add 3266946037904650321361592032967154065033650638040654410608781409638843215063691794882511219073996;
Dbl 2758965041633126112974329315454914404539549962497812439710854753914129174206940419754668287255701;
Dbl 1657633854848906533699362304561736700491685310708611420160637835046606622249712710037189402508470;
Add 2714577170128555730076180973664032445346389036762809464593570319718217239099217563711366481136645;
Dbl 542501481383974806457029448756982082288916767780117396331900972522511716225449560526625982548903;
Add 3538427131680737508724397228337854770799031303807350187826045548946419951597632919559709867740377;
Dbl 1506032732961347858367721129417188303042655943898262348640253438157045655910339602229150730178347;
Dbl 3976551735050628407881173463101898404113523664325811091985260896010685798418894297254144628717644;
Add 1020082568066209490298870244406015124495334642051442469662163760101885851191879687802220278300395;
Dbl 1049189045245128716804426509086425312647206538768424761419826506676628126223916982818862686465316;
Dbl 1004140216692870135110256199086222834455636709324598250466416319830955659954367791846839153766730;
Dbl 2996567068265555226109622484029530980822268405835506393691080835677388698288019233744573091114509;
Add 1691144904753493684313864441135908653911275046251084892038151395673906717191408354776733496168313;
Dbl 2083661295159020906263319127706014666765696470019734539376694620811441061126521410256471038889228;
Dbl 2942127921262052315734729409225518551445882919205830734659104812842854527740176097367767544039374;
Add 2840660814746341806521179174010428069087610707945158044461509533330515700438711446113088291233211;
Dbl 3073961405462508846334163972258115225473680615357478377849808164738487483147025616385499989985125;
Add 114118190224796892282455167535302710742622707916247455594910854742586778620085085167655925636228;
Dbl 2425643144882235761999071471782722254047488979937886736977141725402703979825777713321794237980345;
Dbl 2985980431912876082977776625829723411834719112320643497030641664006144331636315807472810050835706;
Add 1395979058588592651201914578651743302611225606499907318832434117467703355910599988386948383601401;
Dbl 3287905067401638991922742547937238338884988048588714236267103986261944554742052029011902358678868;
Dbl 2163910957814451815434272038269812206891697051881139027356672671336887435870779286365167787622909;
Dbl 1881163344944279076804029955491739435102031921787973347263320188381912018911063817974853540973276;
Add 1371537775062730295129038477527264920489673804552217288032219429423340773650412371115508490469746;
Dbl 229286944678993685908286447089605112774715976344036317402780994396746553504248149767977858604375;
Dbl 3810418584413673724943557976240860034924086230915295345840439166889102701601441874517714645297280;
Add 3859254186666305232025616890002927072376690206075184359887740388554872072970343915521553464324047;
Dbl 182383754349455887250229364568568071575900977784117002437876049716620197474073862440705009018212;
Dbl 1478785255787183981572941645949531255391302057164434278468454240926668607961949998214405580723868;
Dbl 2058062654996009358551434957737781650240256147128052314480387785141365112391688429258714784217463;
Dbl 3224666231710510504336530901914891695222200763892326951150564631273920681638927497982653425629561;
Dbl 937134149973514731654122837126868077577745005317428692268186936131105176971910413475286352618019;
Add 2728439684708626958224360678409207271990491824411018748053968878481016040189117681430461397041509;
Dbl 985334290665666401475520501313081422229887161724078442009236849079712427339670343137112326472975;
Dbl 3275569960553528279930376268110703774364613906936853348090700735571159361107510294204679573338886;
Add 3404283061124255992244589386509550255555865235686325540412167395661191239294397282124151487155102;
Dbl 3716212657765158245645154918664512269216038214235043228842296642190468731979116998912889904950500;
Add 3152693348551776090142764252354856444379491256450186069909224395439137462331746076279011491141376;
Dbl 1199149239035284749735332641543660878684589963029875324830465716834869992590651125012881506612122;
Dbl 1769584980087518576528616970390422166013773224390531832834890137776066760997271901490911394082117;
Dbl 1011124717989318399984237649999387036729533270442579302251942007975080341867581012792213999906204;
Add 3463058166976815227401150761992594069962953896247809990403929158467180943718306491967063540338016;
Dbl 3656439546511095931450101778993234565958272673637062229783789864217571019471343502872877233777582;
Dbl 3239205713484449656051518346253992099942005761174220678820040081368218344275039478170510614414250;
Add 3401465346887934246987446307808103840354266157588891741205949831555626243468082966101074414323077;
Dbl 712692641759958188222716032405276670646884033285513539944778352824607464521474363633145138680487;
Dbl 3546300593764072398247165196899511706095771661802282807178770667127641849382432329669221608749673;
Dbl 2592862633230021579944233859029087284709637109373099727203600003329448681386553517596265481019690;
Add 3100607096543929939613502722436536259204516003545457745422778971852976931605117239790284346921457;
Dbl 2146042679345368284380931081334809170199455237333252934945893527608427570251022220418083408446779;
Dbl 1725008953569510696542899797029063188161606852684360586086732128721302753437828657677254928115830;
Dbl 1174703480149114720298078403190677471473861369442908465410818315566550772731993170115731298215547;
Dbl 2906517053649465424855281904848348391251575515336598951940587247885631334533669716266158965696003;
Dbl 4092111906948236792970434579307855773655745617154892613002494587212753995126149121638988526877741;
Add 1997958766220366762471601549369612208335578030197500242791778817216802866556675030818038977191931;
Dbl 2985158891705129875119890101197005852142225687095230072384639745599266642589110436811994744103695;
Add 3436460325807588785110898303079196290150547235786725095915743109929493173085573821473573526076383;
Dbl 1206410633769409699182043122095027878173052832616844024666950020188620188393034058692335014628437;
Add 1772584921245687245941393428471928296327557964915315803733227077309368140287240850239707471568220;
Dbl 4175493612579265195618899185141372656971014637263557386711599383443337963626320576374839442886357;
Add 2938744295619598012944506088635447525030894085728920156228096703347120672378932581001089013288781;
Dbl 1666086942640907459408462766590184858149609367442286899273947280011013656397635505967149827856622;
Add 3060370085949225695693518462073576655126770069215353892952814656645256469918488617199182825295121;
Dbl 2133179332457999950509897458682324479597335364685688821815354870812333668024980326999862550558817;
Add 3404208163651786807499941191437499361528860388716138113092181466326199059237671472633470503644844;
Dbl 590953542397928755110024826529673672503437101781257340025951001719469125362305336666574052692056;
Dbl 33773601689331305783304514244982885817460289092807178624719343282213644985961850244621804221259;
Add 1566663904417423812681140303818639572311451045420530253445559036050105568054872384142613950684792;
Dbl 3082252295040556953219162111732553840554304350664821461705133198290291062901774936782480655285873;
Add 3528350803267766011904529025903708295762896670949616806144745453738173368389699997170860669091205;
Dbl 722623219087630386148178599812365600206129458971290705432497127726900766722236908574440740985343;
Dbl 557095574549568506997485736407746503609217087466254108798692769869689939112238591883330163663748;
Dbl 1330570565530337471938015594587662613606688431428511627622701526982388644991699896320267870016010;
Add 1290093734762121439974929199118331315402321758597085529922747199496457447620238916266460078867962;
Dbl 1194415987084538499407382532987673684824737855018266191677744844706389499755432598891464191963450;
Add 2497603357658738735450897313578933980395442871028466818949645615465289169164610699896365360889897;
Dbl 1889810981397581437574352207338692766194750358424391793195080449214548373683389344524383208814175;
Dbl 1777446513143448698363973589707575152459370701939264006648399428213590591809242933433428009490369;
Add 1490064577197660160276740604940951666921355512114851731955227193768307320493592167363817356114875;
Dbl 3286331558109038903283847682064732817463244357924475564490960585042877208531449958366781089666094;
Add 139839971326312180821507649424644205786482103797448251799528395881268310067079773451507340720233;
Dbl 440284149753941246864549122047699525798971091534523475009703439590034305308652064126026146167769;
Dbl 253327702809417470897896275458077624008669093919171346950956057321439639643206950609021687721932;
Add 1225580829462102667161832789360072648683540100668832282570599688334180198264815697603842089294426;
Dbl 3671095349503317255457785748645082912790455671439742821464305143538377155413910488268003862290693;
Add 1736806713009064500354521819715606214246480763998243498380524767529779040349299733366149702861714;
Dbl 2269859030643756268628579454899435822616651873822480522399996850993695059426365753157814676923288;
Add 2771717104628908534247346535849823349932531859160063059144251973981649823525805191298432363210336;
Dbl 2891714355711208353285111590846537580657426641506873252122152376027886090854005831932264123157300;
Dbl 1253192107181882585186702837462190251915349436746206307607903649861253366738320369828815280336556;
Add 941317275145380484385495750855671376760874865404758106838462201187992636631623861765737254464006;
Dbl 1770554337577675180244405225624963817367202479361379065749943335364606290788746663459001206687792;
Add 1458381554694082923852789141856885666476281374797160096561122749887461204006160717819897026641384;
Dbl 3753221963831084190877547570113510168523765950711568392939087389996314394288405256250114499950591;
Dbl 797099114227329135534207289911895252726567814433409453421435919508949418248703002079077580773100;
Dbl 2848111368559378866265644524361632605277695623799410229722121409810787429259231027356950786867253;
Add 681808664327028208847709352261186495576754943801088011167565836589661033674740470664092489697682;
Dbl 2069691849979534649966726402970504691098796671866751732157420140839548675066335589669765281237441;
Add 1769963556483246064444055217177165088946506720324976372268409990267042693911759052382134020864736;
Dbl 38802218541048745352694821828336924926359151626669800799739508676873399515481475438627291566187;
Dbl 980746408320710394915675724067188745695568887082219561905739373886724693886459163923392758831926;
Dbl 1050801023277401099549119038343611921072357774609972781575625624952746215724918163308545045007348;
Dbl 1521117127013782749009139838658978369955943079244296656044232397755961115298394257818220205574904;
Add 3789174991385271927477228037553843700050714020858078154048734285167256719797065692086601831344738;
Dbl 2435848562107320801178350030857535423579521313515036540886566891618538457104544362830484269936490;
Add 771460576693034448022282869326036568541813372958232486131162143374537387246225242782752215356155;
Dbl 1369112260707140902662147058024185187165063700909642641410106336535646438273118819786409023926887;
Add 239678748469325258377196673857083119785650550561634757868170366193213197012390880419234696016391;
Dbl 421666977318144579677280270369523276287027600740822937394560584507011860698011814234276987893623;
Add 2818022006490148158247605959639598172863489132789026748217794515535025410268185108318495120198601;
Dbl 2921490687114142683708149668773520357822672308952371345276877297779113311240781292745190072189006;
Dbl 1998818283394246623860940171449111064523578794067008295085229911964755526051405815273244506039329;
Dbl 2773739383866227574959436804971530026434648434995290675209365041112289490794788967289038013333251;
Add 1008988150923205665283474491780728531216651694164645275372994374435177624520846363614998335114859;
Dbl 1878882989414282428375609789093061508221886498756758927729736022263964146239999153123026449126080;
Add 1459443826115383716418984990673402680512172598547861952515398627528588632893111667927677937316253;
Dbl 2057892787747267202238964230849589879208857637561019922835722641252447860030485064577284379397407;
Add 254622331244698008204553422416617448279317393986539486655351567416676233980495447595534562981714;
Dbl 237355663408644858911145186721545347181984980737658178666353851516861397372993679435405977107158;
Add 3044751777591570686400865357349879919632223323579073801117845430692297994591131721125516069695654;
Dbl 3233869185809250015210316553194807526153552218590424499515641130865213193488658199590077691297337;
Add 2423945403139191740314376674490208026337022406383778440416871419671577345574943292446573342782533;
Dbl 2774362430122302106255513181506557868179127279422407492865349786394972344570689426360846678315852;
Add 758220604714026416157595708626363533733318836317922309124165631730377124409810570669783361307520;
Dbl 348172994456301784000314437819653676377655024475430853152223990335633923673414471457004474591056;
Dbl 3154908713743097849381772037390563657605960087342445715030247846153816847093387368022242961490475;
Dbl 4136218816030639667324655862996151059457739057474885135063461340334216693444983243565705922597150;
Add 4046326120935986670744702337423530613573031889961303721111730977783724251695105629970463783707295;
Dbl 3136088352204877974720845296758856101588488727438335988810387180611969246042597262472736754267021;
Add 2715852498854036154612315708098977915012353427213756946415257610888221370000197181784308458938821;
Dbl 1958447796097136911924011530040606584762807204295362992193152568608976732455671821392106150962107;
Add 1412365983340373613952207610523474261648449306644159051599303890123881632266815123087951026129284;
Dbl 3821947768573905912681342950583515020048251678693535612795884037666419411459326742561737635544620;
Dbl 1732698920499509295437203285202935108904698432015810538225903368793015824004845644815193509782184;
Add 1070906101820087848381481179488544143692157108148692742008525555743210698108106097590461164744383;
Dbl 708762088014176519700872762899320464254880876579216662309406736659546031984441903717730986470595;
Add 2280911029416910916775507125424670550444150756174556299390945147049773261943793797956743572715959;
Dbl 665935005568534440942651464360384591735917347922565548309980656345726253282081993854765895953196;
Add 1129494697139102584482504914788869993788233139687440928918256153847390231980537017804785447344098;
Dbl 3846923929895244757931073677260901767181456909929281889076836828583333713444815795250224409301166;
Add 617864540607586773245761404393301121409956639157974191524836793264780103937327581613921980928330;
Dbl 2592646562749162475854340660756167718856658596945050113530807560961968028376451761228115316318732;
Dbl 3048766775288571737493523953142973497402984486066726299773251692304950198735269381273438040645297;
Dbl 1047818057553951130596369414592294767870551499538762353478166844126797573395783958989125017668110;
Dbl 276142303883727782849418048452136107203781360932073874795126877899919571619137133603477404236983;
Dbl 2990548874079499409254315296544531042801377295580584634692765837055177900066352660864159286735804;
Dbl 2390703198651837369294806795597073463771278410637050051269461223754425598786455305345370276493861;
Dbl 2187724161884017659647352234202890661094087979846807103709689366451643833784189466632536881255407;
Add 118331325689573535023678168544095815496960466742009418208838676705100547956005344552155681878471;
Dbl 1461811915214207249796692851231780212395922204504338542072263560530211927819544710427590689536352;
Dbl 634906725295285257265162720062766341684599690939145640123201023703024730491373399772851915768613;
Add 3715915344449624221364488764466820836546084654936694988791826226401101925533033255067053634408811;
Dbl 2732261695759476300100097471630551745079569994203352469318872369180914345755548129009945510493233;
Add 513692520494679687423812487529374297596660283577594414290555696298439993006990909950873394160895;
Dbl 1798769243322121561669739965214316195756625072116479116998180943709744485610546072445191759612;
Add 1918977039970755260646384796149332431526054529108221069914464606293419718322622127440992970025994;
Dbl 2228300898773481827867998138991198263336463157756603556742527985338018150160651547982252687080423;
Add 2283725042286872029385618904350323934403634033674256907910398214318902000696053242547423703379776;
Dbl 2791788010254078951172735186352041091111612352335038513674697572273241532066429992680919346182513;
Dbl 1660731549387362122453420896677013938234834707549914965494500005564489011000077700435842709592238;
Add 1362010383362108083285365188133499296544130677384791714980911462068594888061980002434355321101595;
Dbl 3904908091615869369548752640403366253819587386336037797060499538691145312208603475561739248038249;
Dbl 3402616653816471268889152643925049376358240619334069635449304144624552408508914103253180392114248;
Dbl 3480822175661074871531743006304789118037060868258112224964976473892092151600233761956221073912674;
Dbl 3225909475270626020762108210644039762876509478394105342994203556402850124760328603392427556894650;
Dbl 3240312682165315020646783725269110962244951520555504664497674919385995880022849992705661334927732;
Dbl 80587843643402308427289313620887967435106729933358736648804488160736732990082422496123703047213;
Dbl 3564968815588141405610904794243797926132600359892138182863793762067741531222085175468552305108957;
Dbl 2438752487604164599020671069700903761009019740478913500821983991851274166495845127301853496746635;
Dbl 3993030238202028628662921850764372062592880982301345036560113204302555556243388334029217862856598;
Add 2638592878413760997390629072082036994885049428369030337667437084198329341352758363848817167008927;
Dbl 703656868453018553197131958158697399997420423368163714007139572016789301466439295143460878176974;
Add 572565392422382361627374613540028996369285330001731269839597966643768589617750865459623338457476;
Dbl 3959204456368589510578057375595816887173686272063604290644594278547054761465136667577450984933241;
Dbl 3715504148822842526369689075241283013294817799915712454472220227533860320398500034045409343428216;
Dbl 1519682522005036726375049682405975728548603363444336550503697298895076051118745603188608941276006;
Add 932519241976839861284122945150882044489015537057324129917060099592089437503264969647547145012596;
Dbl 274730891397493093556062578448985113234535908031415398631043149603693184954212174585653383236146;
Dbl 526628526273997162572383484955201608343131804638800942531557956668762025090329752748915982604124;
Add 3593312939349664662192553201629941466489189445527424939661166815470571959172953144212335007756051;
Dbl 1542848724272673002345955214237082037734630330549481431799919587413658181534239469959406613942532;
Add 465122037745211105974988026493790853242134727529468898392611979183718097028329357381496775688084;
Dbl 1570382711084673804141890328310448030344139293820937885274828375233333789078023890736572959149720;
Dbl 43293031456511176906478522131576840959933104864772711993025060949567278924054299021950979485642;
Add 3099848685130683298296178727693845796514020805946363396931246661344608060267263939214093217601862;
Dbl 326813184490259965007092502010412142707213090863287703915661757682579951633386028040760418832385;
Add 1611173060080595243674219212687994791928269804183280065619856097693865444541150065948255057597299;
Dbl 194526724089728797117174637297422589158157500718441583773694407527752161815345280582917648317341;
Add 1619813155637389170808573955695718021970160433690123086996509516290391302352331751205285457733298;
Dbl 217846461646003276667633694112861639473995497289453325297732293218518171440142878228688541799033;
Add 3533658399941512557149240916439744400510429611029618665201555436762628105823323973351739909599962;
Dbl 1636856688639131869896486037895727868723596222247471911943877412266420172266943103285950642892537;
Add 2808856960327407312820014757781702135455843702154200709744123179451071529458934486258249780374670;
Dbl 3736072053021372122856673622119639640477396077709385614644386910257342094727982009764281977126829;
Add 3938026858662340483915000128686189467778936530367991010501436166928475333221566942857740302918978;
Dbl 4171478884521827048236411357399532474502096877121475703890726204340700005192739543542379159448075;
Dbl 1253908057510628314641256533770449331729416609786556762735832512365739675052071729518737686089587;
Dbl 893038963309547694663593262499517610395296255724534088957464149740117710208088663645426520608041;
Dbl 4073462697232576455983984218904804333430434299640773025154955637073415380898716069740772678893642;
Add 1840547688295776086606595172456722402784267239157751188581641764138309497897736943398469335738788;
Dbl 1590091989101472563699677334970476877442626621646914640978055445415241502258739334611967344992820;
Add 2932847764767976831005638403384920331561852836709868979347648863131311357873605016994298865342420;
Dbl 3415392164406458973629564990611232291773779769721766142141388371910578265974167193461356509034144;
Dbl 2242660408831193757366645401973081937248309667282783371142142651014608754502886723502191706781023;
Add 4014669982494243591798238460364019513629681040328039630343293913790632794979812668461224097411386;
Dbl 2192986075088410605919986894397114357577280930654542928940540424725333165559590465149295733125821;
Add 744338343956408608579520260354094500642845716970802992795433422361371352385738088397173666168913;
Dbl 933432794330768616934463440143772712930708639722160513241873295209686095373491342032019021664021;
Dbl 936071290186871883262384705570478993773530672590215790521011277007776874377763804388081734117695;
Add 2930255886885516894245730314804193230272191407505759161062720157337576316556644109948416947317795;
Dbl 2374747236989561624259094032245356892935182450423176198860274602777980844507387914505230935452786;
Add 4043667017769168255293896334657560336052443526037606431414823110390607182095990319396338158399895;
Dbl 2714661770622645651982447152155727072639796712386514043945853408402100102605232110337930815875405;
Add 3888318286229548859122361819076024440007275013353694709839590949098252980886042567085933395381235;
Dbl 2833344589187228024334503336838693785124683781071412854128738850569940743963624887245912797297782;
Dbl 1818476609615867753762934794534545305411032189878422397806729750123737607995689801361626625628169;
Add 2265523636562160001979767065342089823488318896885092988551033964299403277151797802926307257464178;
Dbl 1726368576134110546697109757424405883123645898639837910111201972608425588619462283634863029278534]%bigZ.
Lemma checked_prime_321_c7227d1c3 : check_curve 4247472184312564157113439071307194296263815545906608646270351173493095694583856108687939602993603%bigZ 551717414270214874488340347292600276396601222284007827466572417489773136130491888987773352054596%bigZ 1414158135693596121131106023432249809287808629489520002481104137808692939483467462769407002726724%bigZ 63772768505768748898266639902130623728560932293137936177515238456000327423374302998192381210169%bigZ 1831306409034131455090096406940268488405003585429190047475593017558497427404963053721095367586354%bigZ 1161904099215453723873576041836043834217580045578589318262651589524171488015275618791458545411276%bigZ 42814186968763574198237375213666058406531865312757709370423981517044358132023184068677051 steps_prime_321_c7227d1c3 4222641288370052139524011622852000468115637177825324691629335654194073799687304101664824846218534%bigZ = true.
Proof. vm_cast_no_check (eq_refl true). Qed.
Lemma prime_321_c7227d1c3 : prime 4247472184312564157113439071307194296263815545906608646270351173493095694583856108687939602993603.
Proof.
  assert (E : zv 4247472184312564157113439071307194296263815545906608646270351173493095694583856108687939602993603%bigZ = 4247472184312564157113439071307194296263815545906608646270351173493095694583856108687939602993603) by (vm_cast_no_check (eq_refl 4247472184312564157113439071307194296263815545906608646270351173493095694583856108687939602993603)). rewrite <- E.
  apply (prime_by_order _ _ _ _ _ _ _ _ _ checked_prime_321_c7227d1c3); rewrite ?E; [reflexivity | reflexivity | exact prime_295_4032df8dbb | reflexivity | reflexivity].
Qed.

Definition steps_prime_378_124c7ea4f9 : list step := [
Dbl 182989720207507999567828894596617092300498695322317418035987978306497162072431428237472920020533575711339608380581;
Add 198673154145178645154936107306539315560238190589200926442323941942576535578403895984715467290461695310217953877752;
Dbl 43061145529175592204936483243633707121143266309200568817981735192169968004900225562268565867458940979129348789230;
Add 305374355377248537185394944009259105278813054712383206267763350876106357467849841487837772075751464664060318732610;
Dbl 181014979054521332236172762137656365490810138311475829091650239779822129987974398033045384547621407404424136483060;
Add 184793887309747691573762514904136644370139303798770346416369118212950381290999143728014902487098926293490089993598;
Dbl 291738659019463616301555147796591953658520324357774714541743657521386345223623361326719869558393237448915180996816;
Add 182368431933368210533833157267380044518863537412182059145973606968979708218519113372719153018001505425282542104828;
Dbl 24973053297464190041515651450211228147398391241888133874715182537804339455327388387987623953108947834689122222772;
Add 419318987124115799875224750228807480372423718902031266844273224665709882614343420659251141496007637057453507513683;
Dbl 270700450793592802213568925135060624477759938269626204250654783845984728038672308974628294218101861985423489228605;
Add 335374070564752204769755667480810168862150048647728111438248146587618244699495140312419115607627503843629265232735;
Dbl 278040441697663118657379612807650547103075497673154776602913914550374303260506551411851357346035889470569783829138;
Dbl 254348190949153824375559853480781401988903144156512477418678119641045757282030967542255941681252181454070538361605;
Add 138843404433726071379134279915788822844439923193314621459106907560325784094754661223819809284934192388620241593913;
Dbl 270342481494926929805852861142976919458974619461876916280164623055499516460466340690505414881044809340942042443006;
Dbl 387420372189495583359430863308363734501692994226639033422025163664970758859747457083276863052907909787285502006639;
Dbl 94812545651276708859658066139114278732731372369757542306213141592825687063804868275819029438366630739910697446006;
Dbl 407633633850255140879036037179357518038325257999335752251178223084905010535409145209591530743119325961065221040838;
Add 312568962076405926370376161079703011270221707421048354851647696153532116712471485468721612689550678537736083649345;
Dbl 8310451631885569197833179405925026686657667032293613022932982651357762313237379039103714156248060136368231822583;
Dbl 21709194833214886137733456907395070877337512898945013733063922203767624984086227237358645573592458276918963444331;
Dbl 370926994171914637471427833794412221724079099059387074490116940839223505305531661825885689967859489348681623083453;
Dbl 400747291943571601076025747465181959469139925241035607221673882316883307086072345146536535715098716105581918561622;
Dbl 227043894493221450078148847583663445826029631976947271728015123140287552149191121305625080876840319606102914421689;
Dbl 124511110245108719398465104228104135585453098310370723481266397090815020563357221484345008634527383816240523675441;
Dbl 116446168904618212433926227243194945185413192294026277927579114361193969207779819631083359270768579760263077187724;
Add 390456721495145158987428039212405041663352007363140004676737512979153174581036510850289495153152913873852700775120;
Dbl 335124160429155222141510265342204076889901451150905895614148417668397086438612714748393997508470443564323014918366;
Add 8249023721177655003752437674897707857195314448960091073360416180963380794650522150914822941716657552179119950824;
Dbl 196862108689757481370008550820702444645714658267821300186394437972231507279053224489283363255051627142382250992875;
Add 92721289054050322986655777857905200099192345451500829629723666229084343580318343952076177535931893846530480054364;
Dbl 342381121257670063980961219095417895347646974161452284565936632873264917909883787928716510143871209841379791277887;
Add 193315573703831372037951107007155681288902004962555110413497683982431944427197898318483775057695202327853646395617;
Dbl 131603601558174321703786739114158466622190441720690143270293013562541572725446535068680989463202344863361087588525;
Dbl 40594399518342086154109312321712599076687735849396289429580462155210935896625028739611417416870174004693558840992;
Dbl 394043481324004533932531911559033114142349044082107216654821241292076170207316319661304836098987040032080985028908;
Add 415825571261111994153318100107449061480928979928928499821120663401381088027701052845534679645369521205228949768979;
Dbl 224769200431348772002997300519617864670770881848664025742990296138379291495477340034144865589641057733781806081808;
Dbl 151482252423231394382126287932393074571649917001398600669064638577415437386345522796281071772549365135255063280032;
Add 184356131753827412137789874743115003192296946191124116041451603348815134962750308176398979918552583987354233491751;
Dbl 170054433803753690405081611014464245583950346223910624733424027701586490659922387085222456123163339474027444280334;
Add 283630614774375907677584064642792942802420659217998856440291667307429146906862346037260420280567711553949707254089;
Dbl 262784152972701585113812063293838472866455114527792541476619766377900168314395443293096291049948817847704069533984;
Dbl 199224332450519236927435052636639892319114258155310866164262677192437233606985907309105669419434502838245602877225;
Add 304805474861868989821771934934211413797512363176582035891367180171313350912410570600733275257284098397727301557838;
Dbl 131917695294581007397090264958144299387740259829028688245522981120094081841763777411000408923402890031245372150422;
Dbl 245683292443656052226927499598651423350773265890387649192224191295756817711415880772021283939623446861836639556257;
Add 380842016609054222208627278485456449806972990943304421506821022332825347626994220801949272431663217135424285865563;
Dbl 299220334121511866739529926942635378798383307927688408982875195698017070927724903174807758462763248412614713815447;
Add 171744581753821420436413575972890269414214274974229144478117635772151333944127105865799541717032690173363685636601;
Dbl 107844332018442604977101311158368656245964813934474231829915574114104000173940888722236834441857007714823310066942;
Add 98288983014331787211030649603342321626912985282249448171138768117857394557880385570416009475371583704294185073707;
Dbl 275560677858372571355926726673557637480197341961552838472874026703200494943892812540663635890661061990139895483510;
Add 92561329944921571086494986474809314481949025003601231141183396281460130057278744668610339378928863962916387035461;
Dbl 45798260660984296028659194456915521129435012054652301089152895692159528098153601914554065706198535153954484509612;
Dbl 155692978460912649263039565016705590054027672736912120776985098081314782181837222514562329700111485866138453470057;
Dbl 145346659870123711684221993947526947344406865082393403602204287597165265741018238034492650845244095731320775076423;
Dbl 259988963813077538588503296910319541150383582343949172004183701666041419859528789978135735928754135135216230711300;
Dbl 387963496905747776531862725762035514808841098566513580177001110532026799008866418553895906148846334339051674232793;
Add 52712067577411297037184827788830967338043121082550728360791999982432579175242447293450264817075770748724303760152;
Dbl 340938765747643143459878307253462031878237936539981155896401922204782932962779460981135092835874123324136719406052;
Dbl 169046701895862157150055384310149149514260034518035690993116380883949557347657010555088866766018608734750218285165;
Dbl 111091196640611792690926446003873844094195273211556542273693578525265132283283116567900743790094012671718042275942;
Add 112451506505122668868174634971816882807703603499276716525537405912528185382047261196773040051033934063618543407472;
Dbl 248425469655536861281319913790757056762574389851120121919132403398820969011793086023942939178276550580583350639243;
Add 177298903934835395864868229824824117654757429101966700523698247275132583699268592151896454837740175589224297103731;
Dbl 293966831541138787261309622713799647217313518724597363800049364592459076097308694128243271865071343213653300658077;
Add 5745089821560677656922378957390964909096615500586576053267586723287447786343616050439682651829631373206062818002;
Dbl 45765726540315728387173250526139047657717732036692301618444209556523465673739797182804514773052154605081948464060;
Add 124666845963103229321179158177566497110780727957105712549823237678564437357157404144759544760021888775502101519726;
Dbl 173979890811725815104314585353636171040110521683971547306115916774621573138495147615722682416857383526560533203209;
Add 271662251734308411682374485321251246872782558073075733059711926184109953666895267864569021960407387585465844362405;
Dbl 353348647010654874792721414811210143636375542541374230530401935898928369043689935691346134823210574096830245729682;
Add 124236776078372313501241006890979221189867804363379213305013903115099281167976891864127604120690100898567745032421;
Dbl 313434736529358569734814740001813128513233624910827459757266108223059660559825448798322456374606727285936041819676;
Add 228480790811839587572183917009143763061685216611014492721402739591213683169546852285905042221152716843985315627032;
Dbl 401678891092412426744810616578628689427343678043296352282527596416426313902312695244733418865025472090082112745063;
Dbl 141753244012605415183220834359011781766705161497034970382492365989637919706682305660873389662311550777865765579007;
Add 162502151409635164328027654637088210704638119498793375574877450866838000101801009348871512847333572741375263017117;
Dbl 133794300293853892235828023422919989589696516794332234861669199272030746290368668580452015198416429332770662276826;
Dbl 95706875916314511009735256859170500113577951677624721996022598047866155279676133011343480221425367889163500738592;
Dbl 296867009402643162696217605342139430063275169177573521855772541993198080527262884750370814859679011467779122116634;
Add 229551356731698558308139689910451320072171164590771343788847524649801128665627478385493100339719483513670939774878;
Dbl 315423609242156093520301126267275308743734380016057778959490612641635680228123360062771367738595980748045244624252;
Dbl 303153815263142336401940984427780548703364098661325417467017810231031531656941417150599132726070171861702032810494;
Add 342531569156651495336537369712079292916677241591113937752208074287166251042958125971572167653969749302874941628199;
Dbl 130903262019381448037724419309201021216722738907105358230517015075265487041487585410036539622993080468519532918126;
Dbl 330905795486288653344344721717903130748431996311541693867727347942929050759432905153084303684487956942331665965875;
Add 229474029540031930940573453311891689396883125259839603800096343418295259209677047239935304394336930092117199216654;
Dbl 63483093424211557002724636280942992569734200319550136767051086397629504529691643697347289086477229979507359150250;
Add 253628524433000405076188886548687884794584308476895956075255595811209644689822732651966819813335134012884999205117;
Dbl 166660896518070386503838340340396814019526799563379789138539831176555869605510063751383968519286502166329466153785;
Add 202075721048333092017137700787895196650418115809282415182226274683129473925670784271081408388458259416247068022032;
Dbl 367539776005695292315780310115235069349017625071819271249105001708494462672709872982373862338220356383415897194200;
Add 284515793033904405489566862147729667408816834022296471146467289847637025927100880441626214104205194401238480740215;
Dbl 135073452243975211404319814198082813988245754557294845159038847150239962080616808015649408023293037238987011433342;
Dbl 6995522248517349521734239757951621257807192765364768244748951341010313760631257797946020597461140084338917265230;
Dbl 103575335857959721857528592004976275235091444648524455261014286764098378888765838105088199396074396120968090563722;
Dbl 59552350188233061131803190462228629973463395066440894429553020201446540498034953090953758187082349059757254419365;
Dbl 103240888535999910414378349549487987511398695375822944077817853183751412758197138509105413962510580521466706286783;
Add 263032319657219628865255028581628728615803559103729887387807139784489617821365671393940222594702557385784339370602;
Dbl 182004200066364064731469403027689860874927490262891008534758141816286590907200734489026529841897921492323335114579;
Dbl 336794062167323093960979989731450972218252823926580813562517264071991174414726891089808587214350005184140555217732;
Add 333374325903292320608793318133090482028840234313514141229224824181284166139495984741048000647316568352091539508123;
Dbl 115605679166697101763301812387291617014583874193145483770125744790668489182099155554403933302888847726634885351702;
Add 364253068583590878213032769515345000920636763870410763540685847323161433856891049912044284461121535613917772786254;
Dbl 170001751603793550099573609634442793262237118100331177202430945987734959983235354429119231198072429137401159392246;
Add 210154128485342348764218856890337321482289709692104920237794528573204242768348067017896238433982867894056701355759;
Dbl 16441480896142145080326740851839633094188886312728314590227990707431577717590493747979589550495646751179095956495;
Add 119023692651154180622981576518253436266035468133684332898649632203459157273737428708247960179080278860894468258912;
Dbl 387118461920261378529787041462389256367025927665027189205848096866410874761849166584948712603957466382605328605168;
Dbl 66075861229534387166375934261930901703084195233681594364429979071522782553557340031164076113075380458094591582807;
Add 418280772926204937462377100806155242974005990724769634382919252814996619757783527284983409837046834218023386161146;
Dbl 68028851172411812019413456027549276101242661909718535143230194971421061998086063502910669232801652515905404361363;
Dbl 41466767568014409074191968902733457056909268812643192167670374454289586632731288905266441659196981642165413963848;
Dbl 20224955406314864877382277358358178537459489570595015600103895629882244830987380999902923240649018536557412008692;
Add 205874128739654587923033089213402994772733651091800586698518245545000162073728565730674658981718882615642251632912;
Dbl 342049536575980944968889670533242986533544056720784662848279932225131637554024108397651993867166142272055519121749;
Add 160927217688693868396312946220315060155736535060163955201474952954989143949475181503220483878753122651860430948642;
Dbl 359406483879736230919666537827606889791065653906860975655542588452119016168276407850978520029514464103929136445804;
Dbl 17896267781200156788093904140994936022609890619017534755278780330808615675171423170441257095791336806394402100242;
Dbl 332835761919440242775723833870196776034902632384214475266156843532540081395564404058041091459376172139699958190359;
Dbl 276489866673584598078383055263526473700959925537436692956583154644191126898006149983139020095520622411406834581918;
Dbl 162278936810314064664859792432600468486097818540647810729800126105451638419223667371398166641443982970270388067968;
Add 395515525721963428479245980450474300112204976664806034213128558813532600487782448953139214922598569349717263259467;
Dbl 9082616970047060562717494249142456815033015375225145561068928422482808018570814199966643191801315883705112781182;
Dbl 260671238961242409100600886895809004532775544267870766637228191525398982891689128357562686851010223684959323534366;
Add 162194180723075488264163161095342204357186389860789345099435892056965321758314931118956221602118072037002974594959;
Dbl 341565898394017079186621753910806280463853706368358366927426868042266533670485286136557686080981611514638541283818;
Dbl 156346000743744892046504164938037372130563511748139565143184074727638902624981458571913776920674796277434958167517;
Add 63257223896759228020644516992458110915699229242493231734301383998977104382494679541723172714543297003146759603960;
Dbl 376498037022622387776382436994106079225975070409205472993649166396430804589461415723082361939714486103705419585826;
Dbl 86237055088188349103937776411909814400250874144659665523120008851179964455897965326922210118929957500044395704270;
Dbl 11004543446239939469340368495927237002754020512052131984245969243111131321311600336980851925593654886106971954447;
Dbl 202520745736785322717900082389753340040794723603906168008852167378591647501437106047036255282550563089302782907891;
Add 369959843194085421871304465534860403482914088067713372806214119705010478860768649231492715794630062658777999637650;
Dbl 231522212091920314648571757820020337236458033785190256503974482559071674629646502321325151241753027911354910636992;
Add 14217110375874283924265027646677476319982497284531153539845485951320012926133756844025612017726815743907070744659;
Dbl 25475766445328427195558724301292740952435235793801765139700129459360729264905071122468923393037438492881379217263;
Add 123686202272960853368726961671592194051422724358775264409236486509983011322569441502339896863322777974552020006808;
Dbl 254819687769301373087416046098743823052078727996565146647532094262993695763050984694465290808001874468530291116043;
Add 157136820771960757529245125322893266657242246923706923432886036471396752911960312110905275237780336166190809923388;
Dbl 361863648777454790470304422211768869773168441634148279497361554310490781039508991097727638898981675691939010992354;
Dbl 349923683053456894485871924309114471250020412308788062258517317490124597988855347798187072695376538155436165165289;
Dbl 81787325916931991145254122564550408159989491818387742656889688042810721486133965329919614450683093239936830288436;
Dbl 381035286209224586398854881209848220999254454413056363619736356835270815441221102300960918589590776798010157616182;
Dbl 51462709244111519196530701124067987015092474888273081066523115737709140121436416670811552380588962753331152696547;
Add 133323347340433518098985709464702567190420783710599986993849562929074981512453148469030104653574537705348978789873;
Dbl 148103975589261055327792215799443889272234517807126838457962585982283498761113396069424330232480812043068815947155;
Dbl 195637690534264179350297350213132075401876248557745826061961891123945915656718038883634686351273705553168017054107;
Add 228997153965266586595693985060613443514738466939572695029938071281488118313272480704130403956764504165747338380167;
Dbl 136891871989783673296833703246585754597896759374972838651894317317910148403969403697363761716175140213486525317183;
Dbl 299704216491206230527640566471606459320505517979767524999702896095179057154881514741513001667957250652500003524492;
Dbl 222564099714831152975050622709443053903128248011116019481578759123184428383280522421617584929574507197181645846807;
Dbl 412993449562183161619719094104792103014162807178144576616126175359096812984645011459900650874210457502390950115620;
Dbl 232891831787309991806532734807040275519240495025003387622386450792707449006070461682073498811878876250260748825845;
Add 385839649322911021727523117508051776225145936222817818980113145509271270352797427859456762609902631516322446968485;
Dbl 385585522137093558342859613129588194702474497652709584293153707624274627753697277364355674995754645714106784221476;
Dbl 137926997851153220513177679431952424517213990732139490377532045691599000591086821041234327503690093200635310288764;
Dbl 345440510332914906622871767596898554956620978759921595596977325353527347751797141967234110324408315738189220030487;
Add 23176737684528018426136263312187312746262030330993682064116423109311251138198497663587304015881010518604583793557;
Dbl 269117676095096889419928602671224756783628344428337294170895712868236471583650623732046763800657906507752225089094;
Add 178526004052138805118372218585906573156840024277544618538470150267920449683532659949812708574947412418997048871707;
Dbl 103158651715069303307108286934733905251007753219775389745500940601326620707899289832943337055432049620191015775808;
Add 181607224904401473501960274790368460582415515267603396520974523129004129542211744172345565770833658543748237191244;
Dbl 228113956443396218006660614816417656890945871897709574054396978899501346621527662517879874848103431696298879580505;
Dbl 186925363648928743653180587357934667630174638537596835103467305222153831780559882155737400205583587052457979796280;
Dbl 109574692246232214212506209819252160539457072680168709833980369878256941314481894726807738944648705813830529609494;
Add 289437470011768120166394415683140860139062942655529029270676223590541836219409555567626456290014514275705948272820;
Dbl 280819343425117664471790202149428319532500229820041901895358491791585132880878468300665399382651462491719114697871;
Add 152066656494075805227868937047536141910056602935767010365175407417096258459172532766673739952216466083100969522486;
Dbl 163593494976078726434340309677061905125078583378873894880059478859210871587233644676328869188486315118152898391613;
Dbl 159236181127328300761066617169501286648844151784593863064328244226669972923963463573944726610299885387090047414014;
Add 347029383039013295714004759160687392174472455501633215525751426375684643548190758528093477965761680192102685228625;
Dbl 39893071924272617682509322542471439578110919296267070889294677634121737528994022126898851562976418101534299578852;
Add 398888414355272912617458768205898499506342436724041052138672837350419286225003942014122046281080663964436629557140;
Dbl 218854879940267267223084024423861772235432382213118969937559279230417588467714395036926864235783538866408518957036;
Add 179775135945784786204038669069033834507123213874634368508510281987321836841354666914366156754061439800216495441348;
Dbl 125102363053472335748070322007160463263172248047725676891230482957754112226134189232283994035191150477159555403616;
Dbl 248226183693205286571859946820699880798808521998682849496648437392724416719470069192381198355802613797355703178649;
Dbl 297560944093786030054817726200305969941870363136059735929906007456616193698448253815123521109282075173050960213879;
Dbl 293750788364365037052782154789226044795355673744725093284205981644943035619266032113830749047504887750083410822948;
Add 358695863101710326728307694283547062735451263511352876060517778077960038291242480309365768999562778762563146983771;
Dbl 34166610601902233251140597702891430611200536871347684216102364292625109660972031540234598317465380800113650454954;
Dbl 212191054694510418178060811607387559385952055029170200018784201787599220603636299689148806008864237581718329979804;
Add 56683139214409229204187365004684715822461492508401163769440877015734809044576141820160095981098814850063204641953;
Dbl 292195789443331329495514288575396689502756852320894987720143023678063052451257407973485079999810353887103010020255;
Add 227370519802380207256324951202289653292595300113483778925441744193353807373746044600906975626421440971958714429032;
Dbl 253578318525532336247296117029694561863063951996248745748228720584075917402276899934928279743947242369946981351997;
Add 167534664732337918485310072796152333716885154713919405501131231820313609001643188583901143302224921509621759691005;
Dbl 18733063835616554772562867826661789826822321885547882092516801969102347103636506045069400588256611548012038504032;
Add 319535422504763599221932816694053463358672384982066427932830484817385368071286523511822576091168604546789052214350;
Dbl 103058687538759537843689897897233654697027357096708136251620756118806752790120777778603649669880605458257561635123;
Dbl 67187376208300799361156237862043303507674504620365513696887708153529828857014705213915066985482681057580091879119;
Dbl 267480919082454528137299561386189209249007918474796048850651540181736115708835983279774749822758958585559179201010;
Dbl 94914304744518470364655581794660739330657708731755435066306252756044335513841115533907839058306646521800442429507;
Dbl 139118682598102861175724387856765947264452432590807526608087688155845023384869442298738780641866368786363736475191;
Dbl 301800289202373561830095017244155054344871173203990055253663133495323027353765181987914819269287028717111625637426;
Add 319240128827332131380229291056925556791763152795822497613778756214999483360607981036718402861139393772785163100788;
Dbl 287400035436990413176778217864884841883676630714992881883589430361184210744163951891296193782776156946469113377945;
Add 49865909756815472326175861002478911870566266292977273080303152503831822663182324587451578623119464658388232900172;
Dbl 269031412117681454946025340901442052420730201994136042820586689371487730659601088556079806693548454279161598171714;
Add 354577807573588354893817180131992611399393224768599600264772261702783676247374250193537040796707983471635137735871;
Dbl 361962783327561249641049534423031675642365995728569932151591045296752718245888851898565157400736508223878892079587;
Add 410770761135338277825386251522507630482482641798332036103045739375191658234405103406338461562260940486836753564617;
Dbl 389542521106607371846628390450745704787264841636414776267319800602145723619430372700719260591251679404268508238345;
Add 167393576302947042207897260697066030349142087137628482194354719061748857226287248953087430511470589530459844384237;
Dbl 352525238280913056910497922898447545430597490838820214009543980247684347856633265459604150323115255376100544451254;
Add 153484110667814418807077168475946524089892528255586393047751692289820679113207254401163173282517081498368910527404;
Dbl 61548612805843003526830916955449734725918058245807826624288563903736012373844853814510570595550496582934482326189;
Add 412570024565826041404815430132298385022734153255611082045079984335941609838869870954630454909308177917836276137150;
Dbl 18994502798986180719926868258503164387959913672706794592579786592712518574561492002691586745089621835640169610653;
Add 109998783140517910801794282910416744415574434722874836123396588274388293782342025341297129172698738436173144462726;
Dbl 143904392132223184498701420045560705648557946108899189979103006440287063485527906550578023176975891599807062602731;
Dbl 149912814497148346720811072109482576746513954405352161115885783947048903608598836778631962676111902240175265790171;
Add 109828147346324840974263201907654719225913681021213120980956512288852456935113064269731534812935808048351469013943;
Dbl 142929301190191090551464631209498965580900760336466881144461221477825586144006101113525623927772987750122973830886;
Dbl 333747531787326228971724841664706046400261759257187202276023134002689332105761052199793510484189151484328529062335;
Dbl 171720613003198435986290266797641130575132791099883066562068101395376505982638365619358808756401408575102000327772;
Add 322423707764971310882921249585021894993424556287765368901131410319788470146937342520669960561230647179617685889586;
Dbl 331852551768871425382490357996217361426451423854369522137208219939783630334234474191091456761621906687890780932661;
Dbl 187660851286273551215974636221025189311462114847755880215438240966209120005781637533451115738407893038740366760038;
Add 297353468551708247272423817552782594458149772846807200817447550581210711029520570119593578025740899583026186729133;
Dbl 143062435459245464988124740045945847357499732427982372812647738309829710992065741006909634393740040217766135680336;
Add 190723479031940031616864656263394973166251873663228956396809497329724629614814841418897661303073636506471585957809;
Dbl 233028417884414466692735965582295035433691622706498630796221188896421057751154293390109706869028101017567118559321;
Add 178469649475697541692100311306079763859237986173402997857806499449054928321706363183067302577012530442582305197047;
Dbl 260646029527844883313732496691112910942911312755846173030001066884365736911346674679220865860552794804878715500401;
Add 332037094227692795265326935793719482654009293560377363328028711033575672554954183138744544896590558347213546020542;
Dbl 3169132708331902872436432493585549842159767879008715239047912881115853743202767449347308953387836227424226474426;
Add 291818284179959848776028136814863035719100027239060188130039467694497313846962311958942745898950775893665333419110;
Dbl 209934033095736937238251785335763892677068265826003291392623161540124234421638816414983581995811525933555332145285;
Add 12518028487741764901987021494204582722715968073110128410396099160967444717967946162426396971331349931286172554115;
Dbl 22638248647380918997013828197970020795414138941026157296941487693515376417569062468071598497942465198399324842309;
Dbl 138152144442731450363321305550142870834061224833485748077850653036418718378375030427926112253116345910615318957474;
Add 37956171575873552726804609974864517966845893010904054365407302898074586370452695081801283629130688789042746278464;
Dbl 359993607327144268163823277392172242682140595421364605987949169691136855917493426881772981444845621313686014553432;
Add 405434924678798836990598987881314295556083404562689848570060599671844380440048204093199685301696489187928678527837;
Dbl 67597783411871866924865190311769560730629579122482622498635286121738330195710612467119395676902365479755253924869;
Add 295939621866854554127210693670955825649736214423599425726071694879138096705338904959339767175625498811701393596542;
Dbl 302487598386329359928787092023861243450610263738061986061627122168882060598934259632452678437583281918769901437876;
Dbl 350355953908334016893650571076056395146058719704411651587687047001403837356700569010973969052760549455437439759933;
Dbl 272340119223148372809056817715816286978934714077276586036206281830569622716920422934452976881876579962801373549071;
Dbl 416954881338181980116754275018390135052824447033006521295576818540207621985727579202744838700323228559367290105792;
Dbl 134916436963331695981513509721068488655007092625774898320572190997040804860315430909411945723111965097035055824417;
Add 328952639252718602423434278593196634425091707207791960079998132514048633728545285350927905560687844739553455757328;
Dbl 181691530103252398148508084644829956412849961469061416531541655589371623971373224859357292791108124496461259057599;
Add 114395943456026885448163308394584183786262735348628026829459213275748943969294581375529945087497337889015412446992;
Dbl 407573633427778054052321234170261294598647344884446620892104985335412753540143939535184748407031644460449403174360;
Add 81069325186578620201811894431838970863679797240170257340379540419689379607438484361302890354266613199545066995090;
Dbl 294994166824200111357792681689079019565520213786882660320982000713255717026920064070581445873645931493151356509135;
Dbl 237015399084082047235565636578218545108485435873654182216545757747286165788035971639234696039905902735344321662975;
Dbl 278485061278033968337164010931432750035366328628310996428498433945405500118392557553101677535059308173908434135432;
Add 122186900246123725896599025808294828292278454004714500555368846234202774051050623108769050673263748742055850929783;
Dbl 390842288771626913064815811469112395466476864597924331237719854514494705839951635780351292850084839168956920898392;
Add 194493538898890538052484056118901900942805141234934289080976405365700429884297537079224163364993451663720703947501;
Dbl 237784281638398626423590280136888200303488072048022576037085656394726928801090636092462602686219790091714028738212;
Dbl 336974485638873515735455301090513378214562050032752275704880676429847136650447495051193495503865849824559569855192;
Dbl 111299791844306762084346648458109294270670039756919734753897506691634444222045302852504563084961300772133354073763;
Dbl 192046480583292581516279806674987264020495096372839779642192356527182421262942213459074468884621521932601902058518;
Dbl 265489175961903858965033042953035365691766533696030738596970589152772351452787686271569192641438642420393906497621;
Dbl 375563196894600990063866146012126903356378716853161458622031491906645253185737283151070722743413474424982756859449;
Add 34913215940805619766260693768335950343998005415957080013760412250107921201666584228849039949806236931506520052824;
Dbl 392396682052804348615397562696489796775003043553558812136178775859695551042970989035825343973300245392199911638786;
Dbl 327184484938800860470656352519320604342019454046205945009412238836544110269223116831876780316243026502574654793894;
Dbl 383195212412422117633924767048659522285850766737625219799850175321864854924808977075505100291865674969559094991273;
Dbl 72375711564876377605173334264920645188147607122238630959855017533029409965129612485065058243126286831658361286508;
Add 316875890070722021518731207419465024035893076359405822676229491968532469707361617955980349511518246601955098889340;
Dbl 61127713272948255627117580970885660731319435681281231329649124407197687066517930506991000867045276938762096654879;
Dbl 332751849587508249094822972911326078952487916439235236369440272531364291220067204408916419779688201399035644233970;
Add 401758336291066746452687024020018544450888543117975690159223136385192858759669678564928443767662447051052213879692;
Dbl 21756266734315997720800980226884437400673495080751380177700968630240238656735403128488199159588747155506170253100;
Add 200176421023181877395332981666831709063432271750103867358843891107728401499378931613737663548953606087448930728823;
Dbl 378852669881121238119708673558108279707670055721107277984557673398434043607132564773364239716184436458183486080628;
Add 306253889016667467662597578006928025698067347264574894494902949188350806936996931392097284865781731486084018232799;
Dbl 277545842624578169287751611483402474801248856448151499113980142670374581688595206901576865902577269801793471653361;
Add 271094825215306522725144599105235271456832359157196509231571436056243221257654364094993615723322592758377285199828;
Dbl 328663234529477661515482513054620431464372096283360374378696083139489227776527741027676497554678801838970698368898;
Dbl 174272295387382008367630992706554560356238875898965993399356253367630091399832664079799169611762583262140849499381;
Dbl 61156305473697830622835920495007596263681039093171878976940239694493221203710093611844149854607224684106698040456;
Dbl 418627396395329512136553568659277875334801377674316374257280433746683619170094376469610423209216640337242588777006;
Dbl 86572897317356166021867474113955004507178824342986383714835919467868708332230962512648966962333796633036699173282;
Dbl 62370583156189127781767514793952252515933195206570378190958952918897959490018275930803580527579515832225771947550;
Add 244227141046447843879799674201606863521079127257641041369248601673887965106161764782452049947335661163530576442045;
Dbl 178663597113164458353101643313533303768393928010780603365687959729143881481296756592062829749297631911818303758091;
Add 319898602262332471616337900692609601663706001733598851723883749378146482296244002450974861483237029682227368457220;
Dbl 92816960526139433599861724320985943292377803968412965865613784223661406925877357262594570661175703246878340516626;
Add 108357433425668458286142361992097257810631250895316685976419859935028996139761325471457392589800695893107722042751;
Dbl 90756369166416889685663085931930269242233997228891380455357486464131182642907870716177164240888704311690916696087;
Add 417075493562560891575920618600716944151230011711486053314145257889170456438391873643179945455049382985596408980343;
Dbl 30138373373455898708611012096696694141722816562962345570729869745738505269944283404131291608986557296959602977460;
Add 392728404273562528149060434001057547456422674386267179970307361230128290249059351815699570270559946199684844846456;
Dbl 63279354600492508584463807260130304714968169478930342528052312588642592030921211332301570771819894500592747892514;
Dbl 268703657244489389010263701072439003059722799993626743282170913981245674207461275904337527288532820203075882647307;
Dbl 386052981514847587864771110681275780694258137258469899608015129514264502647900498271698336555445427386491559479962;
Dbl 225338887458504209111052591699470139746300229327240580499162067275666522763257108913313629497661071836407720007163;
Dbl 246567117926130245518365896178664314262458416325751891664399694555613800231810817423472783666326785130012195980383;
Dbl 209766150571676678304549284941000368381110583455957087510421467062531829836143632746973930373802584892995105409618;
Add 170866610919533568757057712173994514827277900051685403168142298823405470855699176143765088167952299870211518562143;
Dbl 411222344771615641523033105625783096911546765641452963257699200222606148487934198050553468824201158336451726400119;
Add 218845221068431796021189602180391121528131410742903118358322449567461664636775679045881549578306742687289175714094;
Dbl 322976828456546003390914718196344153803156769065537215769905902491322289958116610441435260029758806565336935156465;
Add 7258855925967749799951813702748658231020711837539037567321477977380230235858829207613665984973747397970072285398;
Dbl 155934155900264721384208450062558592833157788599911746152941813630258864653410970518812473689711773406242405227618;
Dbl 388097600323814446251993209076458000204748176892894690950172247808757511950096370525578288138971086453521986816027;
Add 94572130298315960467377619648055457702595909235800826913832113840154722688130631691298285963012789979765303312930;
Dbl 394194906146189223437833208467018342486070725795313676110880343923002230877525241322297674688282057796747923565210;
Dbl 233187812894235315101144264379502007721900178825497064638616298393753447907109847250895943710201412883381633613253;
Add 257471311417914034451512193269605929511773052158298350306787720963098968184812855415381047486725443234115961623027;
Dbl 278487478485135012641735678825269789547609720049664851896162021657529915041485091739252016514834727768917152691988;
Dbl 385202010124613315597385049393364090443040069812518297669775748759688947888396461117806963747212440776887439407259;
Add 172281146990523282812378171676573852156508512609142596805479207505290991960358966625699750943957100292287334469141;
Dbl 99381845559113545505436475404014455578711289949548708921276574481249056712352580203496108523873905343175972702545;
Dbl 207957814960440698763485897280276581342375097597006726896428113607630648302064046426297907821659907350932789758023;
Add 220500923705845710906541463724312076847367881292904084184821952236307572004813721112029298415223183509840927912323;
Dbl 333007608045623036579557196228328102489004527360088737967950851976553214646622590191378333492278993975544077666209;
Add 334964943369616682107970613781735130905060400597654685537172434580641394741664223601893914488944128934439152372978;
Dbl 228506997470277947430469921086113775618750831438333686210930870801834894731309290053334148855466135974389016706915;
Dbl 30438063021950937031777366601968704090728861331548645517998838238981841927458024500943292588250202970217507197297;
Dbl 340169006301579701975750922868522914858980170239049626746950510913479422937228856227372035927207120341237297061564;
Add 308142841119751119757654338009657874030477985252916804039875553677757235942771673461904994829121871903751679347530;
Dbl 37924867978043177257936751669043535047978903168110507941438722374902637759460836760061692704538456074931794338833;
Add 172806256694293690644071836417704280923468752701439654160975838453527168889371640932943179657412548542121592027961;
Dbl 361170940562122028401627901036267118519193199518221215123844865907203563493003097714427811934250119336463867271817;
Dbl 27128507710795185640005469677591425556001126771260388347800494759859780853869294691813324983404713460528126042407;
Dbl 417904002589117742357753599951639190522681544920379316741697681830853427764394331930674196073548215355810644137101;
Add 16652400422737912173345781129365477873439271747021106200437681707161844753130821638415904732678897176606800093791;
Dbl 147891028839535943876210451837045530564126679384174098593948428700773392634967130396061600371110087561229630781587;
Dbl 258370374736043376736375211665865841973656094707797668080813721894762026415913398112719170139334790579633407050762;
Add 285386739022623864260899312915988710255631591798016836786455293736518622298433222693414574664282990900734097646310;
Dbl 238077207704331392366703319092752260889642385891488519036378830626813457332670768557855126012390011767014244776930;
Add 36233243114036855514733237436423451065929706063760732755378341795922305296310400220072986694769498884327262309561;
Dbl 79387295732115445879622903091368085563532903745632806959749463635288737427088767511365335882348696559951817539602;
Add 178305138952602350502169025709483522697073805857720777992372355149173284021424402747641387463565858071036388305776;
Dbl 236088428049966348862404660010137004683446317717719416327850886679547220377482214472213741090205036938008626973850;
Dbl 381854922674688143557953153760858610870344506916059368462929861693754259147277800145458325307814304684787121240096;
Add 307974957018295991805934194194530398335009891976748794102081454010671523707186455856835922597292582820414052117012;
Dbl 304160673868449262395841704598313087376884563988313469165751546055409941780929485385913173527478331967093865800313;
Dbl 206195526041637643825593055544168652224463230120298400344325581237828303363035133806619492156483181677260209635563;
Dbl 192503885614681972577655152365099301937263544180485911080757779835433890909143796821128102253262809168760699088012;
Dbl 386074587270794660680706297211482861802371020604484276096861832836106410910218094325185264972376929903749565737294;
Dbl 141081568428594953746118996461156398677803886109649452535065426498855159117601826278091038653024898912474049288399;
Add 155855297408797619028652006910362643071615928753522178115182361180447088155712704912310111361885900303377258231913;
Dbl 295208596270405785536607013095939589921283684043744741872396806159724696333012095069265356609422379089955062873160;
Dbl 249652626360845868615135450975293893715643447860644948520787740503189476893226155673967259136477632212620571558007;
Dbl 362534463553442012992246086618904543364349413204648075777364651817360584011533642842800494337154061403705935699606;
Add 97865660203468201601390140258561199106443915855969292000540759855357172026431475758841432387282523402298148498766;
Dbl 396498106563166027778056144243349381130923313821003214063032860684266871521201469248147899733936464175475218868680;
Dbl 311721683438712573375676248576024362349706750880871993590005203228794833817678336015973821576791071375271148932710;
Dbl 175687006061095909492507583515262965509809296295303445698916713450863260611092970731622350108799310923513393683524;
Add 105326873831287024609053773905422293341599583819006456110446733505961789425726491842033696926437482301937217283683;
Dbl 128142911010494910882301519832398810216454811313233088984965074168939762938386409014265939245955361988426488132204;
Dbl 98433158550312976916445404973831247497391540732819484942193282327239485790663455683132951744855003364407954557004;
Add 206086862374653873295844903825706051443420264505284036368990875896195001489397000880357987243896275728454512684407;
Dbl 32347910276392703320904678866584262893642832812099922830755299154231540165823818930835793786649134904789096964871;
Add 152869821734673672258297749753872383842978256118780181629455728339587896258472250982088636110331539361772144952376;
Dbl 43405371132220765107760491401652730141132407928630610425280500174236756586557526811935904535640293755015357072301;
Dbl 222107056400772188156966517020286326608844333721521366159557955090625381203249529732740955234750962829439264092584;
Add 69831047630970394666145604126101871876869750454379882481969604324113409922033863900226098028099019492089400181901;
Dbl 128784927421374591091736516138354647595672589611785064427884172565570297560122660474456506497168776096610625390464;
Dbl 201459213134585226866121612722723919480436300253272957974731319988550167844696271384228863694035687266836545882166;
Dbl 65897309183340420233458591616184117658291338980688496437694442308185337199845352424803511318410716794408948955808;
Add 294116914278704722970550541515301823439118060836527465678618228178487059613696689072365834255911511377226304371275;
Dbl 174911222526440951849150489669303183532830473732278997286649973346051419998554111278082113314252787006787785381987;
Dbl 298283917212839781728960198751053689116189107923362336952353395193090078400525917806821697172674324268954805079849;
Dbl 23839028905206267701394337528929863989788691493584527240382425768957526192982778849916215307155497548052357044319;
Add 316578786509440415378512724667766736399107886021529504073823496423549648181390294587255123929582837993603211571691;
Dbl 400607903743217940082047387967091759754300732447978133377091372945721773510989346645745981041612291241680630726116;
Add 237411394053677236889069988015371110652546889832825512037311751078719893632681207345548911344327792160707442132230;
Dbl 298485123867010597778138400658006396079101317090478369002319932710337801497900937909038620955358858169026000325968;
Dbl 6623690153019874698851584285172464441788357589886439171847724036435049238985907709229897742821825552180107485920;
Add 225614356018906129419457876133116373543682502446661651204156353135463703367849624825145610460695932152388635065543;
Dbl 392674295676230560666944228050873910216641400850473394213006162314038528202346296488130237880722367573798979561172;
Dbl 242014741525404667693552681298489184350063925850492663533502279735154421439402163279642132178158437196564678308104;
Add 212739020060288364246801020685963757412146974784684033112130138123518564121278946725780385659949486464312721548002;
Dbl 122352444667216818094569014707859788615397070902940723220660154696218058716327869850612968115235520696346478973774;
Dbl 97494866046341133560246888846366086837238784443469063713366237306364885716429224068670644928148746688134573559205;
Add 273483757217270742837898521974682000453592289643679773183586551810541500288806758425575492841253577612499139217665;
Dbl 243739542928652344609387437379017562049887926136580639182195458167258026127941327746709566185222304695898342381928;
Add 11237163253726475653184337785065309746930063762479981503799093595268870759183679594445571724828022271491540496417;
Dbl 92851501769790119243781353139963029837254277753795713552585206361215533648571663963401414026957692051268368116277;
Add 394451445232422248208739581555996154072721999802889653721442117677880442076161622208588841474799762392175423662313;
Dbl 47734624532930662357977103410489606162689015203281720946668339216481249831480549234945088976028833925563455756724;
Add 54974809474742380906980968429538255022042270821895519302361299660097995378108164658805168167749177377070765473257;
Dbl 193825194369773479060710972490774656463752938979431400126471626991697725300831751376143798184952686777708482591762;
Dbl 102774474803742164962715397914966757378163547758783134877024595692040021391753245857389668163946737762379771510198;
Add 356662845597782956708621720680539807139840289816281098121703895819617056373268033869047491857726930572375469543218;
Dbl 97296557662818180156893122768338307131139200866798750594207511240251575901150329632919850361356374062559542183694;
Dbl 216061125707986473519046397248671861297118002205887449035183543647661490461992163905935307482207763995993340506921;
Dbl 398447195160393349919886706442504275352361264760875049532261889801884906516759685350882048152970718697501728089018;
Dbl 196739574374714801529761253557851416228403047720013767426591722171775440330258801895180196324253563002358338549254;
Add 362682599917312116722810831707267161341939086625752287144933979527267776884819650860096108981256180950647251639117;
Dbl 272497542915166620831375306292806369684880659517082725240432898831230079961850767484099249345424746780994826288804;
Add 168152342966104810104243865064463844304950415062641406394613168234839188522717741440285727183239723262279744504767;
Dbl 385814914073846899690568923910505950845248385853776646903580928856849738614116898519606687785202335729048664895841;
Add 412137937041412292421950827330216635472964541134470982815498941847062683996820938974529924266930434131518035694621;
Dbl 73473575659471880381024671998678259026701864852260990553698597833067592573144958559265750999171172660943928553575;
Dbl 291502113157238443425804161465487884766543938760131749398871493945365813021678486745519447046804666489127126423333;
Dbl 12320170274727843289196862294647122845239566745545614324090176348752512934907078488823611474458817800350702645512;
Dbl 182603973823263073484190946500095215820188202538486690457394564733966338448190969269810289662763900129581993542380;
Add 57629004774778220777237954988851364579562246133578237785922650366080794358234618397078107330029755749497736061967;
Dbl 227185988451283843324165132962175760557432780732345729830650291763666528995037663363804314269350614748047378840993;
Dbl 97807907946747391953593169605867181928000776045417851517639701355809239050881369473521841723024846213315805122722;
Add 40055726850479066684785764525647030693013775268713414801343591195995456116183187317026850254196847328059977384178;
Dbl 30086080800182016581601088494160784329397370154374660008074596011306481502573199329445449443664651933318855623996;
Add 15107801823570265868920290409972239580688783881258497110743071816600890265854503182981836976927767093163249104087;
Dbl 315892161597991192297682016004294507604693457696942386973205394215970663677192518580665936310875039887054849335025;
Dbl 311709271523880674206970401647715837357854706839785974863829786056535587994426377709893564995518488473554994188536;
Add 138244239018652237614354379338706815984850612673534576664089361896209660626285290210588182970451466788817076819742;
Dbl 30175259003999070920591257243889951154365065216341168613644186962478449981157220378203193804732624970545641952505;
Add 90695986413385820993915720117719267408254333192262046626431494892522043027349711706995794559539278538868250712199;
Dbl 249079179005216380817421895155463252347907556209154905037482376000656909300394872221982607791882616594566679910941;
Dbl 186744417809656302813131308149714263237061616870290871844103581879978184123868210771886979814037603992706333870449;
Add 363633015078787404019230301511791131798892986370758762461996974301881994834146951786665486680782936319527888691849;
Dbl 387948778855840149743345575355613421146780622542993956970659458468067419727449308737748604008305518027677611834510;
Dbl 410788828416145000100099045348162322522396856556371446458358419845783454151783482195001807440091898252294131501344;
Dbl 375183952479749313619471273959056610635336870282529472632174064178701703638996750850543076179552880079350551121984;
Add 223479514902756886159348530472272008369879292586472050078378197670877230880474287862987383087695317374604730460769;
Dbl 14390818768780773367676314022003419753460392890654189453691118808772062031690692265653541895821325606302348209168;
Dbl 264894023300554882613104471369244060213952176689632275454544450576930789759241518806655904231967525511853703571661;
Dbl 167593497437014851554053010019880141219230394744664888158953222624533773130866252371867709072148416404747964491209;
Dbl 404065989437684566472787905019727080241387316378757354232614611755690474316734195109486189954391544168832695154142;
Dbl 348626669433081690543563883548476316505997832949755304097879915134711722317789146610244842283831612096551682914932;
Dbl 229121385496246179561772969662473239999996884109445244079593820806533013218339260652994181265578353364487531275315;
Dbl 220610386829818679618415719116547781291675755097281349706306171472393197485601748340912069719354036169871116815490;
Dbl 130797081648137685019272805738100902757981294951028046242235408139401066677537296191421052050208279881351429210757;
Add 203047932609023852785140197945193877044179191301572502575591013643201161318486003317082415165811965714894008525723;
Dbl 203593960003943028601022801377659635327382239833080988982325488174560657978740459719389806537963983696419476737872;
Add 338328310495242850742302204785076414740425832682854265351066961938995224226122752995903517775650967626652635990257;
Dbl 38748481260079316357424704665541371549178707607964917757927935925226516201926430415291830265688656471760477507867;
Dbl 170310541683354451501104272153833178044539742874903089446284567603424933695999792847546448163285691497056319772730;
Dbl 287842831368886526560642095956140203795060630116541590689200161955200126435969333130784048365974395018139386694246;
Dbl 352615243332485729409368516003407710307794178591823891063298351600119202943909309322214464367455866625094148161829;
Add 85781924707266560701349764519735274296238668189520114018883700043356756700413432809563614224736810238071896187709;
Dbl 86075387312544523170711382005501394542335468482520012103523157813293590057368725548383097811607806568153292304268;
Add 74452077957605559896620814707503494820164781700473279910021954275769266604566350528902436717862079768586724768390;
Dbl 30452274890389263348800661295051633641475944357761737713133665558652160245139751872095915000643637280430388946977;
Add 351970632942161074881374092159702042685263264089183661664767186200065329666943607772418540227565019790808094510270;
Dbl 78353901888663455125659511784977229858582887074908990055770462185852724600593219804893285206507636619043826808672;
Dbl 138797507011093961333937510543941189937884892080892395925862664738180029051233796506075721079877179164135799812588;
Dbl 76739109915440249422045488104523668184374466965742427316235825160165653406609619395850769351560431882943771581097;
Add 37768683127305478912899680229320080564227659340149385773204924410260313774703224333418489977564738591143667957533;
Dbl 71150692426583942990518372382138062051753588760932171986288136684990391652776537105005393994690680881937896259666;
Dbl 81719722178982085879944015523847578277194725680686891388855124028766018983440572089610902545855737121456686232686;
Dbl 54403673545450240275231241917630898169797303485172251561112634995156142540117619355094558648246726623452484069526;
Dbl 240450697034116075002112212851262330188774032709468451963896910290193361262686514454476500163478353440127475034040;
Add 229102865991353407990700040005474992375608915749582205908502105743129720524983530723369971017635507953444682187883;
Dbl 83199426893243754720715164508006926224188604679469678737736518902990411239684069578733961206115875209944865714562;
Dbl 374853368280938594908403455455974621503932407707337736206356638053265915505624531195884069444560162216531383185810;
Dbl 115272783149693271929132991541250361811312269377634066592523650781530645820103076941724659337813892293804309877489;
Add 258730347576945607077955357666490318365447601853280898981636039071335132724946884401622868486412831254671502091362;
Dbl 242640934940637362768690958460117720749442592798469357743101466569280052041848208684497105045264949493072241532541;
Add 47790874103666423062288898315316162341031228422297265667010078952339215216878883087583043373086976500779477278718;
Dbl 106763173371492804470988415765608123129425383748693181223376705861526422511640776819969812513772357500402088002085;
Add 45449535096888147299406118487387743101200144850879858830724296131912368262668581796902409337465168737777146402859;
Dbl 92483884117479923318732829508069233909634501041672793199321525343294911280886998031532279590309919127573005931648;
Add 130609348526036434878995847564687295094708796741350013518453833330968484758967888581449736431041454623605939754738;
Dbl 370344611632261485200864091635787654743151662451136536006221839274969333832846082284894668461575610049723533238369;
Add 102755279177417315575384363586745192033241633114638080064713874400288879851867587933112885710600121663467067578259;
Dbl 317735560407034126586572624915172734686691082665519751676387827501890121619158753804032453788257822416998003719307;
Dbl 379944873107066796129212022743031913305954307805794606004410596890224053482892936718854527221672439493007055724079;
Add 161221893758490605723640469180311105181040318560402599796576883776663459855163429301010238577916748863789942052952;
Dbl 304072311112066201829695705258211460775270693324015350661116052360798932398451623664342362523331253386558320158241;
Dbl 122850255548633689426448474485206409669569769307983441797488220029469024647001708529520628105050406576474537016001;
Dbl 212404247330974969673720098220089936777792468679308283879063013546535535297229013491708682784449671144282625105421;
Dbl 104895698488282324889515423671858588603652161682848671550559932215280851977493213861415647969210031536401710844980;
Add 246506473297853994220915657303036179144946968714689153673451450451696043640017390724848114973274223338134613903916;
Dbl 295174816008652272687077100336027006238392998753360196096902683407433534251067962473891390663759876593182788332403;
Add 78103637529654532373871145158728840845137042774370369232871685348459483545698476980185661031822286098556617475199;
Dbl 273308152223926737032655919687831428069068133485799377334657305257973470450791299128281937455392585045800785814840;
Add 201901731214326056527626871315909173573296878148807526279548131920207729651359019284681613754839414730775417691162;
Dbl 267842361327115804525496678027378797832666547515580559032313703685151006836030926555962584634531721977351112622817;
Dbl 317101143000555131584096192717327129440135538524901957587862084157257565689479866198999473704759940037539947631722;
Dbl 388343670053361177423891988596580497102318503611000744276191077190781741015028883187559397628413534783799633162059;
Dbl 81093864965492473882584189054937332053756695034220455531869091948333356348075057313080200903515532007627455460218;
Dbl 328090146570688959471598753869963973518147675991567408979724450525960190253074676617340849992028206915329372642550;
Add 339587895738692373461517688476596268495258727861481506707737224043559269460365823981233009682377932613053461795055;
Dbl 45114025386121295033084536430261150050040472492409802999257278882603244970680565369946129096246738336224442363604]%bigZ.
Lemma checked_prime_378_124c7ea4f9 : check_curve 420426262271451487994927477411117644412503441373322668170267384818812032370540956528975568812959336884879308530937%bigZ 227808334302178435723468593326448518589627306302212955827512066406708921737063685620236443369166746007941459631431%bigZ 187851750300741844142945585371275979313539755124847169878293765227826721552682875468761028362894791436795441486471%bigZ 175945272756875886205379289093554888142727926021184481886829441438450533750385279665543892333589031579323857633841%bigZ 226247533013359816549647131748702094482126498714268513321617783543122569314784745154726742135895856933092939311426%bigZ 162677848449959467501787614203381863040238165135389757303078488663207852790299066453904162677973782010569869390147%bigZ 4247472184312564157113439071307194296263815545906608646270351173493095694583856108687939602993603 steps_prime_378_124c7ea4f9 128330850504384930724805727911314498479225941397448183325662629345063874670599781606120193764389555473598138953857%bigZ = true.
Proof. vm_cast_no_check (eq_refl true). Qed.
Lemma prime_378_124c7ea4f9 : prime 420426262271451487994927477411117644412503441373322668170267384818812032370540956528975568812959336884879308530937.
Proof.
  assert (E : zv 420426262271451487994927477411117644412503441373322668170267384818812032370540956528975568812959336884879308530937%bigZ = 420426262271451487994927477411117644412503441373322668170267384818812032370540956528975568812959336884879308530937) by (vm_cast_no_check (eq_refl 420426262271451487994927477411117644412503441373322668170267384818812032370540956528975568812959336884879308530937)). rewrite <- E.
  apply (prime_by_order _ _ _ _ _ _ _ _ _ checked_prime_378_124c7ea4f9); rewrite ?E; [reflexivity | reflexivity | exact prime_321_c7227d1c3 | reflexivity | reflexivity].
Qed.

Definition steps_prime_510_ef47f023ed : list step := [
Dbl 440248695250403690251360720920661952390400909720725854276313564178560111350812446636543824856037735540511750360344341990842766189215745230512384713742193;
Dbl 3076001614286357434108788870699945614002808767781274023995451201433694177541375801497910800724616711938274825364287031288787593063979065540975644623745571;
Add 1097748392508181131936277465117755778858101657172139359652740063454722297078102791089477741517611446708447683613623770418166032192134508486778059705947976;
Dbl 1305741138764149352058104394383349667754806626942246316728036853127207321135596127619895735079239095533515083607102696680541918414646806692121601150655451;
Dbl 3243459043057426892140082890084310297804304455365682147118683577720352663801200324847817610991321529895049499777355412024196779821552413049680841710609195;
Add 903058506276843038488843989443243122471091138554302123857215344531996344675783619431146253788746058335072158219158994980586360788007881890835804711545973;
Dbl 955431282619293695549407790762231418275439406683961472616830708087291942329716442532489063883321189271775972953189429677921080936577391481096597148958101;
Add 3300683372152093379953696872809103372638616942065657378631691719121636286851191968525224000710119432192902221994391549561993786059315925825383215310591011;
Dbl 2140897174630679138362884829639463966075564985071588305467997809025479620126890493413739286382474597109191064558765473509759103527169084933287522685781163;
Add 2376425840921924574179817384565966743983231350224782501721245976096492156299629509169261109118589693935673229357163581988316194054647135954905645481358644;
Dbl 1927034678685710755829304095276263458441560031081314953092684277405303430921059873363066522911841126762205011593012075993058766397403648782856958374880952;
Dbl 1381466552377736310563600562121293034631428690663196712931128767149837085825575443245484275817275420161193210667851904467399551058968317493696388352541710;
Add 2466225015111221186056033084527511641937959763896707254696791887177530636295772890720708014916260069003631078141981806298203778452010158755674696531995172;
Dbl 1542513291873010084962285859401985909017540936660677345114044195938662686074387553327725882078634316077634799282202953464541512640201605936520536551365536;
Add 1450233434228743742343377739519180560528598135434639594840838166008278120001861377791394580725962107240787435889418042167260035465529474778322449947801619;
Dbl 2393932316415558315512844616941118311422939314188029785504172945691170044784276431122077437887816929424466032232804035805243264290181125289720497313770173;
Dbl 757029545364162900852276166900275297766243178549563343750971435984980742496248492199976570259133903639244468865260757488187204405456726152083253843145888;
Add 1547674620245537358004030258110123308196565621637270600103166767466246118666915295693922369898624875637664172017717656744067873211056636928476825902586792;
Dbl 214471763236298743725059281398940519590322798773085366065384868336457869590496873119515929400374364403643175388700075782246109343363561045843092809425307;
Dbl 3135746146382552093293429030566202169080068476119697795593299763590521455179368894848858611270648210975348614538364453598467341558826456409587625240551029;
Dbl 3163847835538609580947492217905045322921262468052871119264562281464252838980814615982575588315031561793441763551578221981650338402292409516146586315393675;
Dbl 318744896384677858536273194280290774026164976967545647426812938853818781491049165685361736267944784066991901443928125015930326360680721792949479606020279;
Add 1406601470150297293950776861354683240252679807018064808994372768581448138792734587228917249435120664051390469870612496998402332598799560249774613222262129;
Dbl 2102320977559656799397325319130656885207166290494094539626677032219091394340669431354975703759507803675398029816216055487031325563126972699699954789941997;
Add 2234868064101311528521754766069715327571129477697077380841679849676126535397320102588719374198042031993703311237534886325531669275287183198508765211202542;
Dbl 892814249052758991030807620527611247713980532508784273597614848231641449599207856865001665625488803311121072924840991651663158857669847160382501100976092;
Add 3286302672541335838306566145918335699462999987566139596983799179911383185150182102479329386995937564435041543188123241685655882634293976596676076042062959;
Dbl 666657692385315174289877696487416664568410449537622465459948070783054319341151426533312196955069340106298972465606504932030966325753038898984977196095759;
Add 348824481009666714448105247542317755225803745062315825184446063220392323494941330926948306165472120275009764038237504612548004887670771273073076654956847;
Dbl 436102352432612516939632012891889543685917950363218049259419042829504265208208359678102496654115868533726906494889124444734370299757892862086879704135169;
Add 900331689864756352556892652179052676262367403814138481309295066571889142805021619132348876461712203851987263618723611618521136332113708996116666317851774;
Dbl 387779365088431737237638800869751397179919046965997340169222274736086977270524071993385672483525848217534198374648878999987580784178139596582922808911053;
Dbl 1420626617485918515526697952004171520039418844298633151172037132556903082563139071082484339057716567024163071906625816651709319299145470700520477029764734;
Add 3231356667804010113688149588964031767303860177830319939666036418721206058521981234763189994499062914812332636321756919659422227736142379069268938045224721;
Dbl 2422622119960277373700534383160223216560534790073901745875233128652884686734824586747515781530588083937142300752883690637622650561784026752347724584523631;
Dbl 203233206675142595753754022775315195458767354089890089747203655326279152950577994059280856598674529787543527891061058510747511286426313352139018992577269;
Dbl 1271679575400682046051532396494132545055268309101750441814225122534576603103651817883175175633997034367794093692065970000648123398042675416559760794679306;
Dbl 659476469443575747488812280545148085565567950507740616224667398950046511314775685063895644261986930285671803813979001152528823116074469399027388929968000;
Dbl 1046453341508112955214868866367233089770617927768616960598894603362976470665270933207609091575629283446938930973711563376570506665079179356757581147444991;
Dbl 1040641428354279503093719977305427850096471401077344294499533849572922131870844100521016426762026750947791465951076624064931816392874204552966690841008766;
Add 2301682930974192645460776731368595584652680988417685305877600674411474704692960478996582896928541802397666492206737469179311506642950589694209254794565141;
Dbl 3282893423676969314054553863010408975162469361902978185843804534741955157385331563712887224795571321914293499737593095351167546249642430288967710974838655;
Add 1910149060526310096444915025787544295984952438398153794936644309421731342175254725436521834805613497616249658609410706262480592744270439689074204818627847;
Dbl 1095450894086151177836257505347022145674764240428063154723781017872158525838552627156692176601755320909229058729036881095349683657168474431598077280037270;
Dbl 1466210126280480668428205508403489078632927258982314905719943480064509994406688469000718851556815298381560428100869666065550056366358915376258099157898292;
Dbl 1265248339026683266578624689804488882778924462329577958439561761037187416812933761297350936382306665698393190102016960300624543988416586378523491892021950;
Add 124218387578474279495016904591533890088991197731130865105628917473376827701599101977820153955155368771604196111498957839085157874469214815622991205378010;
Dbl 1178131085658859565841457427068310899525514238246677059829647743636178234377757612743800035306797669329318693955032148420001880065462242545300859380405813;
Dbl 3348636153918668235544478674585978939252181901514924742815462121056462412251282235298597002964776608782178775037276063202657458613926762819267985422378426;
Add 2434269383443816135504046899448842430615478649643704509126530804849973647424421156241020392373891514883642085291469780682502324792159029049681152182313811;
Dbl 1312767871239834597550270204235392028612239828408852231482137566138524153013444456125700109656473782804978106704210536602826600346729814082707237881400734;
Dbl 598422709330014051632181940225127911751924938764619619687764137745404855132666932973608368693674064944299800073194163423274980809893831323206532741484802;
Dbl 827643666457263542412706231602024757459475897860255577824837942341007608448861102008097353314109903470763374841742437623965722387374162646255838333275334;
Add 3190547548825782624526724177275496161535167166093703285860994189257001980698623312966787561067399450434320023491906202951734990877225101622376958816405346;
Dbl 1426803461087193983363011181546466765344205784482232182404585796355639172652498462149651528570611141834326556706799442967116885957354056948586877049009004;
Dbl 1049404787556241384272200173744900737689195955967798483258880987189561892696806322573897723924512651853247089885980177221306133241532765924554143327668159;
Add 2582517394792780282093991776815662159718660021417971889350527767685859939243367799082331699134113422776653692921844000408767877204227090522460505769811744;
Dbl 1381332580553362306590763590096504017365650491685648830484189668567619090642362959276526527803888356504544622775384493074935245036241611017578948268037769;
Dbl 2331599019637451289695287465037970350781833436306815597451115286990091932047662393255950264244056817996417982740115812146108071248573520935954851099424801;
Add 1876815175808075953453008532216793898056222013800819602119412874846213283203100792678978490861605835597262538811871872720604598918373430754265886840809602;
Dbl 2097678474927619022918249154546124199199101861544173192691773033677538979632022280244032050187192602899611339015878602943835762225514346794581076622082745;
Dbl 1402069323425040316941870665614242735845591047777438946558341495298402186671783155274670166785283533378066689063063529856238383284378631328054823942176031;
Dbl 2514118677433068720423216618843796785655213345308282269156529822033010159505974825265951208013317261390783085352530071357883698015262241011553334669571985;
Add 478686745675330414128923364308163551177695842457269002655763321607096721411167248882591142889363932796114848110450948388395410846679728195945430575279526;
Dbl 2666151666586833601477801429831895805146933080937009755121080597289918484938859029121177495855524799728835395386800397350608892772183824884383663705018237;
Dbl 253270727746784278081132227943652131451705646853816023120899873393978368252500605555465629479684987606048876538722155759431083173415609433891306881173542;
Dbl 2146356203226829639270663049995368877225133163086451018868937210682620573218750649607502152146485063533628695910153708094035678478311162653438380089413760;
Dbl 332905903523887487901584254183371645606366967398766964679861403941856006144544686072683459294588012278097449226955198108494569837460852075542318780916175;
Add 2599818162502372637624583634562696747777996721794020641318849696544606821217221866652039864023375458195311199356105153644953312491358459386011554628071489;
Dbl 1186141290788164436676623164350384332829294406855969471326243396461366156224405949366904855747340371517261929807693958584391899434092892171039565810409211;
Add 1532096824956645803255005782057789601688749826522489945467084779988140109466450560550222873532646310833576061927208684601999017565390988414156076510230642;
Dbl 2699760554352363794527820843700503249158606073883476694916545712196896046481544794390164528992793261271255333536165418538944096193494132501099299058812358;
Dbl 1826151429316183307751253459738271809195649476320446562617189508923121425048495712560897781367767238451847802845420429193955239855588069296976670326682823;
Dbl 2658761966406282354345195668515528137041764974777933504370969187222917857016900367139340267863390041627170355795549543827238205705802409911745566913204264;
Dbl 451014825958894794157750149536644531183275159433600637302307854800103821202784014187128433520443169228135113164063184883101357005682452055808912471099917;
Add 1562934373769712791093519191631757859399629829307691057432850040106375776961731267756377795324915258112306626632905087985111308104196639735577395661774796;
Dbl 379399361219450563164999266459893822304736097682158471501554458347990465923650359855916887512100254479715743374481520056383967728563258974778468203569598;
Add 249399318293426891521895128371215782058029954537993459409635264035186444331715236026295010683680094077369620665277726847092459302830140051329206707837780;
Dbl 1098037332717658119375652942127045976808774549859595878252002910338592700586362017861750805374283507715441440645633686386627283719735532540014909275635472;
Dbl 793018452953786922233832148945262069528693274215205213695145653392560177052130570947399281404249499000574772286069844402117587201385956125282600466351960;
Add 1999967602839130654221740183429978428626150142130890952697284109296273329238799554245247481333518467443544542015701376856136891777429920501241323114641031;
Dbl 553775419122446479059642227216518001883891146902130312510073438867766724641958559273797444105858546335132102632828677685247510317979557585113411390102452;
Add 1066281540230580303530834860901603866461705054878480994296719048506969163007041041556108458882759949259565010847989894595609703206770395936766901206705073;
Dbl 3170978581554965195690083823378324410597798109066976553911660962499557325000186353083542179355688350000963058426957494109585211955123444582442247584628060;
Add 2083453319637141506820271185906974305834119845072013403342572753469085184375349183288805589177732568644873100339167623222995846670747123249735738865697340;
Dbl 2267344583454227055460498739760577920170357713756117660949065937677040573123097163502201990109841826857248635473173340904838315587254910240447520806048492;
Add 2203078492765074463166322342565850073098974386385236012464492447041064122602484758531204755418551483464376909272560015421609351871800585916950927583226639;
Dbl 1086762634831796688109408282274686190965297167790885140117265119427822071166417589222857239087102518865376300411699906892978728631023603502960910806345213;
Dbl 504523519034863324134342535477296280985949318242518706706542444810581674227591148379787464947278284859080863321619944086533673167693686690858419119191300;
Dbl 2546860455275781943886434069085531390950318462742767239687469199855248088024914241123765761051861304467079405749770175878208404673381340001705125827119464;
Add 2214031253751028247598978522595793888912765696965683873335724966008373056041300079687629932197470778895154042742990947949759446530604836067075790248764242;
Dbl 1187214415043086486058236051706516555333668087120691637601857576442491922319961648972834800214798769529092330890976973068997457462775882155581388783601978;
Add 1956767025373854457656767520090193454656835156535195807949961242734206760209159264785709585041030201844769508337946989875371030112294918476419502679408183;
Dbl 3119923700260877976174929720386702405851129582556256134819995533935842026305211541454950910233900209576111869208519551921454381888528398899128235747770417;
Dbl 400953858101351106731865492149237058728918874399928658422485892556947571953086094365592652857655925873318784050282305494022010694842359328425346064803793;
Add 154859141104002636872921278270047708849188790513565284840875445740440051509390809086977910060950664966164349574213957235958142536182785739890401875850701;
Dbl 1517724678582289921014560392882857521278006417917461150170312403198851758361312718581475311070026749794677510045536102072721875631010210808474472057142502;
Dbl 1473962044653454724048005493882725711362670243755310575720036403589085166179249348007921854689873361678260510373962090553789360100999454324795460465842343;
Add 404673987204494766272329752728817433086507213370626944943685121988102820165484384961797409504813934516583112694240657619477245260382928190154935194298223;
Dbl 2066026484724995272508328044597890136472870015872986037915456234414813688122446142314520403700715732232868280049433747339864004817091675868664175291347172;
Dbl 760551243172229782940040507825644542866909562908768969813739592178723997674714218322220079943780742874387312012598291931247698467907192761993331548272592;
Add 1891710692308436956288883496638653537167003446177027597462426994227549170043260892556318606967988792692158422326780926680185614389447257888086819812762762;
Dbl 466797524441963191653198319128091982383818543563580707124005904861685225830184542910609801288102092751986771697167347357534188817842898578149567676854935;
Dbl 404755273099273747292487677222522769382550981704920258478140823917298273632038921979371695669497910646388414043703318890220279302999229670233167632938518;
Dbl 462616599860178496403270508574445077665810850889949759239698443451429673950579339656514265848790433751823617900287420312460866142471548768738589422587559;
Add 3258795266715186893095598541902501217267765215244018592199465821206863321296155592365107715699532918921497566251671920534716725245695932968023975165251628;
Dbl 172808174197563712042853820186623744981419490941300995385098161335921454111535287862282959845072543337340708162881237179344373533943512778398128814835867;
Dbl 1607040969226266130349292624973742834808705116614963968671480818151144432278066435997286187030832523640195484298501837750586791464825961020301612683735559;
Dbl 452112790378450616283481068663716049967374823426159798180032863740559303577706594411315486742582882988186696982276935918829060621822162702613434243494692;
Dbl 2265046861037759729757762654982876806695947282206140008724076345371140156441397648384995997186998673103566904826141552721407177458360948744162868172705368;
Dbl 1121641732592133180830055784290578482916356923803661282758728444150407605054611599120120535513188594672847661413683023463678240794715689269359271462255454;
Dbl 2599210087020445352742554018571638412378822498240707041890273101589228976985702099072005154588287773261959183286919473184678884683330040682652179653059862;
Dbl 471854265575223535717573700622966721634001986057763454901076333126334640969412508744818402968969869151708085332961234263040268208781359008506104433552264;
Dbl 3112902068732693647190849897876163002401131984991182584168862300502771527179362903143890801856491044867097296179660418330009537929318575408404970741064898;
Add 1381369876205666250058778850023396826361058616214631421870616979841821609372193828757262835211570302417081097427940008568889663514101779041959295470241083;
Dbl 2285519390141130887410500778058432974323256047373349045121200605435653319251486238246792837891000389747639891252237464541070329987708939978133702880793125;
Dbl 2715258604799614285577535780330551120249977040977586330862905205979222878253951647514739821390439740442863165299652583251827288230909971917278870524115452;
Dbl 1990096600062559848092742795939203767338862002863009579923331358324115631805008994324379763908678348732007107268919674239273192437720509846307783558634811;
Dbl 81024393262690066559462054939550479565699062519915644248338146519743564096741278614478427810520405368692657518632280650366609843405988547841427059656000;
Add 1266703370523783207711428875660270205143451300322002028688303866791447740239937940430952993633713876182161000511375164796056420947591084376274753275523958;
Dbl 2985897496365829297579054339922326286164526367859584124194622533580936586859041453289297615671629229988233098411235771262422994706809631452975947365754453;
Dbl 2832353936159188055280584308670244588899281505007051261684188992197045926208838732526129818724879668082823662231017841561869699685269117874652748477034451;
Dbl 362797301606638350628586183888597100106575801987029659547447661378745279630877386452730327230962737843239841525789379991379454698115727005128037945894236;
Add 918663731315247444867150510473702190565886084884114287341979178981473828760191166041674907362973735419314825785379025633237103100281211336234867645590036;
Dbl 17946402646953333382979607855401565045385917558832591208294267744593974033571906851189006404348395870184109921190753134428198956549801656734289059874014;
Dbl 546311991814915854058439772166100839381818191551899097178422962431078441009413164591103957766587621746255994586928191272175801311223628237223201332149553;
Dbl 1378071567335764758265730480103902013944012403808847104346249067981203130441413548486018173231655529620900139379814765981098404536750616918723384574306744;
Add 1483606709243333109211852273040794554272740038564964791971731168289593910051541011626533374318206678492910597955542541814507059739983476193960572011161431;
Dbl 1985991825446643305784819895293254847711545258294093958552428591858925884493027743670333446487837680636412690795254231280468619041951785941433998623135799;
Dbl 2204576361449783148732219742888494192430673047967887527152647951322304694867168819101042883868637802717569505752595311662615316864341476376656743517184028;
Add 2249337065143621298920131790324532318360409794987832102670466360064489246540928148431544662129187858913946511146877318222425868331975651191464597355384747;
Dbl 407870894523584378436170665070428232208377680101307442534678227612762049978500790025271312311847590627104137955943156590303048013277459186500626596918678;
Add 639881091447290571569259391823626669432912318817130873497439136075976644063205641571175721247975641892910314401575137708561801734842500347773291780109937;
Dbl 2678321028826103004266408085800714585581595847725385038786632766897660071878349113043878042487203546913008651973874804083980869474378401114862678200953512;
Add 2909166373033065978060755097564233068087911353249199078265682751118690871252958074024672781625507502925293009372335734958680217545255771919565544908234833;
Dbl 1865953748550733627262568932620195239941742903490482970728771589293879084187981848143751065347470140955222443543814580174396830570130204220210395266383467;
Add 2575048293558865615098914747142692267004928923196056646582856803718785613976157448901256391458674147045184224581314710713021235781811178514428219558499796;
Dbl 618798463784921843028784630272291005852409859367377351499651304406343864974087509295426761169651434038013284134493919113685825919855135428164471887234359;
Dbl 1356724271684580496192158927961688644463261310991907249321019836994894030312727039118997640493501298074757284735145692010057834893252736870381071159193122;
Add 1775151512146999053071342850807783667594021761601471429381645916907922570687215369060697161900693071413421237189361305546076588250966114310419141360919365;
Dbl 3249646812782181965874942502062045398236159522835269363895265037536780430747305164607598135555967528165649261280671507759107275010743314615607495492856007;
Add 1203463893480511210067237506605908646453191891638349558827174572006821855286404083744587960688160486516417351900770280585996418048474766939503787492078249;
Dbl 1964441684173688368361181804212635572605573976770388677737412415341128903035554243824648523663362754965019654289004696117893430822342708431238069532118021;
Add 750352249087314510798184183159276755690547577915617794716556313724277935169525434972599768229321542495330759570186322093604060087895045463331632932967804;
Dbl 620764906262314837138776609345094382370178650493639896134012894387757375682262991706862383328568444324229288181979214538208358275165761787768467022669813;
Dbl 930149015828374828768334744124071147009509883031599609687758144339729865895451869052181316465376146265050377853116089535637465842044991926748906811357021;
Dbl 2624314176266581352373958921922898523095203487150842623185302472860360391356765257228755793198471351721925029760340757789728116135640011011126205569810442;
Dbl 2292136324061485563329042940823849469317561248004661896236825348964520303529247341839755253757046660043933516109231387947269465182595448076314456756868888;
Dbl 1046745488289300860397805878365652294061362515224477366238114527668639573571801557722255464857091319202347500536832458510339906206831222895435355025620452;
Add 949163722856712039086727525530455248271820024443340230753448820659771761170000935724618486633411599333939768726584471380004717761628678235903576691582600;
Dbl 1329195751615388201416702767825633817888540115846509184385013439914364852511033020008537463338805032105182796769214817476309547760221009938965942471897159;
Dbl 1117309209412872090385160770149007009596527319120206628860379394135033735803526428777145080761817425869138888310470135578762399201317254882175712743210929;
Dbl 216125490550717860946534413059875322716245305518958755437752511357315366093752558830595873646371432194491790385494476317868816744083258836692189956581486;
Add 2309767776467787741939105665264188459050281101559931823547167990485745834013800795120174978010462482760218582907510406218306699746850827038676664588048488;
Dbl 528320445431351918694544409579101339568858807304802306470836787777293561162708868366482914315935170640025117990670207817812174956106942793894655034472871;
Dbl 2114215169036148819559639101831034881045149585284107053630698212589748073435166019234442626857545435988521481684258722613075616196770610962225873994324701;
Dbl 1824155450396862217341388242586926857200046319642825404484488119488268234605951928169816282957321458658564746167124846740804727043661437406906238399234742;
Dbl 1794081583681796976823279820438155895764254735633380147419631041305552199625375580108592628072888751290852731967117273254918437921870579158242739384026960;
Add 1357166232075344504689550612688333313794097330382151581872471406957446419012268785461068308476612862133254268192822538494326321479953339629679244956052737;
Dbl 2206092919977285067473952845557755779996208943961101908904175164154546258998532013089989236191591778502576144317055972724694580733116375164905396094513522;
Dbl 1860256284574811372782531419568113882302582982988057745218848616926254920826586165517624120454608886013682616674289593954492684492355300660584627085805478;
Dbl 2515317877933987362057646969296621613315319098994673431460816875841555622253373748911652485396084324011640459152878681428909102535128624671392420240531571;
Dbl 319024360227852251675540113378260861530311709123924252832163902914912696675524264741528280139548151551474708690196033550240053599903863578030605485317611;
Add 649484233234233983839438648505453603065674871201838233629586258468498286773257148480273663649920793082170541300003854030450938512737487813229494365590421;
Dbl 2598764028979583563428514118617971639924811691466459157415814831762923672297811683015012566944982496640606529740031709000479299845126112612394474861388719;
Add 2135905720456237995542838304861856669833846175163981451097631261456179547615658548527689234922143662183010756730586616481269795800988902396501688216809093;
Dbl 2689611208754158727469520354294239301630712269018440423231997251208127305767687407257101732335311703876099030556311370423708624928652087496573486209773002;
Dbl 2435458966758520423417386771064246828029235784941207401690017519800557542898864509460358581933167755790726160050173729187989022035270513950071218388024700;
Add 3351881443825879171041691925004328359104439005949934866520142976446332962164234471907183581809884642763524419179622045747478411408769765558693100274296256;
Dbl 2163656497009208374797152245904036163745672766736495847175480596321735724913185054692140081037770754808320019814251005476810752881815948524449586168341227;
Dbl 2100288318533707163888270134279719516162201408189530321041852915178744623561398170020742891213659410825250639017311827683660681527914947000593860663013564;
Add 458731865243032017149146547369788108099162613458257162376774432519275717115097963262017419141625139854366792349157094400187074964203376509634974187572539;
Dbl 1048539842107659721248815719652746492730338647932624288196991806638132105402503264505463758170093247804131936294042579312070562516733583888143474714152999;
Add 226470416245354191481864131102102049565566620462096200903359904117382005578990679587302033734304682394197270777363530280872970751313811924347008900943303;
Dbl 3054786418788657882573060500694351489825927254995014637202914300926686435823499302632559392419229511406772694069381607091425515632124241396021683818746284;
Add 156794348876149085567955559957716650434623679830489025699747673627722267951841955362141862996790821526036485177371675544699451820771489906883653758410657;
Dbl 501784941440353947569930631219516045094696819183444486652904078189197044651270141308350958288597919731244771589787136010366600892070779062495741350254214;
Dbl 2951648973667526109236195153448920869303497565445949099720163493979071225733712690561432682918032560238174068899259475450665585156973992457127256872379319;
Add 3110029786030484281510099249419664459445292686140938538141029628470084101528239280323244687844552931049828360096792316778193291483385236346936837783602211;
Dbl 3261358499774874981106897609343057455512244932278385329308445014151844571581628165236654843389318543674317225640743067889302727396194682990703346408529838;
Add 2691365829879281462203603494745468160064446030369453014927877559037556008963044644746194926542503696507299530331287448923818532391525294831861730591519050;
Dbl 2209043473942412240406778608831771068922282132334505310453783793300623918650896021277643406363648553089622599468317157822450217019670211314627601928562809;
Dbl 3075650879635456032692914202833307676008483524477074536026641505903583022865624664883793104824978050524606733276993293645951906441986493826537103358899969;
Add 2472468456089455529144082369572597380297781613409834650713194304573367364857794014243630941740938037376198010821013678688287697494732550721277515721166951;
Dbl 3240925602311949785370990890258285639625408591757266988209704428322542836048318849696779789521578551356162380314411865356416496081444746583941058955061853;
Add 2675486841661946444256251092455959623286674067250040497283196075754757662247199288344655842365733522705171516374492700430207158708459098752628027307556077;
Dbl 1338321155093601239064198203074671566342768320311044213568364935970199370140308843332625957926044967696362919792378482003464652417747449710374544662200071;
Dbl 2053406851950340874389330982142928806810624792841476097158444058361084069165334217841870153033002585725688537270875977007355452100489529899021005497985651;
Dbl 3223312903381701224622496038324365328482940624832378858300431193581702803097942084124886117667414358917408232111012740872398077365368175188601101346098650;
Add 47081021685377712535273099129881240229700787996248421671099450535125953423447846412580184702938637463970711998635006431351728874166627879533466133776450;
Dbl 2745201691867108862972064465710083144260153367104709466659274557465791791912864301854331431780477903256120581770921422936392539479280564523501490433623515;
Dbl 2050891446300817171254130963175420442440627095316082859899844552510912516762879063562023345884778544098660161443199968772839826623209864798962912032082369;
Add 1038325673488093401085975439158811532145504401046538252763290646536017373890457547686705217285689224545639706846255480063931274714514468779313518872706405;
Dbl 1128712657181807572572788570764156030623839579912671643787631263949214802040777991072039181204142092527650003336019395481434080650718045597933701484563970;
Add 2231874073088822075518091586738100122282330235630217468556484708123349196822250711272483503211070016586314071200676521068576295487887467099105394428058328;
Dbl 1007579728399096669517551567573835506795597567802898481938265613857701496208162495449982850018692115374220172762348980879851772786785944795755764270053217;
Add 1970313867155034540059784119584572523117850187052007876311757522041666392727776733082277853524824451470315940855530846157631524025376322710807689459271758;
Dbl 389422502477786964156819341537669693301528192914544864243364720057965662519228869809846062069870053335314457869828210510665561611761895167711778564822209;
Dbl 2297544341257937989642869127854121661501252948987597504651240027767865341633377276850971079247378937101587234144441337563075033982764619010231777998420039;
Dbl 545477652388991695474463899877783859805452055110382545645076900415844878220760660453088815187266381484763185535451158703258081171340809581581923066258420;
Add 1648094067866842615401040898381904043300263483638125712538549659875905610997645218431133408557044753202916994312044969815210687838359763979165934100181198;
Dbl 2126370515369805834100130898927667654178618589298606372903241428529561923719727208738866248946121290815678683658634639747986649504624116083101426990524258;
Add 3345158466517412926646430850796986061370680983341085364280048446310653223515994936725804339350974061057640260166978370828847395596319789246635065156436194;
Dbl 3222958302507514226113864731291156571231871759061065063120888845237705266463577701402660200199449594188936186039626092896612080511196246185538256786742172;
Dbl 1410039661209038704699968496732855393566802067801640090597637640338189583185806189951185277477387540065491073608041746124408306112329009130603559395406610;
Dbl 2589036840661161958999303366051756096841231457086084195462695393526687108932308506234159997356603861881920832448453148249025652360195821345325678065285313;
Dbl 498168227375508130227474699396902770195788936918260964151439225558149139530289159527276861673193787220331581186082151246522162876574501969101251082010035;
Add 2848655112395228686183446468754575934913282141183205577678179516468587267938387293064046725901441052038739280017489747696275668097146642712791379441082873;
Dbl 873529419284828397579148105268780079277445563576910861138257525565279521106018039610229595242060111241070563328057617339252791451311867194186102085790675;
Add 2040454362649436046149884256082779246250274546681363892442016948104424352640899009011737509041396535598094379798904911612893830018895539044819947992555581;
Dbl 2328192223396116368772672738662844097600832165624657605186026959851781007297246614382583479256536168257074131398542720035712594226631286142493409550737465;
Add 3229665083842673880748624826870567729425667228929567953671508688741326451827738358990851775246646098267940867353904442745674670266532360655882204763062724;
Dbl 1627342104584182843856404028161383424026894133616682360044840355214891668866207754249609344677334322017166306144298945482903022092742910434752994947162380;
Dbl 3106523342167367557348111413348224187187145279610243046476750370433202440422527254945307373124499511328032777747995694420868817534522502105938819382505545;
Add 2747838764357630664177349930680348382225745249536050289133774932615489121831449928461391896477976145528192052728481240642997602545255990436471579276875832;
Dbl 64505886212416188497398394636471834041886138771110135922920032800123185197433498630671258902953663650886630670024320431320691691211218042179343356098302;
Dbl 121897988112761661282155813833201028128937870756811726762594013091908190639924871217777766973095175992300557568974675585006362607586717922511354722782426;
Add 518837249055354622256400243170747504678836156137164592286285693515146534981920531430037682329438838466468514418812160323502612243992403661568148032649968;
Dbl 727259565694771078733195112544092531849638752913582385680229885899944346747102640541638793009416726303380909474669630175355936605124841125247746193544720;
Dbl 198739856094768731803385314644186186520411755627128896435070894091705617772046525197800901026613408620478246752410998241565887455299694601870128406496681;
Add 3151514390904060714921897240290821246491675953753009094524216814990388416325444672597369677376598608304230238064927868421773422507569569331073159318666457;
Dbl 2360428205008568295703790920577414300915114889881457407978537741634613578032966684771457772716802448616120724501533325048887549240743464950063830519002428;
Dbl 2007653997177043776341350835235227164911995792429941831477249690024876541142577050633930020598713802180390248859766838134078948295964204875256733175252666;
Add 2548026211387822581226683424040027939558689797082833046122902678859440302283281000555508863264476087662227968064735832595882493215036059418240323837602286;
Dbl 2989676638488144377368985489538672972792326025810432984560176716890064063551546706103857333761130516626921717955459197170992750740208990120527548146025425;
Dbl 556746634647148925867471801416678131128351063063137405255106039720448296060142069635032431624423596013013731106272640149922020601442615693503397429672334;
Add 2908748339195134076297860264309423552609786534329699972955832137885295467990027367103830698715621199480427174138004553608308836361578032446405445049663508;
Dbl 1446035537531938984324232986404500850953422170925117070039468973330387030628941481197544489567277596693242176399365982178495503625862377160517760713466;
Add 1897882620794492019272598143402361985888686578266119099783171142725487840621380651921589898476189019756445675829533896105797110574956033970923910532832247;
Dbl 2239336442809224963605609766359178673703985783628958834400764763842685539920470044298030939656389516182321282617964802348412308872528022539296533826302597;
Dbl 639660749577320304559179371545492113569250819461129718078535239841910838704101320557089422486541942607678830400274506011529726479918286502490674789093147;
Add 2996822756282043852621008026127563229756823053614992908351093904417296120080284277467403672334855167865462791794941973145559234057311697317907608711640468;
Dbl 5013329119484918520673766946169715404277726374872134339590880225618784428490228778746719746023367489941964667670305820091987831300009050175828102675347;
Dbl 232552193761612588244640854665790663051514836169463177468530340557681364928635388026145870396020756268012079965192691491440622130505663435049072804168107;
Dbl 3330877260614450516299822034839565680880634105482050733864449438079005918785733292848210238903046453442449405118525221401442320838417913522913617485221027;
Dbl 1668785041700493753829121269077565987607626917546938882351914123240628900578998197134471364710011334869428196893743668530956846443365393742172708270099011;
Add 113288022691164592148290575290240031333412365162340714583801433093981096495576815361674395403261289011093042433567488666080647869097102412921069495446131;
Dbl 1522934084192196669390132872781010326903584013946090815348623480316413491140733133887275887947334409809718092442716234279420381640167909071879871944996948;
Add 3206430644896845573513013100066755112690516698060982461020556279313511019948157180632184776548307367586994312329263867452680130106923358342199322435526693;
Dbl 1639251683708876950018561397889106980709850112793372159084044937316015633679225239904901750939116179611093295940926534402075686273656375428240797587219049;
Add 1141205105577237602655913055636201857680696524370779313322357752706609842389813986421562545320049486047532184513665895340096219668644478459577497746879088;
Dbl 2575213587849445142357766939527734265349283359093016716760304329089092741976134740943939878575592704200470330479832965725303110699363134100430908464385241;
Add 3068348899428142378161574273347920629463539433260404061308940844082451478055829132384190899476541811210609091427566657213256026107314198943580973606817380;
Dbl 1482914045171997875484382094119691578536834710133071030332229684509639920095845745503916726220003961107665948507367729501166818273113062351454351994780955;
Add 2621711643008099893179605910042801006014742458595220592714359626305637865854522560383431868867118374917519732503171617827641617389745519129757739798741517;
Dbl 524603780205682573959368103053135538627122892998895276090151178883539361133357758149657473043608491450467078418370621575509276434901330138956538204263654;
Dbl 3281835449754255390626428898067899027188055702073299873384440676914595256462251247397566302755332201987784650094968630452097502211472843683009826211057337;
Dbl 1560157908728712142869421410655809682466376363403209783568304977593663031777105410627546103100650429291745525946952010936145652217282912705651071099008829;
Dbl 2009629204972793764011107809810263217766209734608810076733154502938784705401471523968049930362437919587222014292282103794518638886030603231515471149299921;
Dbl 2091299387528919499462200255014241347016923773817018395279949547377339348261178585607025745778009914194161604719358563239726150594338402206014039727298907;
Add 2589193806633683990005571301256310601655167681803218731159147596794254026792295457345853482097325542769471354642171843518192428319871662618970835396760027;
Dbl 2983647954026816116747435006860497118042508278642277301542372630564572180552863833950650173100796061069354126721685883224137060624651588422625687564816614;
Dbl 1073721024352467524442047711694489478073875543911284061399890324198911859824826351373261339927988566903960572679106891989128286957790885794435534860532048;
Add 1672146224974580704053447313941420163877877706056014311209871009323389357335845401930677982167109131896594859126493303902565987612266880344172200323109639;
Dbl 2577845425486307358793965519132252350656144996365860554397554867998799598132691509161809190544196896922350380833979961412529566360329709030842590060353943;
Dbl 707984673316441229394630418868450839387470401048786899743864323860455886262745191641900447830372074478491360749495641204936242562231889958207808728966153;
Dbl 2025306306201787607050340727967083811589802982978083855691697715717103801950355929319574017742272248414601479592663619232286918154231934673522823029412398;
Dbl 888327768779131659900546137435091935663919994792059527582196934400533652888734271871891227070378437426251357874706085442985950919437820630426689696085911;
Dbl 3319837931893856404979423132615075317676699069595760502886224214750891147148481541309223112033614454666410264091567151634545138735535486608226446368053075;
Add 358533356519887944701519239692386983543612697219904405029855407945758822415140438254068142550863231217892592120307996822682520959948575976735830464263065;
Dbl 2392812970886627586006299692865541257584418664264260710184372214566819381997298523669464448835633983162684030656374244052271498794775660868239047234673493;
Dbl 597531950997699008294548913702311882583015911439009793198620177484492451343761838436538364379953103864767296665688922055863786456418961540036084235645025;
Add 3151845427617899598917247255536894703167383437325924779258583758139985644457197018836636383900240906995803068505837296822333574136179796964867134673217687;
Dbl 3241819605894582236263253607214395159930214327455290612606293789642227507112260619507663194825781841485149830464834751464529341471519884876320939660394773;
Add 2206409485470552128119197756458968051106451659125476142124932736433321226026174046817371296186126753137861568499093910992929612032772620913674979197123555;
Dbl 1670139913252572933186556233302855488695169539975795248026236180441268470664988755249316461891023124123389149354804230537034356037157058348334984745082994;
Add 1894635846030092792986101657760666688048598391226907105927287536868741000630798959272521181254981118416427115912641134040944773065440411527788242722298497;
Dbl 486231469266769994127122700844790072792027908746094046037121111778973188502921746850795469095251702791725257325920790972487989471158597809492756815519910;
Add 86822794242029858200405910908963625029317091679965923644475035539619605007214308440767293935075290039623762680924222733838478138823544101903982803294976;
Dbl 656290160525957543233828049053400007955393696735255388763057444703576448299664197668747879827683489772215144758142910798037792128957436474563929036241026;
Dbl 2419463370655713080174206856868697137450946848162666638001427840856905099839938839493426287962432711588850763080279804003009160737277732802593643700853306;
Dbl 3120062039525026975405957674854320502737811457093098242196162798892236721342519662761215319246263138183633222443548330530305250501039246512070487880300621;
Add 249900270624242279284039829919801817350891281679854877970540738490248914357068907542362413819322908723200657107175275377622651927769310133876867172145828;
Dbl 1377711737527074357348980970106837206377688110601054484047006233750065317516079546700804667911474012658703550036240391765685101040204773889634151946391180;
Dbl 78978971702550808105335210167413013133005081430040842087792402650081684208215870361910090729194988317244976038555676794052042594689837522610029588701952;
Add 1684686320686443603278600786914245632995658572537034035819787191269529661192333985869823740935505062187645641978775935537136637359064858752094572795118982;
Dbl 2903459888815503024264642202776000217254476510649186737560124776668981385142282204329671103025351861014850743206199440189308744268762042109222600058510924;
Add 2306487743890971654050313377687272370109189406228548386881582975556669695479216946029313527451234194149145868606635050997753065485669360095725081711083362;
Dbl 2860642496788585839164902853139006153493610206490081713906625521650602223388166061132757263632335064706115801151369463782901602869523740616479109973809666;
Add 1861773118085281741774525458939143642758692576536903263087402618278935619948361491732922056036506986048384028143438417041006712153632505958720979028124920;
Dbl 1519722281189251971696438191643472945776784959736190857803533584490764838950640346645256207509914778959444481473081105407948250803995427417818823251961060;
Dbl 1866897063166822271874152044843933014921306511865199529233318139474922108962437002153673752279704306345759470848768822029541256120153223627698371926071921;
Add 1363906217093123926221341216049015940894082993094666981535355790133649264596371191657858107883988992093502548729193431088847666562369421286201935051124121;
Dbl 1463354778971945864872482317259551028047988692071534510396945024904616712114447041978307553052731699689501153477239406456501373282698365053884847623295509;
Dbl 766163890109027654630659514067195183992564731074044932798691499143715079892394634489780335856986285781298028399617068891280643730952818609090849487529098;
Add 386375642224583425904683420630420062649417574969267248407425103547728177825744790355541128708471020506099859387095707737415848748520561066809408232723733;
Dbl 2439842038928215274276181907509651133691733343320799857753866526802966011250835242979197492573751911411470300376034876444574116866286230251405831750305199;
Dbl 1347511596388228519507357677278781594776984846662845120931560473752684384702002838144754445270084980526674385920482930189865467046351996170756584158680854;
Add 2667368580574361026505880135900028948582557407591616690932767270630461241718090246543918535796412563035285763024266014326592966630463367418378789452838074;
Dbl 3171220281416136610830348052115538206665196842219973568675721008654096949201206008996359183568747930940123145298580142376616960627521310478661345787691877;
Dbl 866832461919638417681082033112881313733639986014447804448616034040228463832136465491390716679563224833400150229748471643172508298013377451468501749398009;
Add 3159216492370229683668261322859888122642352120180148404298768028101724149283064962789618006439486291265594177449470076308805599053212358834062941812735360;
Dbl 114885276664739969338271105815562144194013093166204319481429690746863891458771268480880014923749908617102705502083964121082379917081180524465354099162745;
Add 3172464916049327812420630192950178369962335505764706837264969959908719491866963597324835727948863778734075873469567356207662036060326983095061913551871586;
Dbl 3137969292020857847485493081983830973880931922623604916593660336291182341147540883568278085588067004044805063425900463289886798519008648886920427267119629;
Dbl 1840535878401889481347785051520364343038374334397635077620238453055107480594344830836611556089588865803236437913794158423725568088271035983861394553470464;
Add 186955397404774104425170681146526826633774784474282723166104585342565517246058413206486164480819831295645559305121592914963001045006191451274622516247364;
Dbl 2834843237183064751422446865348196971999946770989034257314793391953349789985071262695566531780769640263995853073258205157884196427740672232475473245992005;
Dbl 1729749787885477679981760327362264772814914675050906678612712201156884829361524753055852920655984775931459811994126966970648216655490737372508228881440127;
Dbl 845240338297381945411708246461411049151894946420236435997344398518450130184170000767140775962070435837338758851080407865430303404091849260029402586666448;
Add 1224995326625987596854494070309306544003094778991886010289190631803528435951290007890513336059341055502104227953647151634371526635865945105636076240465250;
Dbl 2137032699535229960960411526677495354388559936893788192731883690770431144985226250345735554705232624831208590650281176642834154396996257662303172646875693;
Add 1965441712657719083039041371267220697984607539445002500608536535318805584829252052414145880467319393517794009987197818232259738411920831964629726985295414;
Dbl 2592194250453245373486103249994709538798198973721768526344046353350250458449239410175368971442591632527417168682494389231308770347815243722451155892095439;
Dbl 23310333784738848225899379299277110820801534724197323379805526348443768614590389076546540298021088104880854209693489363612513883563032827669679913831683;
Add 2861494716049259714881354433880131370028182531287204935027588217294774137221764761006172050398928463642167433669865375341843442117049948237488341765050929;
Dbl 753507022556736667851631128009677454904897053856767313285384392766210490045871645141623705448619087364926769947161340582320557428429033101985491082365603;
Add 890997217985364822084342574714559769259277880003406948550260960122934562618924421058113483230337667142274228716154893565454749270632787134686106394926187;
Dbl 2349569192686077415327802321682886410355538635143388602279053494902876386935525941006203398963598186524240178940077131759030302645607031106027554789304517;
Dbl 3275870836862741848793046842791941370929845217947023314177380141327184308700455164109028584422222358857064389367153091812731044398387671055815913961768029;
Add 287725608142862046092028123644976722054571785039272985283416993361671917081793582272401343013706938963068976869061297476190929077355757448058342622406728;
Dbl 2182220790263135656805173072157731196358952209205605309089105843332268622277474272341873319328272168456406185536109649553966706708582308126584146195748984;
Add 1849283458469590735685023055616439951873261376315248237068148236383646020495941748650008953281330165816793776375416899179056619163724673706604601410851217;
Dbl 660791626302097685780710598451307934375642506736705801649643242759125480512353277988531731918302060564429116405198206545587583550523590844466958490297111;
Add 3054351824192142615457090439800536576158570702519921560952768396077571239355798636144285948963796401967504247027893275449901463697196169269623463493190670;
Dbl 1040313865077459598923048262109633780562914143305412387453599006607471948921691956944624066972927480131656624668638530389126190731151080700453515606681122;
Add 2675345604864229931809540355470019834176702899276755662737852227715673210254927199875716471507413134194764410088777980658321770856223569332563875148829489;
Dbl 333248810776638870054968099317871248435181766527624294444776665213468819605135091105842602401032781724428980080508786948780656961640264008073256213709252;
Add 82068192637461361560327992660375203724192197538057854168086723211986000539429278838816166199151639573900851753045242159004106005801097757229905640419442;
Dbl 504761465975126150761377812255429802885716322725750409150678675157330896038546038362922534885400184861599739646602321230803891854413101581663414388507320;
Add 1035821166143347223860225774792407549417757172384120250627912071896644695646617741233378833863708199429213734703620220574602025100158886685441200556074088;
Dbl 1551843709378273030695806829894063255204850213425491472898555907147828239730064201716966525949527312669486005276061438618101887705937646532659486515458679;
Add 2382890203360681207580490321268255175882095129582990397644491652340418697602281799249320989532298490519779083597972041396069341321623386879512818912740808;
Dbl 668997025251838912064399201262754549432218781947846707088715890109885239180007467003935847401835792095311413769493966365385899939744283211748394757731577;
Dbl 30179370963594910818118286098347515928599719503596992862446752606378635077000444776360578326022981686960896222220331836803751296448054649678541554984819;
Add 2273195765041650383689055282180373987495201850121837271882725286094200508640729849674529138091553148772856671609204731738075341923655254464077789611099894;
Dbl 252432030995865875852979300468040043464405735703479002595904279943122901193493581870088687695420202628230749279549183232879104394257908205479833572861184;
Dbl 1120502961054741481389002063944455815247505055743694389805598107340631366770675078210114493563454292477389485703059244562273560466404805675815450316150515;
Dbl 303975208169802736174687982008271412351556410313598146813889152006653633914112624381236084411002523785517584742871207394896752122789306707280224888700648;
Dbl 1109186946642640920410746195403597521429588259651522417699613201790467835526895179581104096879165805461215344667896017017427333645149278198512927435237266;
Add 3278970331715589523561496148231671974879386405110976951742631924924695144937709969290377869425986263622140033300355080136784589115008987428468840160949618;
Dbl 2020943429108281539497128352441872803892660210836349869289884510604482290547913288406091421027178936418169557370229019284624074728287373134383355800559986;
Add 2833495298185521605692390793615600170636112542202065801903957837644136606380320734502843078431003977147838114261598677671700484763516221834353764056937417;
Dbl 2685841778549147041808236659670866854063211883570185808050153879708106047210781412576117971150560797725350628616258135786922635957156114242486481687722419;
Add 3095499698716050486883590315814968566881510671030252725913039284936283156215175461076666894941871221653468424952775523237061908043691660505773966791015488;
Dbl 2383712914955449071916717647792173908003740265735745903202231827943895285803318664505845840234307769562594340104655437278238446716936405425992020237859763;
Add 2108882195148416706252084687815681960453663324665818055151596244711961374945910043580327202126973512989698261287617640618188462405666749254225467984613289;
Dbl 1981498822141992309589568334329700376774740466313513891148452288542317709648561791079965828889809859976638121846828095115972026945543557609120847183001249;
Add 2576590643470270501722325206528121837335193945548005996006635716871389383327402159750549751607117034565557201927735602918245674222880310429917567901243629;
Dbl 1713151444896890682069531271296094889163858368887453583976205381163543982033472011354043230734223317622446651792524448102849158426753672949888543581815274;
Add 2499890630102763949227951368461001809916171960833915015049378062139143626861765056913829751815571839120346938258178547984739089398570460502153082820593016;
Dbl 1562053352861935312987657622568391628431438427894823505264355218742305767105521686580012408733714529227669014185416972997220353768108931139276067343494328;
Dbl 3299520617385162073590339170324766696066711938944184897921156678875518367998718037421702230515316883740355821072637854797362746159676568689662102697375422;
Add 2196519816653333057290135543356098964379585227844973693385062847012283229357209899810755021932926029916665480503170279390103945116520222777316239292800473;
Dbl 1063247922121451667294626384811377299381531834561346798989915534609896699382214445163272997253691620875481922051693560880392182312758922342006575501367169;
Dbl 1707061099812412776221909565257409737739149312631297111038087309355138777084747890964240762318820673240250776425288962338728890327602491286930351338153528;
Add 958129009108491301243053366335566912426132860106608784896453633947921407453833563758858388432014772431406327741190757864832325388007207677316649858075201;
Dbl 19508691642465128970640152668609872766288651475551016215070950653435416505646882424090413802515098731905364324534568823826572867317896816460104461296392;
Add 1702146135155620528333403934286918850815396188027152545414554961441145499607962347784057715251830829216927622673570337990510769927953231394126839795743842;
Dbl 1781552228767055396348155935646976455539413337447964814636319151036587302757188818519166759946372558550511932900719322057496596715667497937025293552488340;
Dbl 1052643599387563119701818367195779716316370202944634931805463415287681355329094936567180117422459294554523196877764255872634521616338582580624819850226523;
Dbl 2507471091190801184847014061886035876744910502950987112031538493196589285663448886483647704968049188294920188385336791983888659627831991979030087982035369;
Dbl 732009680220137332484033296213701458158740315332312994101792943385639260071245759277883452442878363318513243430897726075273095145755471299766319384711633;
Dbl 685253073674650582051100114736022422038453785492185090179009424127653670616359621963202843010303202910808817708194672492278526737424137489182050931178838;
Dbl 1631667532425340369148756174706748899520830703989567507845361607739068084009824099034497495836120594180126738983972882782084190784312734966619744648959085;
Add 2885811715744742718395730911988339963656693532237128883530900089987143833119171125429417599105459079618072626723840668085070572456766823291072489274374207;
Dbl 537068988800638960146704336681201839609668104652679999768479711189330871872262560390255777984663354478131982067143106544299128737178294171614739418703174;
Add 2196156602957696949202379281865304467168251788606830987834570294784200535255582664953190160329058168500109632741535128144647123393102255881987814614589150;
Dbl 55458431868443059468550534880571376076378704548876837035131230263400139421350517905305891134643956689071374356200326865138541478113489324402957820185072;
Add 1302722823292081342438279558697479511666592754242202289582711023013356226877461302283985084380899378859879618585385278944350497466640794179036238211386966;
Dbl 218688992115982935142139281116436589923296956493550678341237549412951445428269521807249686243876876848726686510470188839308422913349621439614957256543252;
Dbl 2091372419076030886724601359264405356727421531507148136443130550838231838985295599057304453066944382588685291701929244648905321074668053947245149958937599;
Add 224657901282756895777903430986353277973412353810644411801018309725124880816440351152550901236106289253116320458299772259226794164959601245007900048228759;
Dbl 1090531715053574134500491674507524698706386162608180660645896656030122540530182423365426234517290903639797338044019613240935312644766427140980947597841515;
Add 1085816090098996264335200400551199273832613507412155954022345843405050263241490223443431683198716470713022009204282702479524140979920709848761075139639746;
Dbl 2292639019999672469641078801645653553021906643528115951316439540293244809490176749479945438835679288835053364030097888975787400670067374744480861177696695;
Add 1785752658674292673967334558200965859101872220820770550540939104769911337226918653101148280191105561602788566331083631023154166903320313523479365735734132;
Dbl 747707573624185560095064664024065823349717138041967520560812811279914964120499349478415425813914225739417887803153917391490792583659566307173969558384001;
Dbl 3135739355032509579382442791879442122390934538440420837284426669843122223547192421555216526225843504769953600978813756422268531738589962247897252599304269;
Add 2007603575531427907306004348361773653564937082515161451913823710450157641371677035027967258651482603506405150811648195884837961575520096261149423017352946;
Dbl 2573873429895943516858477419545907262980816714345018220585295555982622898334804513150811224803155475604758081290725513642718355438143478363871584421830363;
Add 2764506484752395610798375090924265596288844454618640447913648332093064320383253264487964240731986444249998002170719126816146434767990755039208526810530692;
Dbl 1604483158112623986231202496845725397212455269398711499869280218800204918132831416575658500158763192152763284567768112048168980634425095469254688827225232;
Dbl 1120981847958512088109980820783264845099490244011156734047782139029475885362397757601926714952862541243468938243045788016264373061265807999924822685371541;
Add 401906411813286203411118940656431213317561351789937047959984703199124700135324761707652019525901697706151338449369307362435464457671672164208634763057704;
Dbl 1392357875689721380352285431902724721390855920809573901124079673641530717624008030560156426942363624239490215853505196036031607295848599381770196876575283;
Dbl 1725044435108853049588121387066559932596032866000766599374433158945455757475128034827624958931737023023896361525617776012236761216848801441530017344147023;
Dbl 1389798708787919550602416904438037662042671114885688600713434762838772336559036696427624552308946698129241905198272864757927349292984088568172211271961946;
Add 2034684812573963198970974759051009371656797381185376000907793204771783157337216650254733845106886258354247239283407703973859147868622138533103174452929709;
Dbl 2434736598765568007085374361148440374263817793210327310660929059838399235625004471803143236702821262163607334468375523892094203058126107544503745282458986;
Dbl 3275728036841889430321398279758936633607572565414270514873578332549319906075723233420278099341171936402116235513056395627736134163640865810825042398385153;
Add 149567520571555078712033433334962334350024216713068223068441046967192970537011101246204440760581052645407122562730314905653901513543940904680610256349133;
Dbl 898374412049817965866275734379681318450182752839819159888089206020588488771835792544834275622042927551436680208273571206936487417242751397474275002257378;
Add 1194313486384478137187763200513990701581314692398200378563977063092138533499577169887018439105422914072541477740359946726201134204273980385521131664940966;
Dbl 481112226989876226757125352420706454250664723628663424352482310800071238022568900193561142700386794599737007420716348049071866119818298458516811114817302;
Dbl 317992256669430610600870560589741209778790878071425164896470750763194368876867364354662602890020413136116360088157911871364910949524372942894385330886267;
Add 408882909882422339752053762825999652529032393303493767564914882894475269240796066479722061053288964121325532327187660719454838325454046510917322454307090;
Dbl 440565196113710103021529731661606390408028760014720188655970741999721466997377771063461253954437205359040745022028352197963970938207042983723527021532467;
Add 667884612388685954443718967334610891199076147221620781549930192146111397513514065398779371453225882974180302787195811247308928098453044506056809303761308;
Dbl 884160393893466009183389874031310089448029071416880731334198388194322968916941332139325856239817410398920915636357367623525515446744501654411738881705833;
Dbl 782017812116696124341783094488179953254884367018233332033489780675388824014696817894312013588548124765013009432314570281791233112524839224564457748446533;
Add 220033983762144096595640508295922626940754434744372507684887836883534624282871644566526624630610132418051468442527567536676210571720144685237450465748407;
Dbl 548507457453519526139049987290029431110994192798594367082249772701883123457983243450758070930750906746906231979103579347358586555106472630266648678305724;
Add 2856670759262487463457750390131193999370248011444726780645951970250529636177495323489257665924937709861036592574809030637070675551121941129880382309819535;
Dbl 2804189259077657392071801180958220785930931734994521274491256909288672286757814034414838983924917113354111164696751343827417527059146771140236974543816893;
Add 1554887193745102177002877372290503671831470858175368084063080371964561174353797905132941408068409834848472141728075877808240103470308407137509228161192302;
Dbl 2896289350962093288213452408916751063504356980891149740859228519885670008484727285547146052038026263900588094026721958745784529488455380321545383335077341;
Add 2263321230727225097689398114940232625859561389832800907430237352637747559728381850545732017619766967491501700578958113720110716345356206760633109518164600;
Dbl 1812139346446582239148562709603702684381599261096081914995104426813448439862320222606811474791336285079112250343602373272144642831638391346281541501760293;
Add 2075614726399740633958774367339832799377236812576583525889288176881681881152793859091506691107737545205165087321433461398770581829787915976647395322279665;
Dbl 2324933886221158887699603167608692878195456390917603319840380985850725302712959430563032429658436705563853207134292440684015952209466794665721276474889118;
Dbl 748445743613572490432317978194257584510792079047338399393333659127701461594852417127480815477240732925929435864717120800065115058379900479306526435170986;
Add 1977379379732791644991050882610234245745083984235425627625633659956974302996377572779151876957249785841333089608880377717145855864597920138929274213701666;
Dbl 3231140242191384685989389235323841929367011119317687498618687926986727792824601952905176344356239261033504666821547382957141808169724028513907575852611994;
Dbl 1056453285729476935610783820346769824824248513904688219299640920015633408765297881844552755961176440003395513283987598228221799128358470813088704750053197;
Dbl 3197782079904275090718258204931951219760059062490539641134683835921916366350931193985001722023887832287027869563474003354279533619297845466551297167979373;
Add 2354032208783050031317098992009685470912758727940528260781422850655822472796158240479308048632697757100682737766932545627019999518473514843608350383100085;
Dbl 2216373153443563729399207855956899901192107188395348689461616449566705303545547338838062644444508171759650018676916899572719796573346224393429792183296406;
Add 148380997610084523076511607003369245080671033527951710441598286778169425239540934877466496013917431048132534172150476237652716268491624805699952148123764;
Dbl 344332722456072007919912465547984426061023278879927802418736089670488239638657932504515960865715261398504739374354293296837377907388435207078627830336882;
Add 2879487052250189633459115153013732252251425607814650751445157786623890083834233785257681201778730480830116254050554357081179363323108454225807380595806705;
Dbl 1069147796499082284438631758368866129862276409118348140771149269320532601905295316371320565454490809092506600540704674310056926149647619469922149062841269;
Add 944743161079008858352331226306315073197024173983204126540377269313453076078674743701003491744823376725085443732800822602479944291866079147917608404535070;
Dbl 915730320669156969191711014435426899841494628650369825189127855105490985552033208029201373925571674350963170839929893392716052857843465494561796879801908;
Add 1473676728354762813013032440534360021633397893074553006896621668230639677634160046971843725332287109277184395503402221249160762319436975658831022971495429;
Dbl 1629984829820436440400859100740162860974020691133478111911962748090790797442264831220668213906362367672911271910728237388782274426190957221179106043151173;
Add 189791751098769237885632692990088102262419043602212625875291154460644268842983469660802736497479442491679093853909670071720300509223380211163385223447935;
Dbl 233138311332321877640170991393029269493521989566551151893223332889972486437085395706889331598491270698440629685833457360218163466493957689966600681731114;
Add 319359023789226534847568570726492498435565842645844831051982032346084320046803599507389383842658886719244671418396235452376748301305042728406009574575803;
Dbl 1622464692261259457651812649679926653903648168609309838231748028059517778899480125785273246567039909206730795084306140152478630488680510924943834175230339;
Dbl 1516984327448193727372797931193622525454878851434292190858584253981429031815792137531264501064453099473164995818957099799867794217529359543531281246968553;
Dbl 718733078823989437492615138470902072168521627769668052796145689894517345111640535953002752254508805744789574551461081022595902414967305122411509517386286;
Dbl 2188979250208926691094336369018095099649123015672343113750707963669417595880158504803285934339215559502122545623420459544870139985586248246705503854852320;
Add 2432945149391383093011771026101952159804285377685039738667211582215693881707870721712273053641766473508024537955001363039838169136176245896110573901436780;
Dbl 1295216171399776780201751657806580432775921466206243324464393137145010413230312995445826223072304431648953817156842864290841415677384775543694290713867833;
Dbl 2932691917154110230012519289072139772521158914882559225887588545015086448680323363404221290851754378819638501135108514864916174411287104745229052907681030;
Add 2049666460450094719230651067584389706993506732441887627801433206435829981183967449840016110101780601909574700371133526795736971410881382323949906319122417;
Dbl 119789248212991583507628966716808560672871429340275294154566579158284827166499732341001734294435300479806856932523661288681426426649846034099190031161488;
Dbl 2299565079258016937944315888787246913399524693058757834994990363482585086760421607222793301719747068569412136518675793901369375709212783007556649028530078;
Add 2645808448528961497410057005914130972815036984861426010092241589306521490992463073203578375088478683381300998832433787526327670194666282496879011812543171;
Dbl 406322371033606183637811866947625227290578406800265755946564353273885320612551733148536258387263345199246917328657104625959426335736460962060030312860685;
Add 1858031096375589771704621205763578883046764259896984070075543961938267187526519770614891199744304471541604551843224780846934478881404475735093939637843675;
Dbl 2739690191162676737265678895837119112651685286706081298934999132580467332990662386774539100993927820685838800073965363390716413952168594457655819711392900;
Dbl 1451536903329801022177536742559785855043616222404768784216473542710933044995592691000348922264231874023562585156958772853854345671245331128380601363526998;
Dbl 931089603865008888426577913686221534544727090169784398654664759848412570343527738169971139903803627536246667336858159147465523429921828442545771891185096;
Dbl 209485121446147582003595585142246512945315699270022621575519836157486833695556118251270129325479108712231710182319043038082359973168464614283854485000839;
Add 2980713037442243631933375541345535595122708427587694867385070204447078782030609966244386129752643563550189637495897886869821482690235360816606908863458924;
Dbl 898093885077178088715759761154188577105928658662847520880027419119075316149221439851643331702750970090342255356628536370232921388228457234794410271208324;
Dbl 1520658263705045386257299970461952868351674532582855639926201353524803158213158093169760133946304267293752846206416012472611435732105164298264692087249395;
Dbl 467332284207601064977364287663281676151480030626076473844245966710735191312324180545784854990250964432604280552520960535976918500221080069140439998137750;
Dbl 3071031386671590844248416570048373679256201208118349581533434616519035052973914352736110975278811540984060827074364630231894397320510321442535282374161169;
Add 1859699275275803587670350644108191252111882842012628363690154738724243175260796682614210872836665215454120037886523210409915109673666090333914835763202644;
Dbl 1603541617341453705277804138573083410271401500478446989621409601397522298799791053469096220167756918614315864375479097875656798540766002557882170755127352;
Dbl 3130570404453207632054964014490405538422591000810099159720932628026648041215351500714597262505584392254857147899428776746219319006235849231183754161195025;
Dbl 1234424637878717797624678399531448270738443950643528157139648047622880709132926263241149227218133267677560548518942941170038008400731758490592718463171044;
Dbl 1090138662439600921734388228189254895432387260562986082073496204922312719168629342149444528405724800591236213900325874849431358362446910348366461390711245;
Dbl 1705317781725490537245416873508891450733279780789955218226670340981429867723054664235250240372280122366165828575274276428889153021588419998545431562272740;
Dbl 3218732303739909988642675908368848784126733746952562208279712342993312115483493524378078249912587793885813610479945934381380023938791991303586035166046496;
Dbl 3055351473981070049226340813296233113562233686195811363770782641741134993900143628151660207034345900037303777290421579815583851367186562545782991399091084;
Add 663340736332088604729547280080792580278383569579445191913725969164843635352271766039591318492220787526749733035949010763928639372047283518205618072908811;
Dbl 2623217152358213402328666720698767354158897024289720657894995062754792290051836743844717650674075072131314590748853436339185039519756604085977959840472437;
Add 3088764937863722267073235992966907806291497710586918830971827076650952074992834355764756394888926144997993782484125004879623503288028668824440399270280260;
Dbl 1458903526672947422179987907592985128576698920836247304380772677815886286071332640408958927123186355490360827016317196423135978032913948958772276535071821;
Dbl 2003817611300404801304018718534502560001638448468067225056589713720840443215893377631472784152136917233432344756355704618909149420973873760781972062661988;
Add 1602361029307648368676789490803524032644434827937878229683351431721201360418223870968885977924753688657594837404569585717120873821353354150987582054147914;
Dbl 2075997122016071993335844632204434926538457007602007860365907927717239608189108464068060192274961526542058586393104445305263469339396250343753515380427480;
Add 2009073513060936357114823588338915571973790352011543894668715089590133637016961911371102996732756812028116135342441135897179549959733353499186853473702417;
Dbl 259114714616688727634732183474004958648188360173348974019030009649847838542639294864825887360239732739053295298028496464704004433622431657961358205977996;
Add 1791335835392022326156333656634792999052470124224768394718015943760696496630118038645746677908361146835072389318910501309516056419235332274201015697720851;
Dbl 2075117312922307945985597074440800535441998931035172612886952467236389926063576447746311449960160171192190588906554439335065198000968703804826987050620581;
Add 1638478837635248271822850551803421317457656907107151455112799735900145039156436073266224414591805480955815182734271890246086527595125760333254481394628009;
Dbl 1462549617410872670826438852565605445994002687036717698612858064390608900987152869661095926611889405505938406058819034579199045453413490165354068214311565;
Dbl 2630869908701402304917992277014023291035169010243680681118937143811066613449999966702154442244008821948139595658907493288901597911923749088115830261332259;
Dbl 2956611813990709355656888954259443255208356500626706803438389827522548234813743433080984356540401002723548099918872721152358967482177141287037695357376740;
Add 2954832248098136096089821292153963536011713926062199985324384166184789104646693460170944950914991236479740150737327189633079167060541057945402492795216346;
Dbl 1882273877464442032229668035529465382357341874618257699903636304505485508900503154889452580847866028817718680354098957707965967229092583183980408432247691;
Dbl 2596510604298391074268869536497527208843649875148910505732682180988171853926795713646384755855525257767357842864003518717795679208237577432715045473182531;
Dbl 1101612790938609924664671471137467664890600511001340336484167556190965946585139372476867239088606110939780529264882751233406948765032626766747239786429352;
Add 1255699722312044115007902194648582485187667261786092265087894166553315413172088126462951207655092291665543710422451051748767734395029290278519919735271194;
Dbl 1266110378380510451112686154681900003615823186705059121481521407349691907610537854219218426164768912470954082974608692371612207754877959077994766829284831;
Add 1794093757349590368814563747475509214869563751658109236100750642784152976958913797508387894941335684183672700515566886132083007622210101719742954915732178;
Dbl 1540467415029583014999151497623148454306299778389938702991715057928958390637549245973994345337284112897596687393212863417843207524320159806701774942879530;
Dbl 1708862116362310066740435510805438958715389972983418484937945986211493296189104421600311164473492550658567092961985039395522324332550532328723793852055548;
Add 2155949516652365635260803620396286791751667782150874969879610727996873086649692781199615436183906236649389566228445651898643486752268368601773995435019639;
Dbl 1390997932246450754506990564152354941059985894865666016994524019331456610122639333630840759039556579070597160674585668543049641260612465269706140907825778;
Dbl 1148048429467520391525982684584924309003328460468483643575148503770544355636427462520978969719290938897570883365170474396410821954838904499104089587112755;
Dbl 1054751891217749607126471887426171418227952498920576170220595658929716003386156741906539084107653548687573044609671425267961697785467481484881044975107358;
Dbl 440652565470338998757407298460783657728600872048951817417809953684156659160046033291585435251004853055001590122230967712072083412710409107364564762222182;
Dbl 375446878799428625867789035006248759805607494992065694138438368894334811841447192090975005340891714607189984609323425854264044592750980228751838208652633;
Dbl 2542379115788147383247621610688977963167387255530199011874976407103956537405627768017220780789840335470672634832883319901852088284786614988957602776249589;
Add 152467961386682449059433165574880712770026838223106688920433016422264511634291542279762817524646153942243282244061889966977914911650945089613061325537380;
Dbl 1301573528356827149439259557808582979197830612927545739050354069701133144833979078031485233395897478481559176973226121744871073875326759842006200976074092;
Dbl 1319638490767933971963090301370413430614728195978250898878342611697598434680107151569853859226760430079976931690929092702938623615315356489922590479570036;
Add 2424934276290112627411971643600693525565182574705906027165472257659352504665648929099263941347934105781240260959777126507684220352957549193152021376302382;
Dbl 129574245662026645561710832261059675008501977771872753264923896686157563441016498778140716719056079525968188091743161419340669119295915739596584976060544;
Add 2198545238131676307671684325293504875214085371148279421361633980487836178212890811052859209316963654849695595039024426692514531892127597696308939949975039;
Dbl 2157640491639054427053814031466503091475438613712163171340410490407960610334342463635676094172325289264935316981264390850247642200695183236189691135541118;
Add 2568406046942523489581612569426004651627677875217581398274109810063045061445869231051967162470971912772137728600638422258125102807308064941255251244915658;
Dbl 528432429459267475706545090449482618672430287829532358295849360142933427762386416905389576420937583671165974034266493276460384394159187959157473835102135;
Dbl 1520611957760671889146421501875082762153445525932241375992316541864975781690601496489048815903408612744619983844664312752073480063402569128524156745855037;
Add 2202127265628026930263684632239789250923977595887873712767781445425263370791760881194235561955573486359827567867797141863099304445833627139479857643128419;
Dbl 1087463388770569437803873372133866249526117042592305699473899392619562083929388352434076805226181570015009041063298751502099911197900642775455291776599577;
Dbl 2620925697085447064472015099511965134713776032306866245029624172256199391552510487761304436768424701381000658606380133104359765935030628454325928091014115;
Dbl 2649449625803874532555562556022353083493886321287316855875430547264652388734288771464926967829690987460390610382855186852073103853624708741876550376332653;
Add 2765607682645786301613584321446166777777122329440037550135577218024181777163453580219124267642504010221507356747226914264972370595520623446946893093380612;
Dbl 2793095624630140116233983405999390732700986490525097860362561981385293069699984103465168281879263739836204795759629830793822654250853337902890005641139792;
Dbl 2803150254481996970367193670626282858218079703672358089116415630567431814352617400384610905462962430620216552637611860637308070474275570850905896701171684;
Add 1488165965452349192864857830339193890430062569689393951416298356704634756726228950985117608839940621832556282635102726089170381620145268668462392809007792;
Dbl 968274979116856375616651719797790560999799168005172211173442630038592460241785076093111733862775700686495812468120396432251230642657704679392293958788744;
Add 336509160630796181821473037525240767031680668424844483119048820813247818289326385786712032777126677834764677212055444205872578754730422990970977305481342;
Dbl 1708297839171676785047644117730058101178307741390151127535218352389498917105995617305488549559640314575617603335850560782907734205215300554873697440082452;
Dbl 1866440578879112795074107524798752534778386438504930721898205776598783114223507206362837131989908283378055744731916025802069422893286263309322750726726649;
Dbl 221905686048992814150081084290413694591187941344508054122028924564081842694477596925808376146224800908638568865237583593112874562703052669134888622182482;
Dbl 870149642580647585431584741014349920627997305007776642177982192442218883580393636581711752679226275762269679241795131238045110395287283365179897250781466;
Add 2938189014199557406322696712942462029553949649480781172031196213310774683073387788651537603266340345708002393592669445310060847072062748459842378843091318;
Dbl 198101417964809468013323301345901901552823065380339077281711817746659566384381255513068987818499019916304155569924561962004584456804832031477604687363166;
Dbl 2507340950286373967288654912573224136112853387672101612678322821353382686153347100649339612026292762685926074242279720673161730064486789239936392390914341;
Dbl 1093780083261580079935736046107576323171695793045548771379229110123504237331346181014745694556569444308030280367808592662685478783284828704612424978575835;
Dbl 1323077835281421962139103259353012972957739065233102527122161347480228270465088175419203154669927018018010929383494768066421706696101137441559603483522700;
Dbl 3164723816072404396688076278154437503885967807604456309771090890554792218023961105618106879118064177484202282622027768631259086386598729649049620583585662;
Dbl 1584347562483113566717145459992568093072108532990012257540412171527101668129406368620221509406848154652107369963286908461915728515892222558579595944708767;
Add 2977452992342868495485912753776560419627674688464376593393507926916182435724210817924511456754779391729683847713001591373293821472063850473294960255622575;
Dbl 1395267737024825265297626825614044516291841926269139598374986275122175169301330687345377441596914009642310525465506438936078251090515842284109158332773060;
Dbl 2025424206468405077724377068249259974620485850142856510294327010161482831896577662669942352261192882423911378475857782902579714334545294821142355370055395;
Dbl 993229849450834650605497600703442565761540938593172015188458610808958990099418950479706379044003127220938943621925189021279129585704139799952761272707035;
Add 2555177641211753487370020813139739568209633435340398993097850410781810281675084360135699420411430565003347903354300552925976836872947494179740502834558735;
Dbl 976449116742052329437825126464621024467858907335063436401450616291964747112331208990705436769671050233193596333960970297740401383339769550799354445450719;
Dbl 22228992942220546936379872526639946206558636916763282831685064697706238770341599069505637539359608459232184658604465202219566373308776162956397895296766;
Dbl 828704218578785921467801749969936585072702445869914067306908709884185514379443089629235811094932480528079374497252289024223406843403056980004186125492891;
Add 2680909124633743055627535569610937348722842797908956507532519631768393432446396017155560422696279065372029419912105631106358960187728085908510713448161209;
Dbl 3140088122251715997871881953855348093093245921719829310945077775713427846747323894352390646172828052933701796591154143891103461991346672891131115337698684;
Dbl 425773853616575708320222049546817182704279121036048258108922458811011222652919303815571784863123287588401012192575685533772153095730551850907806016224650;
Dbl 1160166370594871161162339983651814642588549222334499076082076800461098808620936131978998253012875594027904589576980902546897199782536183277511112664423761;
Add 3190474990834255780081193663866881846943267090922119399691653252145651517407464150238212527725653870744035082056802881140076723982131318831347015083902568;
Dbl 2948375994980437598757750793734959750494588805755798323346164835063067661924516055139776530101340265414751082628322119375695287130475488385100227996576913;
Add 998507784222497885705165307033956279256326251311096888910242379131239567987898198422815447856726684388077542841832688218067481728487771723644068855708840;
Dbl 3162936551673612818097370182009964963632503247594851679919575741025635566788850979304808226180250948090427665243447564977367449251373796901484801802397621;
Dbl 1096244491780377275708358717492664479950297795085171794246480794484767634498501310436337896406726484090241181235689397376729535396561819755199815200643914;
Dbl 1318361029801343541595632005393738260891590946621168954850987204660234635495872362868530145014271774487606708276596263335226940731879203190629827777538602;
Dbl 745809102905242501750630074378259380176103722789043575700277178190543333078155850988967538066723695714834439726143795770155385215214352912620811425484238;
Add 1552727463002468652613766255475282340338018180520175302479370815083333370305119269410595990189329258349960544317765265517427572149030982938345333437814236;
Dbl 475934245334677096140626373697975560550034829209255312275525899486249739945197926365964149477158223259535887969936692140113561257785413080951232552691078;
Add 1345963324966084785488583188022239137433736902721548410549993427156002069851225724858996409603234213991371265495992868941018019257750871157004254438593043;
Dbl 1407316528642616630065378574795008722778684246884762355427871064635260356381227140150628036143256659870874219666695048623112992010139832093788189875058628;
Add 871007611551895609381701301623389810268716179072685200011068520220814530859591539665753462943432253478150047833680872327162279314934133556931728084108142;
Dbl 2254551866417891353728007536953271145939992559922102267197624137953666694830548078582983695496173406895717527871576563014648786901007936289445810659591801;
Add 2898378468995527976238652680429701737223206916389781732728333260450361360315212305120003626865762002920939015109875421115334778914299209947130733072678456;
Dbl 2476337025609291260556950801882502327175833999537818539605005792279149429378187537494654729393238166216761751369544638367955448034873618361581913707024980;
Add 2062301697719840607593197747907629945584443896456360705391091556110920560571512392028712466135583323280092960846600293676903058664914765108858479655986325;
Dbl 2562574686617299237323873077326657093554613326247215654473666773509730672401023650948297065098049861684176549975120609518714245362156473193530889933177526;
Add 1284499152171795328496306221575749210231174893781251829471705174272253115346345907926870335833251038244665999783579827241571247898780292150915998387542680;
Dbl 2585716741335588789011710563638264355518466020775789451874044279160995849327156923349168454441180596664896915987825918339865657439622554889233694779646404;
Dbl 1162631865225972706177608780717016906797429606593371301207869625630695911323322554412456219796290975641132770127865153589980511882532345812753443680119676;
Add 2176319090671088551097176311250204829742583850119815290721166224673172553638462137315603209297729665160011231423922613312022638707508734347522752996383478;
Dbl 1236344256528069833886375850084190405814058714760644853316459518194413707166252563066524308050080346479235293430791270450138535084591176458365520801236888;
Dbl 329089379053461661426500647850962512548042869328903572275444655911433419316294428325174723504055275452527885678408836574972919546557357131801115400985200;
Add 2269142759358753790313805896275480507644590657254212903092370531516697360795207626109373664579463016666254269972933682019373679441660451328825308277570607;
Dbl 1241837949535706108537774367651192063065985153063667013202550846215664273447368581057962469907858090051260291577629899591303398596640095312720404554415847;
Dbl 1399812214559727787687700627539027632909918382926010804945955916331276358620305493525565344365173534134153758999437913352037069699641373953969764943724466;
Dbl 1759891726469922312062820259293116076048508093455459005529797120181419492336626900656222421114911621722394008653510048558470943647412206500995409350329752;
Add 1994850041862431570581292774379524169585421989435213065483670060419579938398466663117745853394265500068540628628848267578854326234200343464197163195472362;
Dbl 3192435381000865639149163933242508044497593858098878418696480326028543552864061377837830518452517997368374342143637890389785953892474338766300830117481750;
Dbl 1872241494699468987819165632538372570193467203971352315048153188381295459176706925492264410585170219907963714854399393406624458482577271285886883455668555;
Dbl 792934036134109505343324609469178157291946887712043112730481654961940409949166591242774594633088573902944060667848412417895455725535938474313283042020698;
Add 2164040627728259815505838218541370201428050748492586367205545229668508203338534753417701497324631063851304225522858920009840554308316167003329850190850094;
Dbl 2280593493425424143494045487824432485746562218124022099006724574596208612330236958809038198509308137098400934616780880612353928702440437280394347175839696;
Add 455644069580374850999227089391718682369371727330583721494227242236082692064154141568523229376782825186186825223254813055489915877649860505481431368014870;
Dbl 1860567181292246798326687768414642561670289719029455518305766482977403333624443103912592449061958347448141806198178519726263314312220698599772898576941662;
Add 3149047306859499376576952232032229344515313842040517595491575582748710142824195376351708104677664791999825778190810150320238092256742618635235914943212141;
Dbl 203324018894939561525597728094069270673835392624838638566498954460684317175762211353760378637575346998816860711134554187313673969144691013738028465550273;
Add 1909466932536646999910367967409682094367696581223517416167916357656920250957920739660555343092348393033875810124595481806341026570142697135995318845955832;
Dbl 2774324827598746074216291608181794751010333209398245796820807034462539504477964169900874983887532014221333658602496961675776059472048915074553420514622777;
Add 888920662376424838597966447108586770655075109133184709052035937762883643395667748079395661719537648612093993724878632239578969761568010110204066374582646;
Dbl 1344605519869680337786486410775924558541047816845610207982314000542303061926485829004340297824400917525252777500383619422842628836622994714820386925627646;
Dbl 3158829777398328720021934260462882860650805777478890991494657831910270529732963449196235205839328323683755945538206382321272831995726804680416136543848844;
Dbl 1382337271475819149268764674472819910610001342965077520647482431479233298831832563616703999382607860930401980604234188086308335743577049208672278697318844]%bigZ.
Lemma checked_prime_510_ef47f023ed : check_curve 3351951982485649274893506249551461531869841455148098344430890360930441007518362115868300084349221274418848205850841645514717116281909345935543464929272813%bigZ 881271118257627531090819786033685459726171595644821214959935870058493776148074358716472382280764288863750776976062380510050990117658474570946532359497735%bigZ 1237447547776906904473128268700759371723226684034263731857356066330705965588510906946578573152992483879683016738657911431606856050033090182749185463370776%bigZ 82747330102344061850610313965366612555556292439863856157026182221184946463236869965271952333088478743389534339771072873698848195232580967864025148286765%bigZ 2068848460018870145542325910027259722253447732250229176765889946269048889301931737407171416637086196275532157317646940182605998094221390424557310477417214%bigZ 2703461912909078843333775340356848125170339651716824389407099496164862344308665488444124369132455231380538177074973190108093970976637550530501460942908105%bigZ 420426262271451487994927477411117644412503441373322668170267384818812032370540956528975568812959336884879308530937 steps_prime_510_ef47f023ed 2034971526193709995800631984241571697980036136387544283620859144977590999700708702892126360817080423145127863083036006572092240578265473476582327483665011%bigZ = true.
Proof. vm_cast_no_check (eq_refl true). Qed.
Lemma prime_510_ef47f023ed : prime 3351951982485649274893506249551461531869841455148098344430890360930441007518362115868300084349221274418848205850841645514717116281909345935543464929272813.
Proof.
  assert (E : zv 3351951982485649274893506249551461531869841455148098344430890360930441007518362115868300084349221274418848205850841645514717116281909345935543464929272813%bigZ = 3351951982485649274893506249551461531869841455148098344430890360930441007518362115868300084349221274418848205850841645514717116281909345935543464929272813) by (vm_cast_no_check (eq_refl 3351951982485649274893506249551461531869841455148098344430890360930441007518362115868300084349221274418848205850841645514717116281909345935543464929272813)). rewrite <- E.
  apply (prime_by_order _ _ _ _ _ _ _ _ _ checked_prime_510_ef47f023ed); rewrite ?E; [reflexivity | reflexivity | exact prime_378_124c7ea4f9 | reflexivity | reflexivity].
Qed.
Definition q_is_prime := prime_510_ef47f023ed.

Definition steps : list step := [
Dbl 9944764585993188985742483287810779377299148628522426162796049444519014423230720669318840652323823943357193148692455507995580547471676141773000296283353605;
Add 696148271897767232384286546202603400567360137108830385818688880642325199267107638952169893879363212741574907271196460868583345187363917466451111370363215;
Dbl 6785840825506414226423469552192210654005793893381346239334222222591291373414541389885200482711846445322305198096353436710186302107066667314976835104253145;
Add 9911293062345560078035445946075026200522687388467365814023526374484439190585528839139130327177697261757496271482888212294083700479101970589516030019655277;
Dbl 1418203899028661245936566289846451066771709668734907465258836944338585963696592359308932153973859272891091504709465328929229688990822932374879904481713901;
Add 1948374501193771719053738093965182740897055414028317513726224305724170766544078699904421696170938090095905017562864221298049524411215378689495442639889445;
Dbl 3334252370853134790834593550303217994567591146508446653345710510751818144904333997184509998882092101422384723357114938103451127524876210113633530798651490;
Add 3246534699257980584935337156278855811255014852255278097166318780962915764904438109570444742835086352013018843202954215525241047259796556917941229954524145;
Dbl 5451670736646876128025108833504140598974305138600681297812417741811002840745477328944599014005576752483254567523381338181365958832944147144399940704804883;
Add 12088906035601802219083044701903190891499412853004166843887752204021042304459320004313586377765818104853622071025483807975074427587078009318255405390231182;
Dbl 8004764090113853658492149053098955697101066547789809688563574403782593088670776578826455778080958576684591287831758848215423298931369923734372435488532271;
Add 6235513760193440198491448729265447252159370556645931479085179443633657116617442223183093144870818513968331478618366457023692425492228209456074946114111817;
Dbl 6263720116727589878357333891955550280598148286604328125160726379021777198432695569962475729544751146409800576474359076931772219538960131235213778833069207;
Add 8008197552831066475276636697007191729957760493195988063804597139849061571397906206722636391850478346960771489036999165014692411738526468402110411918323421;
Dbl 8927962979779249999522420387301667836243373034203256221879935897696691155533992053213053500438633200702493873126396196024502381664469376809199119610553028;
Add 9901094250905790896506158199411148759451813665904406917319383006957861982697444776999247586342175194197165581656107974171777973652746866128362589586083561;
Dbl 11862536354644140475964010699642245244930722721898766307016495514159131346855545764350679413764014186967467227473622221233489598879974352780132699714134307;
Add 5541703859453020680396435480785362419848403128239115450801123764964941539475184856168773836162465227134023892295251760936055093608859306472198080961354543;
Dbl 7876002290395916394997245349570918103183083659463717971088450053913262698711925573435923056546280277163492221140321096748903338545633890889913649885852146;
Add 7263167414814074393903020873456598827908285517280771717921045717786813652561885974169305186818304324173175093194129245822656099563403089721845214053544611;
Dbl 5197086618699326812495976142842572696992376856612326801472873228121892324086454275286230422054847783115463715187305084033682395003678520801159636774750262;
Add 2074500135974793162512388135354122646780956863307654720659277532377701776974864405934427861286021475663855177146229849174566368108035997329664430458017587;
Dbl 13395667997354169780527268342381526726342930915786603251243434743447893749698250346469412478632912750336830160450966641093293594187241425820568033780963526;
Add 3977486953099863947221481584656520730269812517057621883594424164110074052280771876560243943395667063143558995627089530653908867692123954266935476398334077;
Dbl 10547993836141524680001006976020471467090418948304477652068352693934041337967692314447191882883507373762292806239226449399310219379175865896152404742575721;
Add 3760969117811564338801959791900077288777990969877436700949130123606192449514069892693488727631463370416698948281985553552188381164357581659927936254020466;
Dbl 1079595755151286683370677935826357137753278800067120556960234610688259688976485034500730165154202234999401052267844389215492933181280678806467056541814837;
Add 5564080405368430122669490130836546326499577077596542370582572538872827254928141171703667903371928886478804320516719515399950060705907619609264964055148959;
Dbl 12735960005366087560193795436151492654327144412540504464492082639127018566123389192409778338005164096776618298518748308772036142913204031363816332445505814;
Add 6306531542388274502880630989945336173054201911574074352396319923824229928881626174566498679033528295847244819237765342650130358222806515522731316665561359;
Dbl 8195028934690969209929538067225061960947146594377445423892185629710612977704993454772766551184690516623362455541802477762295404235879854324295877946507188;
Add 11631197889512751353055787609382039426860931145557920758681001105018248175231766301779418694538188308149837327631116567901818119911975928338006122489995685;
Dbl 7242726795937295800817210155038890195099391313370046921959353196188098144686714604255423943769485006718073659321559609860026481933782536943762794909116787;
Add 4635990088501261478721578987314805874571569554270706926832840976317828023623915253756891391474739580702152408427697316517101265848313859705216632485528210;
Dbl 6730386381698718634074261302678192322729167562301987919964898650518913460741902099569511887932322986793566487211652678525058284810900193531577059359491322;
Add 739924912811492063122488503682407417761198983411699393410646108308088317755971423832388838318253605286206604408008630958560867606075799424313701941651606;
Dbl 13054084110742381007998524314116334862085186107545273964552018506443956626132990227032414529118813273412105818375501771769742161140313454987254406635864209;
Add 2833140834807115486700303259485927573570015877431563949315231823130788823684020105581534167566116977902878694398014979406286030073213153242000248674291799;
Dbl 7994595790891814303917527238861696379095982897203917037056830036504184770466237934512749834988652588182702306216147269384588645843675428608992216225673732;
Add 3442882877448868261197996875816302829155903204872840452780718209336333778438372925844500134727680685710867912848538259125606439051817218334494342388995849;
Dbl 10169395727891996418181228663735592409260985483311778139982904702014699239887336851164496732211524483607406828150571592915705554758225211689152610287566260;
Add 10188510632156479644327565855481044301395597232785340793782873845150630423965513365618646820142051777962775399403085919608534973317645241918708857918371525;
Dbl 12252763828615067527497354006474012920207111983633790534376436283383550354230667989864968724345237392730814666377741372867265169710227035087866855230557769;
Add 11020684548834523826431431687665318025704480332725141545362821144383850617703283112157269946605709550118681914070613071157867375505435684550019746003957;
Dbl 404481605102521135290594910572573309453223516238461595108564792127935729735413364362438204562059375287338781834041948041347299969351530036348412082226470;
Add 8065167892709518860170344913653489676293385049315662891090474273568631442093550782111049547448078263043058787400565026434033089037686335790269663035474336;
Dbl 8162770363348441373332940033383732713555476637363570840887648575078927209504926977987428413460316109709829044031744072091797735633985532528693331737457384;
Add 3893936796092183288800521600194536915235288118867643260886831543582572339174601656744190058383935683809139813463143300152466627485698859629316696268284860;
Dbl 4758215494039226946614485046184297755934262312606262192954958718737636416933203342124627076590227823156351378827622685658465315541012949030469484365635702;
Add 8481912816315157927770324790777090394261538885802679068043445972319192941771702299445445662930658473086226018071111460582434287621885410832815771780965861;
Dbl 10932175960539099848764308058913496386133782742295008049064465608272484562227067400330496247342997285582054739367609983450970349045070250084765038357714951;
Add 1762670956858646723182620626854530723340455675180845442097104081018704091782341118196987365549030540658865891753142885478819036210988713934322619374580279;
Dbl 7718933032878559530362986166094536944555572531589391151944707552960186504139271819566953262294994370080163352443659265881870597924940363387527403893226282;
Add 13191081667180001138615515452368218642773894539405484652888207183919420295206937597431559283408327385063391119588308454288863040857687721331902375926666666;
Dbl 1758317162534622987708416179581881829958319089230719613791998397197447324732382895013095456341692025127780629279615513361585637258838019494764316782408410;
Add 3930219498254692682007874201299459387992751359843498910164083313885632348560546817659579895678107464424554517655992858130167317643073410327269698772633204;
Dbl 7283974838693753316201945151008055390534204206907128883413697864636080603743837964877561626956273221896263925033729059744596621996910368554688675061432407;
Add 9434935188906488372851598130250147899823571974563171877915185802940626275698344790748505561443693501545834096724572697548848915393905594101979435675279280;
Dbl 12183806834955256968653588231048588665940266809883320784745834711111336823716607166315629668236197055836239062737391372625294806747355073867560101552290464;
Add 6304105442995520856119286000300776825830447793784493449833588819661152993243832888248965611830161456446956472707283528080555321343248752357375051391481261;
Dbl 9503045809520178003465615545046798852560129519123115636529248593402699251163399072505902062424111467295339988626673483145538423813800085575449955989865236;
Add 11655662774844380714809559860677147694278943214144109585840475585047385507175574996343847407918075842785058567969966518065311266876649132670510926348406618;
Dbl 492404414926311694962481979032663347245168386448264395819760992952888040168101639278610751694651871552693459182418760898185781102477178052495451055152670;
Add 5546038398714296779073646826679371511755728334372465323822214852296501938485098462917864652100701825083151246523048626248947418028738251243463990836093239;
Dbl 1983733975831335530895097000371131512614705635621327885871683416799786496604480217847668208425836999492901673996805723260992074812967775416676913108320772;
Add 13394760135101155427366015301192681688520713758740500002255799045274203335803681236282929099034361135633352573401233155052247194005898476640146607189296416;
Dbl 8188080498637401177929684016770383770509784870997740589407779750367008764106445289485618829977617288536441476199626305523712975714026444753183835706196679;
Add 6600116369768647025173574217298205143586877775925441063278786613673974754637766150729131658399318633985622606818027095642019540494304928139883890500900453;
Dbl 7627733808401195242731960423164151077684204028772480839256044509252187231709863022615573920467909419757290618817402072155407767848565128411675120130309815;
Add 2450915251448287713547566800033573634292968347884605272386991192006489843780869266536061652007206285265797468329199454922076771346114192176760711381992595;
Dbl 10713366937834994643311707661297613887906096592232184603023616950422796835228740340587599779377861240778004185760784927297075331376045069926655057460975531;
Add 9888101077405067216304299383105727680955959326525172505932368455338050647327191433103934429159889441110276876852966287120291235120468145730546863243880743;
Dbl 2020768461745597090631367593961028537950405724539737947907412497109747588300547193276769595497720543908269851234199712393466063018195183815382514264965245;
Add 12864893084596156349812866074094547537799080028713334531006922687620172045659324772024551448095033727115192563945700166910019616391319530069358595994498768;
Dbl 10330158744222191871927214229241107208916191860734722278782095332814117515752194710747724863662985406705852709900687458865661557502108689277559887542225769;
Add 4400343190697115989437532564116175406777306842585491018792821860983964176343797033334943175896610144641434872519094221925469898321264262708375992170732442;
Dbl 5598051272116951800716927289182689258652570112387954603799676079947702069951336423970356159473811103500324151930105015036608940173055383625330750615030910;
Add 12857121006573641399499658152563907841193347486933862383224793749092895097808452765398062141673736572189886500787417490097646622439017176746133314366178935;
Dbl 12334241063217991816775004589564460774741742836529744224709977321715098617442558445309683950465518770223335937584509360335320429629930563861292827855226911;
Add 11593126248955711516874097676888162246880551132865604872583171738917399172186000638242817453432476020301389425677489516932130188103778809875953678753409971;
Dbl 1147108048292667002972871454680998660947341671636983355592554143979073973335618394654665632908751122038238267920272554608811616542797213610680125256563154;
Add 1315968938324646561649723257581081575123631934675172580403138401116857699296544191641867544599895699920674534522681707947416218841054541311338350597595197;
Dbl 138184198551682843875018013750781769911280178764678288049123669213232285821006728803907310595758197913483433607370399130944147958683731565177473946671420;
Add 13393585719925643976415888443513510679704201603003205383919765064979709751158332767746658173274664710882892704714623573879972824669669506410981911028068208;
Dbl 11212541063539397310578100396053195718480043260505075456759310504097828840340829442216031587407257936349711461574033423313203384341406045390700981865465594;
Add 13376040227250143236376397967917241035624234935788112954051977999304587416066747967980411867875961246035665340392954853952522363734392445085839682433937348;
Dbl 11163185096639330825413907685791751828199801225612864199455776980644540122964207567230913212916893845914370219815684229326577544128142836059514293054312847;
Add 1750934673065376372570298598007943861522698664569758817510608550185164250786794087088963465122332515699562720213869251290903677809055044599114810387948761;
Dbl 3899062194026222534346308217161521434586916817645026877107230759766007230284979064373290549299376570391426045488652434130043074579472820458898372279270663;
Add 5520261331347748334302723748381838658433163169741199915395110856350546992015151739255838849372385675236584200914827080731633998436164516919431581598542034;
Dbl 7523536040216350519972440226741370866189976482732255291135759006893539901491954653170377773991361479609199739525294462878313857078685594584281997708268391;
Add 7914980255468955039316799084554292859544444118204808741266070466573206215177212022074470504637535482778197147270687269959082364436587951570157250924846839;
Dbl 5781607523282593785176185199906074403093304089069340944486382140852228966795828717689993462703177296882187938549791904810809037759463682829649368344108993;
Add 5774993105126091758276853998155594878866049076021435646904560570910109346885805561101777711646866567820458392609238362680207969688377375567490785576145913;
Dbl 4945206306841400738019657559227626119665990499515810166246852883994840701308989014654802100014301184446953146058444750460473577327210550787212871806996589;
Add 5984076662452102795557801547776854842283117217657147601858106813517164076951050822614838573348145754716055927427260251228138361572981039699809921649781352;
Dbl 5790547807995810281597842616593319814498182001183400345001270733600170290636500940815867829798662646167435989216345766252223324021508360326005192812988325;
Add 12205944275057702566351151187088868819552760732974092016455313602873203396245800747189170482553040572504473083658586688915920788012387952061736322080256693;
Dbl 3269717776038312620616096376135434305798421614207335302938755534306459136539422563711459172464967146842322034721631558500948171514265503289960092092014946;
Add 11188175860098054507141009840687486532271380413429301242920122740717910033512667542252261070057618945692532412774330249026080055181810417185895193268482489;
Dbl 5694793998140249190119916604974004200822722119218254226295236931645228594153230753853197816467581224110226072163157173784180143240400625773979648490698175;
Add 3000316207911153719858661114777483463519596635278504380401593143399087936441811377190076213021116952793622814875221205080368844197474428597922716699524257;
Dbl 7238466320375602341884371758303176171182255704165730323847614673651095203039807633939043095860451403836762357569459411349805415769123342736853782255340816;
Add 13120789547147798900713914635544034888303219917602491083085562044383492237227579590122650466154721736041768348959024389326000071778788408857783825308655788;
Dbl 2921290909330031051650501541517526893213956257595850143968834296787223172038065442111532542424088825675132094963086309720410778352789267116149705460821645;
Add 7725179186798540519069793420674041825735727803268947361598432802117043842923552814783965402979990623343949570070043829956244664065907052816305146292744848;
Dbl 997807898186751330464323639445592782227769967942320636111080244198477785950554364914344074272353788035018506352767487493147379515776158015695781033415772;
Add 8000508684850564502452939544258938816114738791792471665910396249121101429668092556255685118849505705571439352211856520805360094384217543606397791399992391;
Dbl 13015322321293378303810153297048777465127649151997114225289892117850567052797569436510479976829523223913554443069300150369107381675428233682996691809577686;
Add 11668650200807135578877985417288894171821063952689921482111258752552028923214336285103582153071782929123155094788860098270076618752744300110575420479058695;
Dbl 4846851652590298494292366542305140887041501541956800829202264336612933083047526205585502955988848594307418876070968065506705454204036900144533998037104599;
Add 1882859895425444326725578434282518552470191025109217930841029774067934476877864824190718918496126020422000570407800509952543799783105126913097807447757763;
Dbl 655800292594492276411872685777320391759669953402635188346325613089232410338250347077198421732533307122896481991116389418530238596173826112235382378573048;
Add 11980346622453630109064967027537102063695544245984389751440501349627546076559807638796990109374533964431016040088586742481135023453818434503537042680038016;
Dbl 10026664689189230324453485661597972783692634141842814126273539618648585501777883111875313742178680528928865562808677385257317815931228029633253561142391872;
Add 10329910193888486526990539522198080463506628021878785642001084598630866001262242465916619907570271692194647304872484836779030414166715709264924386922486871;
Dbl 7632325544373670926238429090730732890105920952862570390327737113140451268032458274701526973526785514394475666243740085972131484586828083015001795683864279;
Add 10632720667176807541124510600893803477329749923564713612530638446190676219875803030679022307882134720042110236942063978693527150674612433129384341811066201;
Dbl 8812965228171339319096755869822881655528058752841581838486868753504076631775148948743470475203740624002589474308670113976386837157519237058170195157065036;
Add 12006082314765288065537979163536601869541139053211911060344586048455337255587192664714889564316747203700870619364535502902011371776542282557009199291397798;
Dbl 3319817296479227862645800446286190493395325083187169924129281175829992984266393465857020613924548902327572219453521589941472446228272043353840174456333570;
Add 2047843060210287849010837119896674737751095559617478062782262979229710572897490628562685748018275369358067579718843159650162241363554601083354025694159991;
Dbl 364081405448088527816607107167520385398144482359778403008730752807152649029297415272268730347485098995359825768089074064153632488958895680883703263717957;
Add 7109218554517587088518624932598225682904097554004209504578186034355009339920109618609466429884282722343956597570034837834055453937021778936719536353694924;
Dbl 252651643562747593377616099594921404365564394305953932599085953059135286464841878526055715734997208080042014646852758202001565876817932549330330602820029;
Add 8032617777069236627644998236429958161251332031094284649409503711233658374390877729548866025560130554421686518194922928633174369431309959071371315817967811;
Dbl 1979772433100549182541192446449708965784518157760042605029231104804020269361072612662132661454379991877445735871661445732135570665909407859118764564406136;
Add 1692003088079614561372341333110024681530082718211613486984659552404728395842168070865336491957794822062967346678991315974978786147196753223576648622283830;
Dbl 7151496310306381636254723157068722245443296013474213323483368071539407257808911238551482679295229415177943770335229204480074511807864706154273759317426757;
Add 2091624024632834464438484013024613772192805386062565159613334318149054207424984006219542539594234397511431652372990426502701291896742393853786427253449570;
Dbl 1775940080582673443400914944027664854664730225555136627501836444564060799265280025899984848008051947149734258653362116969413209705219629268399159365159400;
Add 9775474718047054580307310065357985719072858549616913426499514043525803643881413170956928284962724457742906637561819683355819535246499748301725363786485707;
Dbl 7383140499844695268758937742993651392709352583027937204222455497105935193210637881911201138932447500564526169018644533526447766545408292520165963597715807;
Add 8724465033365093156682005394087208774444353483409921205544894278786106790016844473501880990710787543060102115616345209589138755466097569993569424360555194;
Dbl 6006959493388068385158203020660370511633434392744415259954315145812412241804450983731499962175603700645433029614559150987199704052641832998049873534322286;
Add 11628328437649847285177267166516091179626329981539492753814192457857518693567974291209878304107382335959000400301209826546604976131455525597234852789802184;
Dbl 6786415008176994694862942636228576919069447531167790784974340387463369957864757622404044027378439523920227995591789145418117192469935308648459469085019867;
Add 1895002191343992741485069860491067642810063463886010678944672738293262688243049799272055761862794873241057563556999546607271877365783012782774388065637345;
Dbl 8839453942566183465593257749592481069845843882349900531207408184049938976437828606746433673432390201770081153506469301512492704198701561104649356725773199;
Add 4240758125622088040200466657541312718309779293888772119306906423619848184642454412819511216091651499250054775007735792449938079271694455473339100177766372;
Dbl 13192064686752370379206311849823292989457988116796543009976735117705140752131810523410917323645654060163689494235574951127407439324848885055894716438926928;
Add 4915751875655752261586990479122635877082036948149049094415423444615179063717640202003921756365527397998977082641182746515850156908569248804863259664238233;
Dbl 12233834829167568696692859882330969156887197606137417676071953054759565714284521865413369074442163851913833559215711117617351450389467457038001318598752069;
Add 6705530176678387385421803006026370484751086859406278232232920424589683723020184357690436554603136496227300591884756261948108647634542227846085488484345859;
Dbl 6212008153774109759657294976898886955186022247700968717954464713575708112940817970721952703180192578862421097235207286606443266964156417056294591418380503;
Add 1526560941822213772861058433461274099401899659991235522897734854016836333262148079136962828643273333173745269712632411622772808566920816298657036552990578;
Dbl 9700945257348322168464576607768695244580188783180689367080032160919931857107261751881557373159623392832120586673040605537936652848185987292110977750332633;
Add 3163017333259438258848451803625108418055232011860368058991267485838173613879153103151667121709687257555636125752183177606377512324021629338288304270057839;
Dbl 7448087753554065900403346987708560039846654514938894255928569904402188416662005933302298146392134428262374025442320819258110591527538840478048151644348508;
Add 5975189552671588201704558788649265974139193668550741928438110049732800955193280769774837439343795045546885887986163783700115526979366444154073103786625994;
Dbl 291089091403129002279805686579582396443365677368269925215902445314723018458184679884928308059621221762649192465694844393864472643749523569269710884797677;
Add 4199315049150078621208165391718886216571532455678533543876164180271506261732721951646243870580757127016919675742188182795884074484509469775662154809368570;
Dbl 1154486171929457261954737599203501537736774226485429706447236051033583064764182039768359627202174459578810185437476380553049225433135600956234025337431188;
Add 6054821259891361572892036220953811881728566625371157512976310383417092434987519555125944614088328578883345369045897997581320471176637498867785347311188619;
Dbl 12619536059643065394871656266942529704263712739772301057079398797960301432773073330130511012862157511308877066353452014374931414391918494838161204607999875;
Add 3453439292832759368521460486414827058527904587120798269685060306068257641025619884769313542045951595830726065146355185183162263655699770958106929816796824;
Dbl 3443414094681360335084472997025064249642843975972842778000779432231159278258488306571960561320030659370647438910884219948482901820043689037132269356818664;
Add 2969901122131214968218639525779783511464166074600179146866375700897714099286652243792658213924489302603516107269744502804581873959113307701207999846208400;
Dbl 1296867805286907035186447189727287534802085763764227111849554213165945211360551929664554033871618883077454584304803273535353886737850831241545822032887864;
Add 6465919574366276701534933523504703652447590904624610073196014620941301375335344580365107704655848672252884110069354326624289471764951333669458817554897909;
Dbl 2374997436315315931713551712764498995303167018702523297238930923006677537783675907885517473790334504085148348360242869884750145926015215570504160498469265;
Add 5829642523779827886355576993752818848268080044364116019482517199770930007587043468546182315005563478979935667355759213902516601312810065737770698435637688;
Dbl 526997977043824930320181541692557208449903880073465360773580800389171044088239778359040191416330440894451962768858024153324888573468238642392410036412189;
Add 5375970879197147886955974788019959876801607309251435594214890274948539935952306838299112920487338259937442968128866808846825598755288727595281819060211064;
Dbl 4948207725891047789979719511716962349791761748677049840766669053919638446710757478511863670477472799670534659860117569093085445360520955396172420254426076;
Add 791666958023446220868924922724193240195728255045150472792946724020195617947573471342248778419570407024386903633275448883510060115834889092472561681192709;
Dbl 3245326135473019809105225846980624811857726166647383728829614385349651651356101205052896970731594242049986343064551173834041917350884346461354577722110108;
Add 10078663103052528959492624189857373204478940711366350587381802285807871882508726763600056732977245246208491100655614948086540396443262049629446990705702555;
Dbl 3238145551180799978607034192843635662306454411349269583143117892944290905081930700107696402319346618667090742808366063337874879216987826522974087930973171;
Add 2805478183892416516062038616494768392717188329211474196699051083835146246535200134161623987557111598846233825713536262064326151060974394065794714748539481;
Dbl 4687400263546448371685292345829148481827033485363920870019370878571359847242738486724943940631766862940428577313347720750350519589298033983342735869046911;
Add 5739971847305981335036261027281495742280225170611225708799534757051014668751860438375560458515427179793910341423725988857375871576282977201053548363610041;
Dbl 8219915828135115649263283984953540448357226082306304522400393928761132126541293053733995214515102259693597438720639658121044705427051995538530182836028763;
Add 6540660828078842021629317498459362887662958300103574457402020491351457464330932759410154961164304742890635106932238090504344129953993450453504272434400959;
Dbl 1668671314664611267467872480112264015201239028004013799008170783712361468043940757604568786039916865186332596003382916551834666277552484322535679090276401;
Add 5307263552663488518634817833998622163889124892728632219254559471618790950229278975940713274194553622051547237064634209870856546048372817074845680858308361;
Dbl 1102432664479142648117037549447889405991342853086199951753979528957713930230858827394573636019533590893594367617695241094269966787794576881400923170125776;
Add 7883258200503330244938221067473174070005821558609116519840545156920514651348423552538179340711678424228246943388850555820184888312769914722958989592108610;
Dbl 12396495417243808124561662667152534928981165424066690682290697752874123866965091971853077878696583569109231934495824311544920221372970988444692999436552308;
Add 3468469335557835001802979560668081135962271790953071873623158625080340162985879691477720273076320353369786246299058670944080163627348152527872835177916175;
Dbl 2092125331094451288726358250341847005286796732063078133295113930681244715692465243289027108637793883909572461957273176631546036401233509302992454094606114;
Add 6266975047584242660858036662040864840505001835162836105541498644164886170374516691882633483586788510605534563256425865264170001665099991116347607625410044;
Dbl 508285621605546306800363468327356028525162146096057422857507535878837169634075040727471954540445635936680657512673168861176932754199144598653740917065537;
Add 575664650285344009092418410289321404120940507449399721371084758390136573428634066338654382461157542556787589434854791844700192417431245782563769888424158;
Dbl 3647296306733852771455383202589471048953915937622457165176190199838358000087447096953224338059991920664562481681186801196666206520705740380295784498511981;
Add 13007397548360365758646830165459294679496130985964362163710295576348672975065880433336886355457184353827709790942160097506042141004988083607028352150509117;
Dbl 12810519950019923178459963392946936862184900007657288899688004967331762956445672672774386605391574936429926094121528081389317706041440270652495977760439990;
Add 10656995083369626460516448976007008633906996249460324532434745517691849139085642594565839056021709376599165132380834267774475050613938794469705648653650622;
Dbl 9256395595967451297711270905184368611701111469320258969500819085722892627874492109109672076141053355734598563599440661059587635172337911674408782764380752;
Add 11704784920394312061322717034292173098572705598519716755948969754158810876619233408078596972496374273766008095016132330767474994178301978245811924646623960;
Dbl 4482667862187629959504115897269152492608233676310261666092996695467968910613995362266672472091544639682558309322631912887467985919953787886241776025451404;
Add 10834962076217826854612870458646269405363965611900750247060779425984906415771975228522745754425219838720041581344239848436902819550906597462574377224935434;
Dbl 8577990074761446535959409964386171509772244198818615061264322964170959876478270819493163220735179886682140789683026854583731640189895935314810164647121114;
Add 4610004789287472383481986370278959301648911781911300675991445287679468334844261056742788616947155428680715324528679360023185807221161406492410511639900828;
Dbl 5117837755604219113208063444687286938026353682774355840236143020060106659348780649032957801929179715956336129024454148245544095511532857006563183051238101;
Add 11499344968804528879012359143107633237915864222892499342372383286775696120091431500871867136247554425928467153042922282297886052281489768291530932565690756;
Dbl 8806887066360021830494951378075744005370148044338935856112836252142603871844964896343538577785286579622962435677651753381500453892371448594401052410805476;
Add 7879965385206377891808517448839166609207448553216522170743429530372903228225437286373760042842945262924523240160390301553779597532688503100433446759695324;
Dbl 7844288859895055401165716901062224632807435122569379221680896719520288624804032377266988564410113134551452536579770441181950271004702519471877666402414842;
Add 10857385931168001787720163015677778870184523965016729686633260707539050478576894741613786815373959202726384522149370496888961922325180719028409697055808955;
Dbl 12366183338578183001200226422474496593677961138303173074419013786952125259868171517941715430420595331604126503659957236678863826548004145202600816770009313;
Add 11840378892374514488368876760135352358720760024471679752116262470759566267611391459792702435166242389910135337545565540764184206802142343832205047752236475;
Dbl 1040909866669360278261722985111452080873269052707468867375324798722931157923354257077589608730946063511867240746044301011762804096716611525055007361792014;
Add 2431992776084393730212001752603068197362531093028854830205597629440927144656998973908353186229327041778060572480546304524304465364714602213571130480447956;
Dbl 1809506771063654634689061855797413340441336344086648477406427043216598559271544890660164600983092828029954803885577433652489474678253531201333833940412439;
Add 5574400376417483295427584794438374899965738111917051900644234586873674628683727379337692928413685723703070464552630729399403130950211717652638839755404021;
Dbl 1769186537655925054748861428001169563428956852327915186330467083778039371589998930718446593528440465723239579252710857802892246534543539036666202015242750;
Add 5743202573663514111030033742957475680540826031788783940391430925134757561563795868621078602174801763583348247157932513331875319753174886174921588770416952;
Dbl 12013528151376973860740872152729408759746910223132628939311982213543169082595522284180934991162549513678009934385669632191910062561152361138535768417389940;
Add 13285108949962255218348920469808890093681874066211852626184078980933024895239979319588980255894692560780199163744386077046810483702787591177305322094193026;
Dbl 5470424396699554196207543881735449183519456320047429053573797372162780919320749122202853255108041654987893341758579406635476836907180482761338874757924298;
Add 8207641390134632384208018115144256562883372215750104327759070563525638452533704875497477206030021789500337364059705750368441708032103029821581044763019503;
Dbl 10624842509379636981878555737941778185108762763857772057171623094547849646855369334249730364615588992869041734440070356384273771581783445690350182640166202;
Add 12494400946021230982363032501950836156022602619521327983228095120836376084498769537491585380630984172681199378582427195615154248932295005457169502612460072;
Dbl 5599127206549244001014237427413706120094961976567803029097714373469679717535791696076367395410816512049838713518352466034756413733597008101884402938939744;
Add 2632731955648507011462484613027691452106356397978081066090586179019547226660362851661886825749252760199003362730615616806203780876071226546540014899037805;
Dbl 4346168995040788564309129792232887909133342241819192739108315112740781248688030352914804808090116825778791170661132130035737547694163440221656851592265160;
Add 3125842150662358782170101495800268501315121371765953139973566312173183731161119986616441963158772446084550872231762838751084413768135164191191240911076813;
Dbl 1672406835436406531804173295842494790251825361755568991180917392687262965083098873304527280273598774402237169333751022621192748220343489890235685060345200;
Add 8293109572474388719357000885305524432098019540697235775332664022889140337833487241970202536236542362666927952050667682046517913008182559356308658573870324;
Dbl 6933241141078061227217045774418688746653715696760601052466796289455041841764513924395665775490222440672071916456235722566875618044532998681539426875683050;
Add 11015929196926204518054783890532081449237228531903932529256360477143417540009562836362695172201965939744773162430319169980281445846713810018665609200159063;
Dbl 11553317691875807753141003295569172254250688227025663629826384055610713837005234786784471943253014053437158031322698612198469369876915418502272259733900304;
Add 9714165440926378467716401892492259773350110508665725564250138075980734613815293347128077525398161173631085719027450030756791895662561457299115548689746208;
Dbl 8686106073293772589041839515280109024347518939686319240229006696363175071394572266359889332192725268335172871539335843653050905641281360826837871200671463;
Add 10086469145506281992175713907204729898782274964002797328389327983019431319443523658862242878425693857355586235668668866658242989714172107538611917441411276;
Dbl 11348481608047120274463626874252455436719168588490997347650181853515989496014939563263690939763840737314539570987070088939524374195267103350050353162743270;
Add 7781367328355237299747936250638429505527718803953303694156485690736805122802025773691302647963128461661877766407781844024987065574963113108450529494375589;
Dbl 1804999668807614641609265991197191856064836275777196153757654201527496340126636663515049087063954610640054893073711655789861623612276587743590344365973811;
Add 12434983157402394805952394782524173025680398133299136707923293896714439357509364831487161101080870112494017295801277310524113108329454375999814581365285698;
Dbl 10513922291400861211335297584809125950573355457111724448436973569509844258541377265656942602320736106407639995452004932738194489167978168747309187878340874;
Add 9454129809152647613844095905487425828868448909003835491477193497251995191011071868376761501405893958165766911577258038144569120401644124260484606844741554;
Dbl 10077713668945016929634336445970416753837307226129813621989543271712965457454833298063570303783747131478548591685916775993837698723517231147534422040795191;
Add 3829794949526091454571170372117127601417789567674914286212120662334650570515172923565470045037509496823749295176412711455883293901680937721747439233349905;
Dbl 2887781531708760216812395315177643805393313966222307288670130072515878624585114857240401852973467511820289615421577618884780858643162295118225187614026193;
Add 13017649855577542628928666733573099652047446518864013951085842025718746089190540422001063171525859644630952718808338736343134995941154396055383386633238328;
Dbl 11131661658490157498698371765195822020577098440170627425904382460497568635936522502774984614844863927983787253483020404341355718153502350405408130137455716;
Add 7253818578370444775809508587433222290611630087054389565984897287879919932350917831228068405553556276228224181362682431870844576164850966569483645521181024;
Dbl 3307740438207861612639898380983215309639084831349731499991131746388849091254454012597215740798509540275491574783111265955541484604709632389801582305144290;
Add 5676994708611767941882471411723118225806057417470199817460000734373203236300130768819767289975226782859928269750053210804647946684996558572555953516081276;
Dbl 1408154331623998654424628478611927221991036483189884488707793526600668604487967783889837287905043412207442372549272383899721430708718380044726050255327387;
Add 3558884741110383572743499886083015628106286915883466079238433692210034234419846414895273148874692848498347446346738385367804943493047970766844525153944564;
Dbl 6648150862023027136400779740776741094434616466791226618427614605215141380005556559155261196523512776673918378222145919941327901567716163137588052950054096;
Add 10406121265473086801882281269217504922143665817027860110780518310408978699165218401403511223637207176024817178388601711814318774571079868557811664056253176;
Dbl 6790372276394649647975075372924571229240333252711451826300916893525563770700627956034561435411773717429006275242289140967134231630024248913892512627246585;
Add 8079222872193151662979689167946901331862970508295401865021282466576961633156253725777407965249670762818555564633015006874703192611488764849377083582309396;
Dbl 11113926057352384327931847314280008092967138390239201502652759626811721511281458993498623066482897577775222743542093395478666619319535729336803212226508838;
Add 5160937926946698859055183419726184269792728761509701488345637568716843417853665131934519823366832722101818205761189073158182859835509080743029073115716843;
Dbl 476415669766778492119481080955505115292859672435280098488565308412749216054195880205164764208820303475600822778672384405603274918249197836841719638231338;
Add 22653346834521816599231681213531574438473228937792236948494068471774457852592209046856007756367581697466262596901233539097034453056310272028452318392270;
Dbl 13011456265265181775106662398074208133461490508125023970564193556323406505600673381580606383611460722320226748932176278871581334729018960528909132356659349;
Add 2462424904391754076604480660465906077251010158894441194733455560807740059191087228945453925977939685819870861810380644338095733825197333948972211327284615;
Dbl 11333927395483826695007472974793591745911327948739762631008722196873616234804024446062012453441474954438791086002199113113548682533954446695515574048777864;
Add 2796165088023290868433371403942013861004689231223198130844306437383421326843616640856238273443485866300869210046295971992243529098197013762896381445480526;
Dbl 1407683066314674217529871479552516899424156400555631041122495241669506762748354519922592658523443112858292350654031307447041865603964320343168223685441164;
Add 7479928190277406996402128974085317485673351168724444514577137757293209111155264158290898282235586220242641634104103657598370170798171493160149928827760338;
Dbl 1603682656681890405986075026416399955320937167484131758299232689310663537527832667944866317972995683670932041583219078315683483188289469025369594665758476;
Add 12232209700811933042197036651294149283437029246841009050578967209718023881165394136872593293711100852695823599269991859856495668210628779750135429671449615;
Dbl 10948847387460406534423829097698241550742230780618944420026447189831965685172080085870418550765089477186238725496386868197036132420168971796304532127766790;
Add 3955258127184475164279835086861710522255789811112562708997387530885839633415047725289090146704930801789850939461713838374084221442817721010305144972063091;
Dbl 12054280233620314341105403813103583114893707821934225631119963951158050824373985697821013338671364606439510891281215816307047145137831126975458416885029151;
Add 10336717561988298148801679967143882372599050723296223323447461139277907993098339680236591328212605529351703647828672491397293378887392347434641978508325494;
Dbl 9572192649266971520850715118278198198793108780186321566238651159565096817656391264027883632860982079333295664400697973224873148133297423895188872798190444;
Add 11704078414667372674612144796653070075428989198273746005938652608124519637421701088132507114067725772523454139575824115093242410967526232657099714441416767;
Dbl 12134393978873230825268891066184127175482885247840618662251962568848491363719093648205843847379929621634821368709700236909072893589764811288290557571829;
Add 8606377665496453288153579945527028147286486401342460142745789000483276712215855161842800564654346727388584397892875494174696234839969673927733480278673230;
Dbl 6721491718553865529054624312147994824631177528787760208650470826261255710008242735364902545944738352103020539433079727551897024491168772366917308696589050;
Add 10783760334975825712491950327501890165290892443130493707859047695913926319765516321727156298080844868467055997583817591645129847530130850173763637175281012;
Dbl 3854047692640951976921993681593612503750153746992695854907166317727037500318679038831870767468536565675369770706630192638604422332359897183026904396185214;
Add 7713060919150729465568962045364202052403686995027698657236224599311219988526480483323579813339923390030478183473086114922100831085735139548578960690845885;
Dbl 7789095465721948947492621348068075972744958812697582596669343349382314191960316335014484609001224467618702407502563042734991383025996979266921769787803257;
Add 9121213898524831520105096235143503350077014598805518843728784321663620237918383404291442685892141043535287517967720864635885348762928851452216179711877321;
Dbl 4339991599258482649669528754196860926765194455475664682565369999835828998987374691650118425017321144029237715928834273346847102529874973965274236458378745;
Add 8941577295639347342254990046468139604248081543042505692916139929224941699760761447087235455799150946164002146048748943905026663248093819457005160232070692;
Dbl 5522937700061344569735061436532267547561421883956636612992314537750140115147786556932785473977414627335262221611559256208582220381987522731301643043082016;
Add 13162725005850450196583875502649460849357907004546721009941278605481157550873877116855423049712900700619054612122723327773534999224769756314312820273740826;
Dbl 6480319276477226975551287598876472649311558351435378963391210873772946706716295816085213533434346807273515941151795182661551154927311003331562330826091754;
Add 1722294955323380183408923959272751991919266491921318468832352419719193578810956518908874219488310319633474947661849437350216171669115408204633819235884611;
Dbl 3268865479229995037839416944048502198523087862029741010472154582197695932207244311904448694108088652169002755956899575548686281684545456733774883992358026;
Add 13009629825786339704339402354358182468755676862433838766942659339668178575930248402089705876887511658980611647902695882872253147105153095577810573871649871;
Dbl 12066529995274738760758613431123197518117472981397229139660841166536187421607913306658305490235444779450128313744007079612033010411997858892516857805790416;
Add 310645275206080107791837650660346558060909875329302400311953473635661294614501914947592660907222182450772444941280803800761336265114961138748469874172514;
Dbl 5762812633957990088833684387238371033523990511308559095242722861211665270105102974048883067124697800411825640725620856747445722222438484053442332524682488;
Add 6598569729589182581620496676244998479617754987831641895711161797250401190358002724689860257199460756402387975178639949305964865763772738941699247076474399;
Dbl 9805031974824985291537679476967813717946595089004389036452053896475157130100229435898576401797396783305985256056505633120769001335126474826512256268693498;
Add 6453269251309506742697809263371330658012681777623315688639811106907828119204040034227035349522505974769476312181073139285684159468199451578635114840906838;
Dbl 13404732539050432795679423908902707622857084037360246760282671508953174805292651302057049668585454652023296844992659016295620781572335591764066999908278727;
Add 10079212149583708334539974142986685918772492151286052800871012268016118858040173558794559039650530596791888223732047910849131261981662196879303433670910397;
Dbl 4023928786615722946065592429487238121651495241602221082358619395664056869619809888580787209702980548546359219203048011242567024501775778053480583279467070;
Add 7569331687049046117944077958929258309477684717449633109194338917210931875388883577998612126352374402545164312638874608851503916230084623631619016341605786;
Dbl 217535988902871957028247181930642817559295572861123185791164061466259557638553640667902093077838530739754025465718178207500056917399744148840701262248593;
Add 389465660485937019261048656146365304002824696860546455296680458924208044921640685791543465719349820927899556820297053556379587495199470943422352123021938;
Dbl 3901536575924401931151569596501127866465745182757447564268029599956630877206482639937540983016979042592829966713313055681231399564687204553630858678956551;
Add 187417813332702832659389131083103983317269986974614661252548081663393730554851131047950428056581015732430420191354930836200275894084691976112237958082787;
Dbl 12916600781325224807238178919119087077564958593551516687700583495242641392882449423204840412148083266004375038403675034249359340515833259825741559479921141;
Add 10055766541924405323908141704396979266244157611584642099561832748944611835756012690274083551480430596142767458421882469655845325133316458255885128523272478;
Dbl 8442847595618682271125975850205118670816234612095364558629253536874482307265483052087193091315736661769643318698766608125138008310273755223183853017451183;
Add 2121328791502886483685592403888609137542528849706835602974610124857474617872082719574824923628265987765497564504599896617820530526999643193444450046455602;
Dbl 12430251549217280770285378089261162617423780523979209334054221167474081819995024635522662853359200995646008988329126521798437386389949569766248830196196671;
Add 2382389464315578485706112777255973276580275434109758372215354896944527949186620501091307851964234727630920495631701672345393282045250316445209482610716291;
Dbl 1009181162027865734569559420721694426738162355886019542789336640613280841137190900532231929474127621083529763563020933241913428176521551134453924157669075;
Add 43213086096768340267384193589225955635923979021051452462164532407410338625649419372711447643242536714317769599296887325180588221996874687881146663304158;
Dbl 5543000919634792744807892105925956173032263565270180945667208462365096051680249600597953224989294933803442562912123824872408204948231680198188786681109301;
Add 11440360139762234708011135267002729702773562371860384283878708267597015742677942975754627375303708592220729575111296135055644348498178496765435429292106363;
Dbl 12320124325063229712109020606701299254619401267559917935663310804705740985409977229768129871939779874742265638300722714296310009607294355557624725047414905;
Add 7880818413028606790528460250287580421120056891481816574803576846721276351521866474785197709894474635598698770197135837615052077727335225345148758828398167;
Dbl 957717941576975912105887308471947996499454097531270279390348688563822032845910092857457697204087432970446350674002011997135204989444409834101833202245925;
Add 4670262989731136157421675079564120030624990746895111772511098690786060225315045005385218448752999696979262590492793640947672980480776356072663978990823071;
Dbl 2854735424160703037654913652768246275659996290286485989381077613963604243140481614291683456202334137405941852003293464215275418504127987400086302894382018;
Add 5329623633823608040983209526858842119171075890009911478047920940787307847007577050715829019883609285740406463331830749430689593425254954942692903754034313;
Dbl 1788264016294553326276332258939341342877756932697447577372028555697967058553374901438856825784694389223498626870221703575828013956957392988838578395538963;
Add 12902161713996150385891256886862612530246784846854992279068220098184368188295692965876235952273853232998510766497920076632564542009895864680088829798131494;
Dbl 4690458570754172936632911223448903586564785614598169186166594471207933414851571200528776745018649766857159353800480559819792346482620240731704474871956375;
Add 2362322132346430893832054512416070583050011815299876894986434356971534215401104561278202403153296392273043335715515084312404631712577825198346563326927165;
Dbl 6163676560080148613634332867479124816069649466219927953968789634898390005988207903467663555146348390783598783534996266217460163008728834411518384991706387;
Add 9180558015576906323772019504754964493928011729361241680861752303542213013231927887548732669766468902262099273896906281398947521859785521056590795197539174;
Dbl 5969407659199010969646999061458357091722624725591552825394278315314605620164798675942863511353818251611477617693623958094596451046425864973314756793390849;
Add 2336698984878793583147596900728701115856961838950101814437219619201612588890984010835153424517628803665396495733021837443883807904174843254731196026755036;
Dbl 11276508377809073956997604782769264036559384920843055893664849651453397006959488315985947999267160017957720255680637540257607583347244824025610651867468028;
Add 3997453761613868409987619159647117469534179405477029250947435562811724296566894067025268056322432182651538321218635458956326085846529459581595869411580413;
Dbl 9354280785313831856153178662818597254576722602676081728215361118381151297945896984368001822049101569259753886956403126356735497787445378546765892659626892;
Add 785620487560475292658020857570410128299812255800822883713603419165150930265948783592922437381032576645329091663920556098477780690882788950429486008947632;
Dbl 12903361186530666934747772748204656624129579687404643304548356838906433811566004401888992012701738322733587832601261826144847357949087934623560015350990577;
Add 1522971853015541036830084989786595972397728690272077701394927468256285497711226546220716062898532654065321066012484511059808581594125559666957813671920117;
Dbl 4610376922068049191238798454984720063204584307818640768534936148922523791000140413921374570970664009321374562407566154647509471048948119147978480342580388;
Add 9249149747345939401638710164796768768754438683312067218013173304821043758225308585887370476111900754603950352357635346219976102274828543007553861653341237;
Dbl 2193432167751077946965226890575846106532334501369363325626969703147155158544812157854010649874035258212345370388215874341213587069013467724244285788982494;
Add 1289304362442490987007079777483949260061552517000138545921045509894741646286002082650296244398892908960567346809711520012942627844268664380327910697823644;
Dbl 5791044262339271764154656695385955616096830465322497901495373557435828892576686172538104453358874550601399928575933358388036989049642971235791955191160767;
Add 12498910741206533593021371655166056670033749409021479401198308252756739247842879317592381973354955925309825199085881275296144052410916929085388611827179710;
Dbl 2543797117226005120943051978201109540732436825943617454476496005048723194584324494724063061674582557639214341742680599363202577943086627495551318861207724;
Add 4960131977176891427411309369421111363164224061653156326444170065970711881673424484723477284002394153097057387766778551078012355605572631969964594625394308;
Dbl 7304319704672727119989645034285204607554569435981399471403922707830181765621898009452565259840557417641108604115851588775425860877830575267510821957171577;
Add 2465141985805017769870310565481350545564756544297981963254814340960463959137973643202471232063989547331245197419926232144775810436044459081841827743450862;
Dbl 12986454499475158913681156973031970275239280847387253655692323041830874862785967923783815338739706160178389506381991879736721358054025248767575907512997099;
Add 2651233982104039101530117728239374421856246212949826654546986479610783075282728878310406994347646907521060552897905029080772610727571623148940240538925939;
Dbl 5652247695602321331059157234712451296735196569631335271045396508910491233841477954460226369014876450411648394337886168802743523662551295636382067695109023;
Add 6552308393410758534149554174189031565384878461263054750400619994203993591055302782754781261723054684400691733168960144678130124695363432705914979146362196;
Dbl 12109327341047110239872739601123276748938592763286476669301644100661627327411674980625826770690743891763423233533662111469357823329659267303967637113802878;
Add 9258521151147936160033295460507585362355287156385009642640823108740390341940744984151556761592558168613499024538535474633815469939382861099963377984435297;
Dbl 6732358409168550416376303718784206456747816200833537601272406776535844164920244287923401872463440676087381864051480854485416748787532319091448253825154016;
Add 8459718122318315812977232254804230521325819987090616309553718739571184037154824969901366532089325221266844403132552297205071445109778853454873730441854078;
Dbl 5968072476762964222351141975007432015352474151720800967502403223874874428940303212141130975214442521725192322205822748809600500147909498519343896330931215;
Add 13399796455191286116340816233920593822722021519609386909690913537177504836940405008475314960047873466480193994027218104514934276287397441596438329688298990;
Dbl 7573967437761820371816377433403056724093562971506123209023556746792413250242730018307865827934441118503566693990468744145781176696184367615658123401892930;
Add 4333731312518208882020426695321343715599762235404068704046760870443307895275150761856087335745744048229424952505056255710509700795815880773305388974929301;
Dbl 5813618966604293223940426719008509429421037158272015629351935438867979169495343956550475305523104754545833933390553119683060800637860963576508427622708555;
Add 12615310744055017219374836552376197670704714250846608248888161423271688110060657539578379737477531160594939994280662136346197612986898231045613652884875007;
Dbl 4685449894799614321832718049506412433565977452884014516606726771221850826174506922780423687515897563172550609081494064646585621575326003573929313651909628;
Add 11502154611275726469525165919108141745194092506435784171014335669669613209984106365705266432300408341986757540463985799040719604594577734843225224338753937;
Dbl 6588234426087787234088417278735226707682789490568677345770574506593498205067596114384777106640472209373810328245231767385095067261502527766468607929508872;
Add 10187645873184014221127554988467615997828474990718867264592450365797902581675150925058939426497467942965020408480367618562164847493787037267433850110140301;
Dbl 3096571845243377529285801223452907134175165799602931403913115934454278571006574877564685305707227684359716273610097693700093855263473040780577479665054079;
Add 7602993299935917746476897167592560087688301919451621953321459634858850376797953846253450939256927496982232538621247474768428613404639775030600014773341553;
Dbl 8160646098008910751500346261787767457472548184777354737187749160319480631911539458998923677825858997514399402441559522440810170404710026275789808645955229;
Add 4652630018188973871321520489421971812526418914462114786112978032654917969028808011158646808465854607273216482652935211251642676162867933479286764160882409;
Dbl 12796959307002586605016049525832566216796114623991803913641906531451574996584196616352456972944197204126598266083668995647198139679332327793623349143655262;
Add 2902770307746630269058576739031653356442011216375420426584935950607522587511051071363854196761390978236045846172945619366054395131713409476963231404733393;
Dbl 9586764719066102950406805348897613883081298631724997725654366041785175849123654407004499385668151298489071106972882492839049978436576807226471100727026079;
Add 896066866595910952505232834252876514731806683890033941838987532583607768932793016854070392129058799261287983653358878204360533770405404520925827781471917;
Dbl 11277365755375675088093609751592254364787404074219507713274413930036269017257610322870936056775890667295452595167834869008549751602015141447803556483194807;
Add 6215000816246484105230630686837649427926406672485672041701450847379326654612253425458755605652743717759319712453956078530335636523535789032709518529760477;
Dbl 2681875628730825661059667818854962448499579723011059332781060214300016443045967590129762531530957972096679425057469333016325004689188548668764965408542157;
Add 1958614235351662128717128679003591564981579672851888434942650308497603049160597599023823665744819744940925434557126827760489951390621132468704305745016518;
Dbl 5589226427729710250299580399884620758600564782545996124649586048338266353304073027503938714611554777301530853641063594043551934870568837314136151095440360;
Add 7012739270457472086557310411294066067449015551897435900718243881309849246317769216896038317320191238566896317625723756754147923849469612489481482158488563;
Dbl 8419324668266362399780764212763186984611683064121443271912705896439856129804768431863773582745686205718660231217592673037932354701702087586978950228266948;
Add 11871337956685382205536519855216274540138234474025377392968025259213105305299843637707746340130297295548285731856307809775179265997871154866365574329144424;
Dbl 7725935404696444535980708837289067726007335285859537756434762773537058321200824767798731578537013088931420420871087770057105014607452726320230574162324247;
Add 4146739185296650444971704656443953957272811886738210227736407933577062567335332156167411020023496902016253249221927648979855974523977388595456255987213630;
Dbl 7335269033119679821357480359496895101264303563643164807651304833252042493585969456661377349767251010636574797330382123223574204479256804705737224156024777;
Add 9327883496877174324391521924547685240753406633380021494677498673607921698913308076990425537621828922608987923450626319515279169806304144675417998867720400;
Dbl 3738289723352432829433118952163102818998133264877102731633701870374843343397123658874181841311238800880440776078303359273600365636033747254143556012952470;
Add 4813591305117302498692124676742259892398727938292911601383512422287449303877374381102794633848338917172900334192470746863473108543190467834577256240426695;
Dbl 3228449061377382647492126583700259482145582591304413788247063035746503734908782214847894231245240233935230750731386224876526457169585116858934144991241071;
Add 709344389532561407127067957868147834988349232861242146578268112089389155288250917832788140439097201305973748332714178985043407890903653121536659060113131;
Dbl 12461194680751145940722657332346875671263056237318788615491367661463963761856211079026439251680570670928416393361305459515018234506092557359626983503084720;
Add 3551143188185521492570418265839185967782935929086743499824428597598411268900637948455953693548943515934059035158963375062962977020479144618833119563869831;
Dbl 6379088579486241573076103010074942064866122512895285506703202297121929161124194067684745317788484132967663048871001786099219654665506150605929377237802780;
Add 1255892018896135266273186244843822339578509376118237562881604662761501362623608370820130858244014784093552352808599895365783397806737874497803289034464191;
Dbl 7808678585177597116439622330889655877359535878730090833901970029205258255805429316936577600961450570856600239200189599728225465293065666433436709225800235;
Add 12082206928657235079046695320617984477561216263515120338233621415523850976977670241816395082248806540152593732941050102775863930338501215541897576644872536;
Dbl 6477079893434322502352815321564053046340336452098808566349897650796073233977970190692071865343230434835885310386251323853476023327466849137744180019807723;
Add 12387181975156509502125221549067698024264291941845724644876829840983768728027583093502689162214319662496141338812919378546248208616814673083312519261887048;
Dbl 6370020738442660660758731182794664440404708187733236097845403319030214218591556929064236004854780528294327254599341941586389295153086917082680371859987039;
Add 12926147226646157320482772089569866094593183789056465939987052193827070795963487338473585182103308945331327684623083987898150308647488034168838390492714324;
Dbl 4946736521784782044875916157509534007498256939260437678045048015328925249506589690473211976904528511417616335053050951160163347565795688253686358264393443;
Add 10846309963666017043406273377899860825960286777328802377111401376432305528225330660627937306508694625775493171673700277800554604013675666434473505244448462;
Dbl 8955984184110615702235176829814134480426557830251889023930147357856057802346151144643824943912220217982882165061940552930058790977008488468876306781272888;
Add 5485638605336775490907967489030186776736903937450374823336603368723973504538059025631439691194423739606026160611649983216287395070856215755295725097983947;
Dbl 13304475440936524284746192770255850071766128694644733088675987705524896303939786643577199077225528833026249597103603285596645895836439649016197579082953278;
Add 4664589120207298754721997793333076039435569449389736896738510127195957487082031934851249451837234112758550551368662647710451500192781781858378235459714923;
Dbl 879121154631119956412996393567995626340230077885879817507389977206547994624942045767808676769472990665589257485550898273944842746685166829790812376802997;
Add 4278829903866317438892757117650768285414123055521084164511399512533613505250033271735088098548874448405568799044612174041377039712265525459828803511934959;
Dbl 1473745315323733236628886877859226037939950424957445579101138947126133227818476460221418444906568152970921627278868991277684645894878141579554866192176724;
Add 4130194379711133924464447164352076407447994851765030698450850865140511942838914411792224789876078795875460955357692658964400783505418087719424358665277961;
Dbl 491346285439399995307201550904408767446339054458998867170050687038665623295397372517885123789734026040767424701747087751393072900076851510540585691532789;
Add 6046580905358633127611099289085774076295222810717238867738142695730971079756144688184784257300590846010804881245013314459233070863964696227932583302092029;
Dbl 6336298244414943759776479521929026069540615235995054590560121152912935367212064937158221898264196738973463886927388841393187332507029910824729665712949710;
Add 3937548881334637529297293494324568188380196767914803686411284433616061728353094835221415262203687601017073325876492540938342050620440137007566447127566543;
Dbl 621907372140037800994603686806168228922596089851998474562056284718430989244881227306568971330356714080313800728561955884620836497278427324705168099558614;
Add 6880906654156776413151296325830169127078570237683697835712525647921917084109626235972277934944341520711427595035700541196645429477925089441810778455011094;
Dbl 682473055909069869655631513042985179760629218599766229757375018407996249754377219441286326751744060335154694422005206420843099739557670891409808619908832;
Add 7850959020925211323986016250734624670727272380357607567959344424531940795494571161664415300768809417948670682384080167201553706522620047353682619931596717;
Dbl 10495896855807745084121854747982815846590894570529122605240244322668931499160041666786936204808208187888725127831146959526684217925490665754814768393027351;
Add 3297404799607830457632661410687677469609570478632401388560366779278882810977134272012539363092103821025451347312365701767510204321058003197386993552323477;
Dbl 12291672904576737604089942798512340016943839711468101806922263507147525150335676274170890656257676002160155147979385429973542485789065583350845279865343023;
Add 7474621308103356512142534955532001500732499531367730895945357711821733419800532629588193459461443566605972632554793275210677633769201359513732177007898650;
Dbl 5632713381598160185622313367967759080298380932872337135962577985594850160238761028284100271188157084892037040338768239321444227911310463779550513700126984;
Add 12655488035662747098340761037781487354778443689062391502209105400397425409172849184936853143306711160191010964664297853795276823373879715736894982935354512;
Dbl 10907406127280430382937578413151720493809249746386381301609456298722304481354018598361306511703936319284409696435047289319172461817390651338764882827571894;
Add 9881857707887147011106860166216567906313355034294582974681000580400356286800150635009373639951096238638177036206932195352802826495533114410182752783872919;
Dbl 4400549914783571113277538307617042762592023438732934864803106335405947264809891816170629262401452287368690622155070368357279038349759561869259186955462064;
Add 1433639015657908908399835148808604041299185541408700975729279186876220100239653629219032959044809727255320938158596676069025328286029566673858835848532834;
Dbl 6290040112015590066383171520481009956283498031707465870084887873535357979560145579821068760014404716592348867191033576383160628746438271646744998764359787;
Add 8888781283215354587221855068494979378114096094856717495094597077014837270392689532231059499908761413051258239471819849070981786269125491080148753319125631;
Dbl 693725130358214507580185290189370084140624582551115413742686344303223412701257247357934916430247750486818473497067824628433167290861287028363028447368610;
Add 12192720068377278555428498967690100976733042284589844011302341793251480383767276599968202123946011387039027470816112235971413326827112556744144526851667273;
Dbl 4102784739187685582843846849781918867693588116910813443931603174631515063452293681903515195106258716929571421947698289465519488430289319660055410490183117;
Add 11804166526939446115022136109830714515678310618190191505342933988246980017464316730759017095156209635684092366066920943825934357368648120106229688368897022;
Dbl 1385049534824791425180733666676777788696364643035504414922634323605320946144346495971570921833700265378880196231450640475468859256722802483044186381321211;
Add 4034564359786373903260440137907549077116662550891576074907588721122991170985507586449585941333313906538545574175607135014683813289215342270001935939344892;
Dbl 8094924756358704892004982276555350239183154361166051315877645745429871217766835324978238387005258336879646840199299539957232622156948340798173656213975476;
Add 2554015769679599543857097299876763172767522393326926913440153729409081696789543979986813221465114638277755495003149499331029795662822006031204202346351408;
Dbl 7845885579189983918376862631745793581582309174390687457265705020636227900299833717307058924434394391303253641135655582699625731829006316879311479357740310;
Add 2339002537258472740094238060263825893833706709141697393107756961438396863440334068518897219226025763575134467711994976205679700489000876352147197389557194;
Dbl 9963965268679511348860171354245275218589521977276401036306869016346171078152552173288000567818377990553570707427378577945351468150600109575446751281211098;
Add 3495976268706307066000716587680587283139515780779550929595731170753595692115974461575836700584540707486279118185334954502263254407287909698899228242025501;
Dbl 11531445796679359372194616153205840581708012767265482779999403069727546970144280681312018717390297210482356401963100713460328266485900373804858165398885418;
Add 9075977293175324290121895994389545800712878174933415862951264088519042154686254877003511625900878585129391058227932028809712593256633223843135067571756239;
Dbl 661089793532599585275266832311483076054104958005125265838851366182684737752801046508838721290692969985681899613327307789731765666309761721499185550613281;
Add 3487053727168245034932185942958545503047650950328421769707468256235039037314049558659879619941029660892117081584381285235373176878868539451298527251424681;
Dbl 1756537226381671388959654700760558206671011613230671895742199067035350771120249460776801294462743625613317731459372786171476991059725262527542924290582166;
Add 4542643944548061135258574890623068338995634064903438350111142048502299741677140941907471073346329921349476458374739289110398431957153929108883323011725182;
Dbl 10452810112813017971658919750209298280665032220455716043676427126187237207694507770325766557189296379292742643609736544560787674348817865973376990451353891;
Add 12925216653396570546352066073434520278973355189208921140294717506020293165038837620629449613384466859333252272081734582100400824101442885672541339290985132;
Dbl 1856979956014413887033118012207861728009121482264789832948613110808406422659051731950150872406350549650110252834268109022327593894940666646064160128223789;
Add 9057980550674300999061442571527729079171770271628138677952748899904175905720387859349057218847650505396016586069229644516506392116918739776799847473896774;
Dbl 11476488433586662793912832668447769910058643625490524895689039048027480103162899749563439568479073566156745924216806725604494703551879744597763821937958635;
Add 3006483080250977724941233626141264787767984957273292250936729577375590657898969951231046867795034463710274687625379462116799054660795201353998214524620154;
Dbl 3043170302233301372614585240304159583880396924035803195881898847625038818277156225646277233427454032608836047202463961384407249510187294243010620080122972;
Add 1958441464197368557064393256923824423938850426517206345171304857925950834165079808034025717947099637380009044103304176187352699921502804915908296998177614;
Dbl 7624127486080495028388008784147258596361917980451133567777130817986655041328183477815112979852482808825196771384314397880598881804297137707539847440992376;
Add 6119549801183953660525982012254394797179294545450748623323857710166777038596344549345011323958203363271642129338828425228955971718428013780008712194112374;
Dbl 7414590592583424449724920329562051812854889667801290687216567797766957947063502152461467662238199682469816531899453591942434801857366664391890185812039294;
Add 13236088617529378003131865469483403585306405887309634629204382978994274835428568086922967542175415505054232271777633730952909285745892284095107467716352230;
Dbl 11542395120954686822126655484917570046569507474603132278525748447060099058189888364660248954885599060398784660309884056684441767475230378791564622197017063;
Add 4576029237370207689544973856426609954538435141854454862008304107053916070823983151106088498693379013577826605128751156538145746317375142642221990572744668;
Dbl 10475422242589931871751110303269398152451360114549302035642850334028715239468609546200575941785288126341781972927173149452890426507472519500608376612539805;
Add 12403883212633338386760078015428772337030116678798632954261373658519219878423658440025726941399649575151544300765435186210605002579155726246828988778629408;
Dbl 5621365689222370317112085983417733739600712117279461933730517866356515675653249565665873271939828271272090231352554115330067248712494590744286456252736186;
Add 4494468600161595725276277283006259809976121567700848498445222978037398002360038448069897316181303110395304617426215222996420184772851590636124254046354397;
Dbl 12339483223229960359355666443799072325235896658413185458825517158956282028602838837949676515182644624772125726733692458334354107601374009123221772054608211;
Add 4403645981596153733058609498406681557117138993467223964672667075727822763565245367819225225769565385470265594138976457809076632624424189499978233507803004;
Dbl 4398044356984036896030038820341064018672307307665011355316646945428225696228281718423588673333103161679516996898765355060026719372246883422743177151655051;
Add 7782598779863137760992876732751387080840116189649311341318585526744749529465725830149827382697171417273246271788129967654083652840839833957561749450290035;
Dbl 7902612836832326645391438117960131637632169836065002125352497566942955218487417387685822294990375232089751249543687105881256224119210679134142249507039612;
Add 4609280074242903249126709523682189609397461422897800421981229323328264457696018711705752694838074729096624652891148237481156214891855084356528529158883505;
Dbl 1535199220730020064682782765849792365454834986233114229305439766404748352736491448358582935288326313930061764690309263969024035537063854105101397058545659;
Add 4867631119077916711728068942414479715727333078733887549191349550253416999116278351483582861989127817952009906725864392225370877305324701738909194573200171;
Dbl 1955710412679911926360588950731755753665069659151826180934680438418330431590885210878287064245800467535363671351266791131894083392281364305281857081752578;
Add 12433202584069209585415911725382076953737599720990259664685123013567211465504141872482270180038740134988198394952875549009064903630699390295562950767645628;
Dbl 3166299066904181894241196208026178538942554149676028836417531610638437520614505492756166313656822517637143870597153653617634603613615843891768623794546149;
Add 1863084794788369682702035293239627981328077204195890842243911671786054138834681678919368769517990993961743513720314374313316533562881605257113589219376176;
Dbl 3641783431250242723447529910027641420398427122691398739789142268830341830085292721109719867681521191089807294535761652924479414597706362760104914908130981;
Add 11656886279039257896216058042513307126698050344905199739096848330107378823030324235992856278829865300843738773981650875112025085443632850783975018570373249;
Dbl 6473772038792517954730897264478152919113344185377690727923142359351585513042027584663141319632871147281949800111609107642199024225783537739249882250069635;
Add 10279849183769348086312815925772864855745622058886164140268878390446554621833021645245179668479897142746288100432842134234408065933835865546995636678930544;
Dbl 8484771838471761678382884616359905708822247400596266113315696916900225979944837106337229975889957882940131775646258315189971889190275738191051704570241233;
Add 1349740203702868950758508748353044693825474847756702004743332601511768213923510345748293263391465249822645128686855993714670074244159456615914507221944427;
Dbl 1934615516633430431795655043036773648565264416338377058076262189597354010599179488238375108518433536582693348571515536013849156281995699606892784549937075;
Add 8371836778407187506686363809396337702264864978891966065372518222626063717331651681548760288991442289222449717985021263143323783673299191598957116547031699;
Dbl 8997856617996735734207874619561450031965691320520745312333317160653259762427470971765088820204156996892381267283293200171952128472806082498914904151733510;
Add 11650655113393272170904689899140210041255426028699229529135271270114408384346666317974378292456698421174174710967522574788355162944898251880350027990889971;
Dbl 10290376179129161362569822707917440471973476840231517005561689762630951217019074099416952561653471273157597462486989940766904092097525279399244282961182595;
Add 12497505356240264406168512606814584317406887117234400428038674424010321859577356224154393880568412355469786876007433762547933629414784112197418383804741437;
Dbl 5864479211270259680229459965164415583577316949592540386254423583148230980021047991158433504016140695022781720539510486844748394607556058875706128371951119;
Add 444147013941719446885420926234984829664243802302711025558584714974333376678304086198123191997590553945630317580509608400474392181997238060503874012657589;
Dbl 6136185775795449485075814353880038646654564824621257100992431197997882629194954676687061449320898227171522076730575661047013719394411799010001245014492910;
Add 3015889744613971704330153109678368585101590841669017688320057022431698756649146389416048625717113427397804152342656511902571850517457696458370898273283367;
Dbl 8781105724831127777255749450988781231772490773488391128315048192303419509123670147013868273179339179788677415199555849569476667244921708520972412559566822;
Add 9345767314691003094336590878406275758516229004810643564412716916546430161877993777293712166291109478109943451242824155021108516079779997838665622454308758;
Dbl 11758168161620273900265589875692962342706129205999686090179127653314175217217481339761968687840847600670783668308943943963228486191939771750333440468232479;
Add 8689436491099204615293106364912631417258703003651085937267936511837242581309434555994834703209217282110629617601785055775634661708713849073168084723580361;
Dbl 7129777558773703927681812699737406496074462539427743400106310935808657514864797617058553726031064006576506852097569135391790700990385559107563423071812003;
Add 12772063517643046550151303633815515321184854642835335593822008012100812259818642934347336428903470445445820427139502058704273023182099847938996594610305085;
Dbl 11892105421862684256595461561221509340383912720935902593950633739110295912257912143705772750285861352987093204857253392774210759177570673196526668375572130;
Add 11294999077837876119787291901943002007581820780487878779436677183514536018572197158668705938010887613117585683948282838677480788049960395834850418407771682;
Dbl 5208051895043771216509116554951008521854035490340547029021926068733594254959142383550473278569819167831499039262304484695060110733816870702860059441529768;
Add 920267660738572465745752263834479767508748588442218942018647887207435967547492199012866920749361617773097844381396287197471231490778136413611116401636949;
Dbl 1373991557729593872961748094340628319012943659591419901337146713459163856452491343621046843403596434406333493707210694196982949140242600485806315809009184;
Add 11240974513849166574038793769857245735645066019448624407694002184628254219883285499919696449241485856083806657830761594356554191026494918437841241077803240;
Dbl 2373893685341730735470281871109880505796673049989248240988260362084686929236127656518633080299011997592972481233582940921268003121455905842330662669478362;
Add 221995573404250113959293221552491123557994098756719624557211394056374875959889061707174694164094043442710429853122725988182417026882223034921703286921073;
Dbl 13390993867058238082473340948861293465618489111812758540070495084454582589598938544168106451096015789629950931854075519925710801080191058303867256396283519;
Add 3753161154507350611215169573654921160761469230840402667929124481596714614097193802799057586066148687214821438940895001136746319938986037713484896273860720;
Dbl 313956276129397224430468742820366750986856133154225217914535355630022170654962085726956120538815207739471851252025045616580931643599614742459470586618539;
Add 10472543994266815786933944743632222047609195802614093994344978546797677765574529180075015637537519850173105096228240812511180227632851947924581932047627444;
Dbl 1867183540920240136890003031067040111444919878392050927250233117798466092950854944815471670278912158786225572865452971667137485337070850443997166303522725;
Add 1631422283033312277779910608565473834950712643437896975574400280980737992231676868363100393449182979924006778662163166762633190223819410071748502446343132;
Dbl 11268857695979889966786604235824061056780183528374198308832105256349581738440784930990496860503686072291296244845524117565805848944527027383216594743980737;
Add 346059884865132050428751698014238793888536099205310900964593401782556300205357677407798571981244657028651291727483339726971100434299840197843448463986847;
Dbl 1343591699165286838614997902162209526098944956473684614678583751755954525617574587406408932071113292184757401451145482439480856672570005898575112896156605;
Add 5390621341825268972520078174671823022339875241482631294106773162202354673661212343711767219240727029081174839652873896039284216267744863096322947281153671;
Dbl 1147451498175882371633497935442468878875346580152015199727640725376019095896690286880567937795671282318294244409352407550550791630731877535223491822440314;
Add 1174256365587188034624761666441537428678878624220608398413424373065782768528424934331922658557586016550374022859896639207055637294382820825759087993530340;
Dbl 4210781573192206812983712485264133918083337573789501764837639537059688880459293601218275592522260603958130593668960322198526634860181009891512352625422141;
Add 2968370848561109953836482982950451026725958933100201431938445128888936919712969155557690084295570102808342696948132926784129244900447807954167128511162987;
Dbl 7561178371318360298371021124865581423680336342927796536144418156842165620279588925343400262821950898016980586166485373095610798085895781344622952133120420;
Add 4390982300520629119412053457563093470524074012888553630286111043361924155921717196373854091879774667905277541363813900489644076969184942596803702640665934;
Dbl 7505282234324842695445631657977946376479500888895678447138608404886311210857706614122738137053500860184939263598646659696525166107146558296741817200054854;
Dbl 2264236287379864936914958365405500160955479638775352885788429488845562240250755227702468195372319722997526421246236055212791928384069496639699138700474101;
Dbl 7023493998027901465885130752940380761329023519293525067364690736201388527434914516191199127786923044306478752812936706163710602474481030673526812215688132;
Add 513079039275604813660919239939908251285405833285176576286032984475067772288070531171808372169571725214044258327072216316359093415494169141339853856520770;
Dbl 6641029766711809168825105636083782326459274139626822812575879575803639735664931540761225403342451615818896447358009349793507041778920289365022111412468798;
Dbl 5055570404361001448364293555128620713996661953205135382332941705307465848142574068754560469909382947814891152743843683550296719539560906704954474113565290;
Dbl 7560577941876504668891338838951088124000893806962726106366642476940831600223208277033967619275778075701536355222591918617227075958426228159108564029672030;
Add 2217290892990015116647453862064964581882622371250933785421894488651394580612250260620026166020728938298502552568187629513178239382783757721051017698278764;
Dbl 8400222541365498855234598011394689660633301444796369291496402122531278194862177560554734291619736759019760195982532846566630163308704414911116249360497312;
Add 7851740438301648268060476337007272732388865628955429822021675151856303925466060407415874690933012686447184946732916403999988766151337392032287855647199729;
Dbl 7474899447779766481430778808318761586755466816518807280507258772165084741387657099501343144225254902908586161447007207172185954779728154963549808030197574;
Dbl 3305605186916168324499325019653653279951778589493853435543908213701538065022392929283369859568966639010828298820350784480725524800506889753823098873234647;
Dbl 9430857905141766157299628701708530977653356040580454221880319276827806851908624656062204520600300068813819441843214912112373007138495212073383733508928794;
Dbl 6362139197871867490237326513773178926575324668399522607493210250533164612391396504517612217081793547790762699342061821760119303549807962038100220389039993;
Add 7976892040045197439406963371026208921602650128585110925482161697455965117198602094863729543587272759613959552175204057390929496707116324450725742909291923;
Dbl 2195692895958019353894975727306022200045931139156081323423898138912602838759593578595627644347932726391324717316267403381999770366137078823802747168803982;
Add 990479917019571042559156231882059890822854536497056779183360095590236662457694134360833668958208700004153731924016226003322647832739612907709638789911597;
Dbl 10773702333358818731841845141713961072460781824763149362530005140371486222917539060885916002308827423124404629931558915890139696086208171988974728351663739;
Dbl 13061076218989903158537301022450052033559457531615292734444348253731831593447624259239290309115018321183938687949505244025810004039390002426818189304158548;
Dbl 1408821008503810028406583903924779175727249262113413987301098608536613015120476116581613958343520817282732145207153441952226983657642290848471987432749912;
Add 2928064625560807137164227192503570700740017676138203421984222516624620192809767338761583543566933128780931847439905521006771060878691246525466083207839071;
Dbl 2152747973118494968317424216555678933394398230525358027930652845275781077683735222215518622121061209638503762391990206647884493712435199422220497683318552;
Add 1230833542625648554463046408061341504348076712557739063824335140861688161036994466752553684852512810690063921085569265547703514627702276568351995672822453;
Dbl 6167663214140521373746434533034344963426594531992445983518553472813675393351724201518896626893296807460095970455237810557258457940904642778304288106388346;
Dbl 12115063355884520393303718721895551961135628641008098015602080790276104303543943410661453793136773147524564143186526351173754425375412676615674243281932711;
Add 6375968765116532743836742170559100602580924031895207709879380714091924562894559309334644428865399813211779314594475057666291949379180981581747409562209406;
Dbl 3647619532658683576907092630607732784678000890049769647107190047996234949513892573532048562535294816083505166554351594745061481240357041877090354562659645;
Add 12868767376925444940501024880980909548524239539170606141334928353621370286804967439949238913772581986617499178787042520857809352662792754421485216379196828;
Dbl 9884460632391386534651935556790628096956099244005421582626890089324102476723656696536582732802071466923324405733719898601089672869679506792342575097228577;
Dbl 4793840387157681487108561734338594808627208435978872856538396579681212385932668459945877872385418268579487157016554819699689310956040448892190503674711471;
Add 9817036965546114008364473793752336052120306122892884850083434756357674465095137510877071175511250340740365791807665986795240475934284806008712259515869368;
Dbl 7538383470472404122214578794531064690878337166814382818654136005937241282092743827572378149943463804745788479669706016845721237476474537146976718963532452;
Add 4561435988304721198150934631306886352772071030973765867449596432751897965053926311863299632808897290114075924474075908943091455996741878831115623496769057;
Dbl 8695059372815057108777041839302533021842297737349739968122554100310770571986659672121010591702223137168775893162326150163428993590082740551463095051414253;
Add 4879491073031152721162902695500768527116149038912148095119946246598354516460090883295698855620720871978857873437245348881815123827455532371739019827487547;
Dbl 3673261902228730915416432775593906429930832352588679562263909664233541670890016320911778874152163874016264948110747298673263938422097044113358232964514204;
Dbl 12583899222616481172854245193261553062642039503340016534912493809647054465457809380880693991026131076537089381214044258082562622611045280255134890898460497;
Add 8076474462465697431338039225415956306917678740132051117301639014536449110253256998471393542246493079336540396612555046518324398625605036667538535083126836;
Dbl 10362474799569076266732261279569428463521985270599346022181496519045075718964986802703089419498783455369870539226073920862780816219272098992412628998213686;
Dbl 2380027952629776199620472647433990525023319472892104826757172538364174391362052043814977082112136132982090133768301941744542048800340044144680534918183501;
Dbl 9814456502027620686805146725868501294390612628403995185753816087486355150153464971663921833481359210619593987295968300951576889867538061280366975920532042;
Add 5858950507142263117675770786783772515680568271304952529403929082893067420093643696138206484578281430207868354989835932369055926611887312692221368430218220;
Dbl 13399685317423538178231087148986665464267008566498552372837423389207899132133956711713583315135237701847098878654663430700288599203861910898402111516691026;
Dbl 4653913305676009470204457639862627398640982679886662551349754793338640223390981282626727826046064920424141356865223851218920904908851107545970600072592760;
Dbl 794329946715618998066969721804703017553808423643698081171684130548902351625171955714523336780946623429860823638914248694707980499160191331086115080031281;
Dbl 9474243493610098916817330992312863599697274574232869701543576507472696730302283021147468873105852591232914070888387751770301679136944070943333585305790477;
Add 10220740865828194637443141918655570472338248788691575954922821181505118857937083377998390938132886426284329587551060772757095331590633168424719436757800281;
Dbl 3618852919515498907865879659573885458932079293305757016198907204869965202327000749230166544229743877667429952918948094577773115280434272762249752328331936;
Add 12625409541947869004231295004773127321994170992458894223929447602379058596382049148722640377117903929520032169813766635258413655364904840810238933824447408;
Dbl 1217477613850341989588263522208051955636140493789970701606878487001441257345785898850375362926803649075642729962005434102902353399602909614355774651517177;
Dbl 4322652464029111758324051929141970219988876310860711265223385810081949922845647826109854878840515639047206584730050180644560860819099063097240175248515164;
Dbl 12838493333169962215835805405716581810570401803452570305386727875335587209920074636535488762566981426109616594115180992952412695482711920397031886347207915;
Add 3341018071153934396618765138451460140838873952421619049012606863901675071906822910434805098354692726180194059990555269587169595729770923495266579911892615;
Dbl 7377573442071059169122273023549754415832828323267575227085650497116821708443504996885173644449892889078080485738206388035762857155363058220432066524949780;
Dbl 392502804635251605873779416356093058144578494904619733474952987753498713275156210253085897819769084615438439079900336511384554723286119235211528904618738;
Add 8396349460021200984469217286571308000425818788339942541203616757257092603712708355115487405097729941539273351717123288317865633289141693907298323314816983;
Dbl 3519186722104973060012682564681104742898201688599115176203191245278025910740730620959316637041110928787238389535604860991819200702589389979866851385435636;
Dbl 495106362726148469603755142750796721822116062203572832055091477989570804437476449466158180535084150128728807189223376089538850924579748266866711377288167;
Dbl 11358195208122165656312840247945396911111500713925792006530322343774624609233206768423204720372630512647749188987856536990249946223582724505195558121506179;
Dbl 10676506323456887289258881449737962521038463335920557371809607535416284584057344378078819797915724519042372052596215356770138726423203020849569787481639152;
Dbl 8013018611349686875676849623706060884026353157274845134025361486389373542659564841977922343802941507953433756277752873539300191858602537436956146848767526;
Dbl 1453857777635840536822572901667422181974344264048380244252599930807328760922054196271377812878663439500858537856893998096270475420521829466739288608267860;
Add 2623786567306603787514670952379361048312389270567737656011473669591085021245697293554213941435519646790071322943823862269634608910179730582401210878914070;
Dbl 402913083820088661308845304250419405240295456697387889354497444361003790942199548827632656889453780590715948372720842379578108292944618815183209123435851;
Add 7336080612997366840853526361990099066889689472289332720758951352864655149391556871174872972124996772457525536174484147705865642132024151956609673628200909;
Dbl 9611406331560455683028638447225877068828772596433250470904892743636731772040590214067312656079459496527764420029931443932598292010405623548731245080713411;
Dbl 2106287188044156059563151477133340569159567622979251968177686846102666374020697391356454848961138990793411099574233374268319224913991194803908792697588479;
Add 4718738391635516493775008306954622326268461154546062000245280730416146628471601623785807971383663308051494030835619082002917103156063890919023656869009698;
Dbl 6527651927471119236234586617454352942209404385561517361463747416481416705695628206367774086552115863567084351210849037093252881389012644814947349789123138;
Dbl 2657858770234319632108080544899118782124374303086270286483409901320717372871435347208726838836672260139947787398205284050097834905120030278047843828709241;
Add 5282880508792635017520627644194316644886281297408833209038802029627476077900439983890631176241674383568130485248233510355840457513633213880060781213410760;
Dbl 4508697742392895808606131339178773674415895682331534558250019416738732472857193705438012613466255142149066086979724021107506365621984256600340725387924198;
Dbl 7077592257028426364173776013665195824928559241951189640238377153660569525329620325906721802955628676642106996764659911218255355214367510308324778920976721;
Add 6067580135768312839588018294034498006018068341445618013850553993491291639703933570214818040225576195564386967619710518908232224775600458700798053311156656;
Dbl 582699528498544296206661205727620561735000708324194879465699444724956027869836517808762721781619211438080189802986414681566637517897446373832092234060829;
Dbl 8707274242522465494975720464451361021761416550071392236341575787152206898135856376802688549169408729265872208296990056484885296626784813225114714390087767;
Add 5577217047450444884226450618776394059915478557502960577101248747858213739921554092307114529103824099998227403546463975893153999181471190432269902083662230;
Dbl 4448947638248866225203801276413539322426274544845698191981766940238531843212688152588721952112089162335723765749866617080843956395919678763268838362592534;
Add 1168083048540664132039744752672370825825862902504810320300114438445522524098760478098621553748659049264784435985079061678115457606079742585450167824015563;
Dbl 5255578106612632381524918474455807952816133558379172053310029594761836836660098938381309163704434441010093436893505697541250558628294806043417345265243851;
Dbl 5610796083363183421026831564683409267723288524639333346322688174955159125070374409346543780141041857623139984145837690224064017275479422426420165281707844;
Dbl 8381382248332314835008794801339262888988939570181022955012083437224543217167118620156703527181460181011533909142281881969059827827527202827878848523047717;
Dbl 4622501181728846287012132258427179536687150110416498509533904345251765618896098435985277581831776698741066051145516419620925400134269761545332616726576053;
Dbl 2572183308316160738403295913610968688047006836471923201108205524138648682192855778573670580485370343448896280282643868846798857856888122712767553416050910;
Dbl 5153292233464308699930575209252752639849671813970864330887823758335749263457878468125076820873283832547120395306409825808837158146266237915749771517908120;
Dbl 4360303623153837554144070228976254123971857656860087314782593928560652842341180000681807335888376325899122150129768780977664357395562889672380793412478101;
Dbl 4710174308796574703213000915340149161836741988319646929044375115571861141400468532591165102280451129294128849759447307057893717106869272012228006108477936;
Dbl 3382778765170707131910184501511295937992815793948034896486467514789037074158259469081215516154151879604119403287520459000849855352483983989170393352343301;
Dbl 6835400896428370196800305008844069380677304245852702247116669920792669507534644548170884916397554376957844742443534039995742034475782014702341615485447144;
Add 10408603866819429842465844337424675924286535746174443991889743389238300932508231785946446414551970751621183889960419847723819973026211527089707751859514561;
Dbl 6636270727667698387003112203157108535077740155627748803367590704573598791057033064862304001789727156566836223132164987906256756850510893881520337192417806;
Dbl 12295510983138967155480229257002291183313660361653639462980125654975289316949341898085837306899102228208538543460791256170423763325078476297644798035462318;
Dbl 2047826656970547068468919788866927071009677428004479513569745679469647027007033139831544343138113798800509637675808314211546900037206691416475932025265195;
Add 6996634228059749940732046362059036535069164235585686178734344256033231232626136516132520474672138347150205435684240519368677090698369407895788549267755395;
Dbl 5774851602982185198914828688084571864956158536573220717795772981408051526213067925925468729708750495718023208759256698561538942927396224012997982964615517;
Add 9845793626663177588324583364280363001254334669305600008251905499270541076255991753675467594320810776586776222338530075542718184472912963657029146413169437;
Dbl 6452114274993533870701605632658847413750013310833626543741063383539333558293862649096248813278350418591830778878826034699170852009360852704821793011776787;
Dbl 3577668217652549283863878060771055487513676203813016809199511509499177199669769707819847942550125645636499186294715619483876829325796966078401800568861180;
Dbl 5856207372816434877153084258374633717283162598801608571495300398886136776311166466198452434790370531870854551535435492760668419253775155371901981268802077;
Dbl 7267002538786217976535823070567648295217478256395959937411596918697199263647535793081307396097402094090682550380349044605681783134414482955709695941162877;
Dbl 10696666255239309600934347176100912812431835699358462339335510771066760549175359690256881420341248933170478857239416057491500502367833859752192219519667629;
Add 6072065110122875077375556459645387351655412483837803501250505313327893240265654558379992953644296145127407294028265865176329971779719273321333655990085640;
Dbl 4822038577727013653951580064401613099604893980075791675560183005548545479540982849721220546270622245021182871085148871525855980328025503482368255026602224;
Add 5116376190416508418959739343483495647944930170477314232124134056949451797574663096728721021058415487669805937709093742754333104060161908737086727328929243;
Dbl 7857466411901945738070025384702863870388560913946453582401201951091019062897380517866352015406335479340623931063135319393274338295698167933346678889293148;
Dbl 9199976132869864719908061139547857987767791341863278718761800962646504382016107830948113619865652756765515304214212736092943151228587303161705108603389122;
Dbl 11019352015179043781181833759776303995068947832340894592556187869718812336775820954359759124233549889132540288972547130343452871571329410062678305942647942;
Add 514703152951781137622440350139148602283213252099297615740845665464171806800751622942913153230312331343726870741832789428054944027030595297789829326590838;
Dbl 6107187248788704159180673878739698882339276617583993555975191157998688578753394934559770754687615987025736000877897303581414062515437851794136346752455779;
Add 10015591036483893085970770174349406848173468491913365301038785255443859065022899707452351598426547973533945341517025944040596660959056552987630902276802197;
Dbl 13010027354408501436978262565310615213230355987116164607430819213872156861128346606737843772930183644908329106227634658400310616929908714382507193551836863;
Add 3404660006205018584393507933175360537251845346935137922117035389317871896146760025203001105200713555436688767479686125270309233955529236779799226577089039;
Dbl 6812652555981851153639067315657997040162159600922311788370995725541809202395588013645509836857278195882064148479241755126312387766895659973546891179543260;
Dbl 4382441377647739085629622195902817779745796465350556200190519580983209812552108416714531473156587682122929835701428473973665524263415993956912777515772729;
Add 7823152714057742267780115258868932562049788739148603590251533628720369030150542409274186799960415194951805667577166250157799632031138845054183884847912290;
Dbl 7464378287940758629733766536267974259673750953921634109307837962257054399169739858757397123714461194082309038758389808787293772421740643150563108861365142;
Dbl 92287169229278654057378089745609943926236177133406326170428604046323746825060060593860675409528937063099181115164742325705391224659326996718072180035846;
Add 7672935187375778326747474093819703479271781572626515564090506619271184359862911091447282858354628022509979216172160220824021038029428435272108535227642088;
Dbl 5233325670756289451657566163750593726785631802925697614966216799159301308699916225763030508244386450046678638218053651213881045943463033865054290811690089;
Dbl 5805772224047248093636352942526084785622975069765680365169019905989776707176057576389101466710078205423997155169890124327365443713992417336174507865399119;
Dbl 1734174321562080076467057162132885924399958681370743105299790609092579753892858947792132210831702980182347473381185565278946337240323716006705552508295859;
Add 11210822315270888728917146597156143982633868306841699722770058649238961414841344057936241506000881721108699977102622273719745105941374941918510919363268544;
Dbl 12915965704434604082288187930365019143348573879247862882367612370631001702966538294165775170097777494060594970693872419849763792933727152686799590991593610;
Add 7710233333281011746158010330965820896885750109352006685869181777535358891103090879566363002791973891548357960368036354171019676321202231017381850560128796;
Dbl 9836078739940954398033072117716404604589565391480328719141634601847051622659657817102461153917196023294702061367522603928671093833148391604602436525493146;
Add 6891864532534378842104673820267479938549637274962803373212566789590363820928269609337809117595254013181720950666245454157824071362408660743109632127642720;
Dbl 7995648783805684475687510731486092587060443681553289142608584022472145390508010135033624203254348966232337353399556437210212359229867725769885015231907492;
Add 4553227884469984941430456656487670964029215316137696158985409910065415841016823587811571007944018971420252185035245058098774360438284153829694035319816837;
Dbl 1639740914537871803177282274337667511545546337747020029814452806958633666251159902184388997992017001392192426087004541784155248137073871002940445898758043;
Add 8885855603808993100347227926971689623796281345031870905348711630214428825295120405955121350520525136649913627580839540640514379015808140086430267981928724;
Dbl 1965064238643245098999567944201518350441531105161529204745737923269252687156001551184346275098969073317641114826969621589357998481470675825952156611643891;
Add 10216421169888038660183628775780362293858660763850897712488393409902361258402521614693944288771761265300483267381201063399189684717220572220887782959729541;
Dbl 12543273428395439750196313652225893772094052981742593106522865682376754850647765703750067877432423561663630445910175129594596076094783317488465395763135285;
Add 10453361478002697420105701038073812215476205984037116925368611708268059843727400388065816072098076413877594573885357612527987137516281024428064699915511945;
Dbl 7856380158136610583362948041694089313881265814932853411655754739872702137827981604109344243622588992873782688688697757089766039170540518737321550304303230;
Add 1890633043913182454760966898969531034917975573760246166146512233000657733739290366653583266878927456134007054307597315730851387306685919279997731304480054;
Dbl 6916872659299542264092826582839066541095710624094962123095775057697605701124031181757219240147009328835732278663851777494376539284219775895097064823713013;
Add 12635928032277316691387548572544986652061833762588670522621224886733431683715281208989963218055318497976162799612648425388582062087280991907870477633016461;
Dbl 1679173939463517814483151086573272279715445963366886923832777918874818780446055108454565021670580510417305693496796171308461773385797083482070428918712678;
Dbl 367874269006954793704818015209805346218626403462261388381003242338394168000922828979432108771333331240031828026482718883945986123406172791353410910100241;
Add 8503631149868146509746675449325120925296236117466502205734702973597580954503125804822000933062527737648013174820062901292267377803450986206868412674311935;
Dbl 9391647294269271305826566211252006752229647218926334696362238225656427371930503206902301704582744452651646240066541038512126238371175760952024157871298876;
Dbl 11678136088540686846753561780115303228793634718304806963174892049111403114777363586207945989414148584969709453410980889344650890426461304639043406017024722;
Add 6097654903328707925950310889277700389523735883756387970186509209370314607759442375501232514873158515723295363743139961873102827867788792239341040018814870;
Dbl 1809115325054897327747354778016637420669627548433524208782778680953777633580663740614944350318656329591092584316181877773057185984448941887919343211003065;
Dbl 6433318904555979519083500252420613448861377067431346629488750623402704193203202835927350761161255782360484316889872599997617988255357557630392681379428826;
Dbl 5984859951828484236843119865345539489420199646352496515100786610000441585259350900401132866929638506670167641812111439092908331915129365100339557565812094;
Dbl 5424809698214925768091850468292121415812794251413393797827488124353509926824527845885425959518862776479353412850156039588817686448473149700317012569395659;
Add 3294952147962259610252799787608181118214888453226199955511524992883488944125072206477236580945567103480406130407052938265114542912006823384720929135917395;
Dbl 12830973837579885146230144554117224199475008040418043854077610376069807152655829389256521362347587791373123811674548105755521383808537177367717587731803632;
Dbl 4331418013785862415681900235595635216959529647114229764068427246798745357319145179150895770653480644473409324427693085913447303767379413862542690951043384;
Add 3154793684119602195461631116907965428913543185079384187764605571528671206409432548844244211627007270785160374502997340745163208541119025519864307994209251;
Dbl 11800518507194454907875322195718320590965509152780486653522026616851831508990603626121336770323925808169257647757360994190991602613292926511992497841749358;
Dbl 2213844926787841397558392774783259624832337095336806938874743485021752712779384174933188277931361049783785978383257951620757435864949797753178933344796148;
Dbl 12450933385771519026972754998766673484354581364937461215271579534581042797405922429299126253359914304153469192201825280183019990551396549202971591317155015;
Dbl 12059234388569635246012771413622196636948176696804351400007283789899324591429711174288432396437319521304463371212833891756942780011586904912239352918616450;
Add 11062011575772947283195149931829468920937224614484447099596856162533609294105748387280973059130093531379624654180015983931361154781847912147792692466528845;
Dbl 3495477408329076327566703936719242384145670419257851608115049632921209656448302383430991896015718390807659799728292200868524620069292744167391516008555910;
Add 8540578456283620571621408417896345529788076859712951158202576370888992496905937365803972003753450698937412859082637371759443949384697230843740342930878572;
Dbl 13070792272504345566813957530904326597865270096561645121841701382331833664359329761399433293447908528514584788373701812376887562694408385048144883595677340;
Add 6311948707410992253911263768458212076441179984977073014650478586833037238612967706425919638584386676281579843804836596382189078345832321847931756612037264;
Dbl 5297941727065506775131706530873382873025365649910103522503159639449710889152398177132207565908354984906795871083455125149313951375915744035907820872952006;
Dbl 7138371438512029294258629889470062916141506153718317756122086234111630538102288003255595145299233199389805330905283508734800168669588020369979394641733017;
Add 10957607393502621910244234244929977480373784841720590354523092707991370503315911861314345073892784539469555807944167373053248073305327083833934027692164504;
Dbl 11499369264756927663307852295393123371031733281317393287573650717937850037282668242927697243182945904851407921236466614727170023909213536026973032692572751;
Dbl 6353310394944986849827363690682818873088703472375253244744276626097774538956912787788455335404631940351916874942504899558660966073975899365720633551366060;
Add 12098028775226153443732923545413037302544485224401870271504228271363697030209059920523069831013879979323157856637456029515775780559318529943348105947724409;
Dbl 4122695224508983882248796881636995584406985610538783513257337119514439375744540469925250724234523520945713432229711080549405954756869953078784362572248136;
Dbl 11516285567116142213238462396020033562283617364786168531128836724588634373732531420914517971902995290839705231404701577208755776324544492205578969878878410;
Dbl 5690616905168966703062645193889249589212715368975112141245971893084273181057888328898924057879590733187599153405235933336977579967015935455670698249647994;
Dbl 10363564117013822543375909234493973116304051663691929574540451084934386915084054469247641718117156606240625246846327154437044413965811410046371280163305951;
Dbl 10603678214278707371192596297130887833313470140366293875580732246884174761209415647801167329780489085661735165634400826380413398509677879012869712873680857;
Dbl 12943153480725656893728182658956417976895788459232956959403140534240315845322035753899848362247231466679223440514612458196632292296828065597960322915841253;
Dbl 11230837656632286977474406698012328298851261941474716369355456144560211887580835004350550639917770515507956380094442508042706407237240730829451586478654767;
Add 11704743555039903582463399930647902622099302120250857362139702415688715653030177637619219388223930092150992367146464415927623740772861682064396460150812243;
Dbl 1817706292912237189421612584067119984552427739091658063705531831744698641826488107376979850478463965734610919376399518155364966923468413695117711451578911;
Dbl 11215139208195498682007674198389861393547842544427688599442697207725979248895289551886047791929343564257568766522563751496483598507151439823570178165021798;
Add 4768974589738593678851153629621718853835045874957796306320387347996663951540362965276105369807191069653486454684680707350721015510341987203808270659288241;
Dbl 6666905753580288356265758948708015536860032662245318623070032396901544553900756328334378402456552616810254272256524493115105012827662042860850188973842063;
Add 8006060525536254776349236352311998982678396295517148909587819454322619420375209738778592601941601868059696390289039627839894070238614586862954735977228762;
Dbl 1955482004172751470606155466035707710160435212414652218360066442885234889032386098728907299637033533168155800288722294320037776718274539888026143390266648;
Dbl 12691629757861474068137097684557198495839495178143860796095480565424477137355315278126482044095881216240523044764965123388984931814325059245275053835803350;
Dbl 9627650822768760160649085695476567457372492528642980827161867294729109025426468638304660350730432110856014216278444923901395687133101307933908303772925057;
Add 3410915899231883859049194167803309651105574651079117625284247443945549589757348896711242190100598202456387791514016554620083022970203957263056054340181242;
Dbl 11617658403560290558897969192898639800952934354586692554763212761358018458095832371052930519488368129237831696478103927130079347464324510641709881909421059;
Add 5219113958808112412662171371868023225642395454452081664282266795195791553847275388822888712561526069196108446927878833475211647286277738415440512161096571;
Dbl 2982549507763660634313017530114669303475385167223775268291474247696247898705645061369735549907788593334831848522310400347090084298819824210450283904322889;
Dbl 1939955334861317990060788138190611978706371188508386560130228564233500742802570796010575940153367392670269910883580634399538434812109037819341290721693578;
Dbl 1764549683527423283824971582190177418378786905844555927489611345114353700761090493337418269196240127485115817437082820380895398105264164634595513226805885;
Add 808928404180253922540302300794672572099198098980058276132798942628708662861879439800229131379520775536080946894434238376018717283357153741480543602516119;
Dbl 7960740977778965703202787634686764667143368787052179675627343522929307353007249706590283982904256347745838935870051367542626562398446427701734853968832750;
Dbl 5987741257626632427086790264160014259687531292409823423269377155966900125098012222676516944812019034765073197234654981294825804688564524391125525964428002;
Dbl 12371011726253901223123659575279665156584906198301512410775777537975236902830630647082517866204887199681481844777244885870956498744875674795775927982388238;
Dbl 7066154752475597908400784580322119273314114991685951928059025698668015587206048009036172253253390107286351097679739747770090607346121510497721792841681800;
Add 5188814265262465352241502337615291780973923816052978394108932848040091422678987174277618639169304115283990148728746298340643527160504997197414220103390814;
Dbl 5715545343172800243732316158093822580342760646846090042568770861129683746441262995404429572005379880277715646906704882127628214199524447970824419384525975;
Add 10858072807978464949874587054519953357851478470470631733046252245931405171680366764132969123715026803864475175397998373869857286689237935948901078412744561;
Dbl 2885514185092457596896455213255029136812418604561379356337149227759493439615723850929019787617800976336424542015891654188661123717421087913309238849452731;
Add 7767628562266851027869695956281201531719138452824048733215004107017957446737485766936043743567793645958075070897203637786859831803902614663550662095591548;
Dbl 6805892825854931799548229759985007720560809188905343033777863586169983514666040090722398731536531952408770576420391545199972428528616741511731094149759568;
Dbl 4431364313334666402157027305493301830993750922237143981646573205778995816792469890116493664208392686021518161172825512109177228018242066750594513800421863;
Add 1250066430749296754138567822755507162915037453736364387008551676502211235274190719274565370979013730987881991302283685820688335760611166316203331348590375;
Dbl 4853766239113102025553394116436919971463609679368435869544372912972451312169553931271217265576316617122853201582170246459767618868277040774981271608815572;
Add 9328051670568501902322105514533328544445619088170988706247945325284556172355237979324170964527568779648817313076727207489702897265215807604103943008785325;
Dbl 7987503491030620689640157955369648906865477947371288122286184015608281829703896827718027502940537005197711833797761930956588833330500884461745550403333565;
Dbl 2517434860997893613007265744073047913063302823157791288242703246728488349695101732718588833126573942910795468207999392337160752308661324431254432004319463;
Add 2375280029290875742071514885866599555928188641699685107744633188101268314462238936078809338128862173283481561261730010081559485976605977492983162061161759;
Dbl 13123284261771200305292110573646209729939129489826010058116993309514128671959563685079257233076549308439407131271239792489367970874501430397920024953185985;
Add 3392424358973541910788934333009784654189903957124407747666386193247698357645576067294519458819485430349149755569348224660625455757019072718411390078783758;
Dbl 5301697213447462223057217296692409573632166132190756510641046110421077299422274533441041175340775431097121188282991817091176276633670942743218656518487286;
Dbl 9930751272836518657667426166073246089277856097471120103218426478545419519337073748206053166358739990587963602528099931399570995961729296871420921428727723;
Add 10301003490897365462018195194366011108151882341992635766784273051217796205884998730184069461319717020008639489713101887852386352579500608102472380631436452;
Dbl 13086996027387539397095591275345489897614321604217081273073355771045971184199802320600613922316249163835923175715323371213450162675305988532870856909464168;
Dbl 11220961627683918460051892066958815436096667589123733568952982747334051697875932451239728894105939241618530809221735817507304952457850730434417144689060230;
Add 4308903383744284632910235771539980261423370517413867848030548232502651770104142978958539825538232196714007023891908538975081017958847256528823166568611149;
Dbl 7780586528278837910138684665794423805877410194664426919133954104024405108474093938772380140350522741423553085090434954976209353960874227286424307539515891;
Dbl 6037619379599002811657365275432640569058342232273551069843011550361008338076325091633763748976950041698599084758778163259836954005914526387166052937941776;
Dbl 1298124009980839415069181082725963801583568588565407356907715214870915794865327868681123713140702545009674555680452729517885399748714958014979444473655310;
Add 3242747215359632493991153688485076652334155923503523903752085667912813020082161201308623747786174092808565527389939775855073380859374557959162618041413737;
Dbl 7972993585733242063207902083868448194182277677623691245802518581788612116166054624658384210738050226212964543374979240704012797028907814986123710574196246;
Add 9262134782115977647918815888590331174054687671700637691533721746013862462735031647641092072004521517792982141205489281974755401393971951717555187211407674;
Dbl 11462201849225180244399395520019581011245473482745003844411866395216936212169966023183088964246180326501703998251921250206964831308980661660123489854270475;
Add 12309407034159197785314505365947999824640617911550394472688412293906432286326420035611227533170052130530123323938155912100200526923262341578326681236861034;
Dbl 11214824610373818733445813371985040533110096057658245089663730954332545490018680819960507302280728162473820789782195273448761839103102270595869512177060190;
Add 3593553405920547392163283000410950394505551243303379245408291947228041736648996344045799889124839606803962571975611465884104295483769780287909753557533378;
Dbl 1184446803670480081661822000728667699988011104900685185247765755458039209077084055875465765014899667440577844706463837257604951035591245093015510415957010;
Dbl 10813335216845113341272295675055014562092324255142521815779188232895327771705567719034400240453971263197806649158341344368412935639787887160008084479750333;
Dbl 5526413045217306372792058824193944414021011814270640217394794309199487144158391709603533878365817270029086443365945439061568464604406842742903916057926432;
Add 5140074615848242043350318970166066592979685184604328081274377951016415582068836514710466621940352112991047618046682636781674691691926484336601030370806016;
Dbl 3368890396613018259804064136132497202703123236344657369820381823777084336243455888347188876765178789445693411516484045479495539625033578024186284560816156;
Add 3917379023559789511328331129961412336966787668354728191158419099627312960858541550593726316595788007807711187515185107771283838409067354811251182100134970;
Dbl 11132122816563670788492761698259599352010362532249448725713196462129688723502025248499536804870557026417708654255479421817921722506119637346552065798010509;
Add 1984613883688093019508120729839410688132415710333244486992535807214163941568630247197060132392762603136021994391727760539478484093400114820289122925779509;
Dbl 2197621627461499782356913572187629185458522585221226997277968680610795588239770552655690683712867817454011728042909478054897638816240682943288397905640685;
Add 11805464885500087750604123452920093212528405940938649912301038223049174984313915136765714598577343399823439487899440131570862376637673548330524604664515711;
Dbl 10093191133211585907053498033465686283063260100354815340963798097689822520254665105489912505889397407664622322575865740569687525294544570145109444305750637;
Dbl 6641707754552800297274782919653442066137949618476438546226464240022646398561139318792961025979746048549540671387942731982045027526190162285482156524834144;
Add 11380331919004137947649101909386526973927953377302590337890535960342119617681433713519650590413842769685861688276569226326589720448225581280013743774841814;
Dbl 6696790860762820165822742896156601677623861391861756554428056608135156596916012017675857599472928599208704415901653476041184617545540065708927442828887608;
Dbl 5664481695306580070807036851985904388524197657181134012529574527933178764911697593506187368880876582192648356250747485196688426907605029387801752447292453;
Dbl 6689125526923615701227394479644435856663185206367404536662103961777771348041527418957543853027757796840005509838656323929044681221541915690578325917504506;
Add 11417126502292501247032823542962869325980310308202022068062035229928750644447566534761341106453803936898725449267215940198778481579761759806076502447206216;
Dbl 8408602694792638303167864977568172510520941974576346134581044485158379990448216509014823655093090442405452609496482118559535916520745443248241019396345345;
Add 9159959647498179928908333302631515659790179149119675933230762284277680281624465175784509131548998295836824285156988592780385553744555852660892296528867868;
Dbl 9564249040454664787240325030900868626251504616598130650248946922444171337923150871050951876963862416595553896789464065861214371389000245152671024480623150;
Add 2277286527820922119742895583377071243151362802857495893228145909499326586359240593761144226174060238226821153344581558704521304139242364721540887835039730;
Dbl 11406797379693555538747597453757587500068746814928529294342681613056417703712575818601380149267451454360720793825204611154848731149400848139855049708788547;
Dbl 10548801507633242009351524823675203039296172341819212925997980744708108738627421758970184310011656173933543024879200594440400376566782735630148724812690688;
Add 13305683463015032114761327820872840522129622619195466566189835254897433818531957952187110425990602701421783778244144477399451572515404084511395514934039388;
Dbl 7148637018672074081079000007927428224003273798497553711477925902877302445071596806694378404478855329458168991366795383568580530245876623702975836668266475;
Add 3863809275506574284409624701575626588939225237124474814031237392693123657869370768324374861554149432923907344941811783983518826144523261627808385622126410;
Dbl 10046918358748642361863270314343127653535294641163954669497321568503022711268376684574083882667669724447160901792035382232190668142034013099456688671816407;
Dbl 457118778986478065319233889531355857996131025036644373624154454514919715375958815389818255131876597070164266920413374110347757021027692843549558722303463;
Add 3302044480779308482544004350632346538813730759293099302286680180121752010383967678115820945378459518956238267370707701248269985379005804125715653525557553;
Dbl 9399461810872314404039497144172047030761911389643502658370772834549260858540445443972885825142276388189971506610847318991346307275903094307404492473747863;
Dbl 2381220460679044858141629205817499496430997122027261412649320346522330355751065367954209392601266822513332699562255093419193504347217241916745442456616855;
Dbl 2929617952916606037442502123060727697393815019925558342709579337310152791971832271399387929458589345860134072347187839468144055155556207429919763351832996;
Add 7971679736105168430708610049246392705036683420206427325801691211138938956411219602353511258123618890382095470655445629904929220822420556373827007226968081;
Dbl 11970873026157707771772595668214995904063085408932064921260188180492189942768172958393015788144129561140769285002941908097428054200599555791318599145780344;
Add 6447741702497566782682756975286647729547919235264121579491611718204706776732194000487629282614831104721081592529923916713761452601861437664580168103441527;
Dbl 2233455307906892361882942364212464137435068392746524717464000284176813838699073110907517660169532119622586658296844193536501486992256234049356977423337525;
Dbl 194302066568975072262549758143094617012932518263738401797212714218180252883154133202948036683229863574087436317175481859211956802210322906239682310617229;
Add 7223452527056982487547153250170196547763385192743327077454503432818571130220906766975117349503333301913280214275166596281801787161717344020398198109306799;
Dbl 8099133978460371542503377249221681890662213503381350941493610372354622446389429451497067550929568614542539111102980720134571306029293237997791830853470814;
Dbl 12939661157918494699850763980673637428276211917450248093277809295774314257995529606443756780533812391944588195623210355754496408000036010157869537578391208;
Dbl 319420572867265460622928536863673775046799517179222937659808915124942337431323733228681438251673456619311279352969233660043482771109596006429288112537544;
Dbl 2128488339468631825290348804869888867684311198066745844063297516951881883810426794503434388648255833151554703303061679096470350967555519578315210102860346;
Dbl 9821930208708704643674394529296235386349807874004496676156669997212168862008265380896982804564580214747918659265038864902775224561836974971037227126935811;
Add 4913222133827367669826342438443309614842110299142895199120121722619894016181889240699806922134755397980185139226099311485928183645396021570025606395143992;
Dbl 11754118949238192016955124272245480864553734302905314961057894500604020364327824989957802892071665793213090514302237575556395741343132354519056065302952120;
Dbl 9909422551641647645946316575817387661453483080396451152582792656670037814082761686338456637544804375808046211745876561973270305285638253724183904505055554;
Dbl 8282757062740487051422882548317138191129352011971897407001353172825984478542321594404516434223851868381340582018959106554973114523498121889468093376644079;
Add 8583102800473900834987863719966391762205512477414598763684631788733378177111446592962482979808076223759098361733915477727781476552628968947682312887365982;
Dbl 12174414680996768413688144074839123609625657453632181791178712155478986580405449598029345632730930785264269592221277849598396331229994982074880678889208796;
Dbl 9223723349140491322187203503175917668138290125396784429245971689298930059071227106536892549490000993173268443968767950271184122618016343388568077528654190;
Dbl 525223877020801061425744964960263054195560928495784958692105523247793642593735956854612704144932149528403267460804502427706223044806463338670315264229803;
Add 12842259545421655143204286128581892555342148853007784768975135308993498012187603294455897170340056566250298258832943489586660414708595089506122390730416502;
Dbl 10417043097850435676298555233807140891142877138003484034039749143687736675523806356424808555915419797502697802513945720272103173194518472833115411806419262;
Add 5854461501143488988668517309471043377858452941599988793471953709089163921335110821615382345870552790329606325544970374095241354528955375846291878534839254;
Dbl 10760108140943210374389419401742274838112644832103010434711990685274705246581827907168566540586667443280271779400978948437102694345262064517994777656941268;
Dbl 1571879588809491569459485875315595391873570750887360899604491441003624537048939976339389713242163283667362971937631224897890871146500232657097184041174556;
Add 10484399846556474286309628223806027714119072868579022051557083035503186390075889668801950030736075112314627275262156759720432052762091237014330706579236399;
Dbl 4263981492424711283050025241860986148521359265138732994846558546184328963880868347510664663990187451077974341807278185914444601367830665499833407097892598;
Dbl 2927292513092124173763812084043363732482571610603103866703378581095347596241778844255335534194341317091897749443643742330075347383073209476566309172488102;
Dbl 13319027721948573804982309849651423893177711310040185778662320795559797244789268973503388778262355420781570081104850837204598863581359246820444476178478555;
Add 9102288435811585621595270539763790889827988595460357803004682109361062691930489858232519319531902747581717603682508617209245060008656680564747009461478737;
Dbl 8870960647931132005958764040107072651297663812537479793330250205165307438688398587907068771389207998151965527450835761901446592739992987211051207729916705;
Dbl 3245969568800224427626361820407105964456223977554756744186717400167265793688990648226449382065952989036885630187849864953821266151660773769637722588025396;
Add 9516719585330561962071328758515645966090072325100382187540039502748229332313132309039829369878767572164965896140470711616729837804923731292717405973785490;
Dbl 1533425605590127670727002649570814375130846071022457689271663099874072425414676087042214429995729127127982466428239785925148598582978651489432667280895387;
Dbl 3464148807699565347111425778285261420865640791664353051637032586738486051156404087525031236828844778320061370446057056607905803205245716854983805369907845;
Dbl 8674549883303528926025606723686101840431234615844103642125269186818067452439339772334820676372187842515591089891614945206095695217464044434256462696351833;
Dbl 11729357848504225727786531436761641192309189940113110526626489211876838127250901582849334714992524524711754696732446543713375141807861404455245254043734459;
Add 8073303286662574525769296118980828044364676263873454324994615653181949168938821307047857898430797276807226512565117045860180878896102216790499189484263154;
Dbl 12853842514032009253884608175716933828708938162408389629173698200826921605617282883664506182397968750444018843563536239054577416073342166320084443532605204;
Add 8841880935508594792886933681410239508432314286581029835978291334730350346627730127345510583563114061478631460117045841450254615118923325252703439879524040;
Dbl 6079419036517504149217617901571324523963063827265136603596277391535750543941691894594595329557593782477109156772277171198757363137557947907559866773705743;
Dbl 12953122312643882219038679073876034685184631547402945409044998615787300659932011280305945313555939008298812482833848396277231997629808721362354448535736021;
Dbl 270974434809223692171523290147204915083066525193081206824258634717874103104995941207807013236738818374021731504374930207597420991878050755814015074387720;
Dbl 262362090408911065078492893986086764675468578160859286823417091315217395191216806740274850360793928704595311941421167883169915145544274626669197151218451;
Add 12575470624276401308055515332853444888355890418636664195711179611814575219327182510003525657190675452213135171053821585917241897190777561378011212359679567;
Dbl 8265167136132093792924926912815176175562978264761066746774074012305506615728894989626861342438086221609758532912800025002306318287086714441917869374331029;
Dbl 1069443958158040946647754041381630960113522185939709277511607206854606823156638624978134750302329443379728134228737588996993065888021605570223705767006550;
Dbl 1227237799749094043271683813195045752172584775225323915113028822074731207771021580152064402192173516980117512390411363134414798021239342073703866137902189;
Dbl 4786259403468413461065389636020330184641306095991580282465182446971566061805965158857769328440092912801212910125034975622144586067632629807512862181645471;
Add 3467727499644005745300336581202223766366397733367562837310107577552588543420773789431184924451692906771439453746817182643713118328695578401356025744051088;
Dbl 3127254806946122657592163245078139140439751587378789875276295109505482055226155849742253576653243635978606511596661975753160641447317995867810581860618227;
Add 3769163388442884620261156730509746462746329689194676196490811529803940915011933881492303691927220281378152768252396422257848355457879773470842609593483399;
Dbl 4747114948570200650379656486413360462350341625705944030722262895462782515163442833673457196230359395352713226060398741801661718464356213029633109692917575;
Add 1930970010184179867742325574108054724112833623026481807748988171279479802877576645367365366233617186265662200059449644998195855688322131567291345738235366;
Dbl 2687283082656222664698398356595083592750769766109352265643224897675406305736749140062056457058279653024946966692443384486063273829021319817264940032774444;
Add 10332459787402054462672056976726333279056265902009576265230836705882820389767862002985397967182042489857857326345033099953814782964578223258445080859514845;
Dbl 11397750819759128799625749182064530521274672938584495428940162893527781568943836080632155552408008229499414823793436642017616628973866912378414350037725331;
Dbl 4399787390920228512980491008621802276228478879191935211350358888205236039828215298092254415188996733027543324369151901420805733278624502714077116648893672;
Dbl 6340532062817925254864833442184551748472316424746762242523370046245765206323060408307284210078953476797627508227529002678555702734676116759233048832981439;
Add 1584618916051978892098554672836939688219855120576878493624279936797034896769306118227893737673459090164559461371673540216730823120288944828088701003432962;
Dbl 9495065152205107858228223969178935914155600583755404397801131480652874155509321656290827688767106407599248783648977096457076449081486791995715078565801843;
Add 3483698462052232478952195901754853503799404474233177378138290448574542524242311315387772359503623821880202658728444991122569470564606764765443070122781989;
Dbl 1540959971902341420610695205213103084287281490014953325212305818505256244568944221939749282930425493906628232016990663901690955914241849396378749885334251;
Add 10813763928736327411015335223065389870073380196442395264536869374585946784119336053609845263823091779795295479615264699611803647153711325908125333443385842;
Dbl 2859276263085306276143735907503808766905612421391054254978813976614535068576699765027663087319677845510609681514336730025532957100402124244877316966214934;
Dbl 7402452738780453168109305781846840676300040949297406626280385437408147550475422136179698485641350900487326884255842178348759915874759591303854839606144662;
Add 641872272066349723498522021744473016373433594758566566803403449784704772533768999415469335474911602909541578398692379358836440945596557606591498436686475;
Dbl 8803890783152042185819265357994056613890437610256480882467891829427183542714983001333210052045710364773600880365036307700908735735957482332448118738168984;
Add 5292347246174777234761622199405287738936204503573431653683825521504391247353291253821155761438744639866395982867924786757876220314657434612830217964316980;
Dbl 5803698671347796024827293416623742682847661924207310298304937395491307978022451925030008087204885823197325933932695085887747765790221288063685557432495049;
Add 3234895910819083605146429590301381364559996453984185338103344895826493977895516854747620863935163090477397430323279441886496252712659756668645913339952198;
Dbl 5963032330308401998022196921706580795497525480154993148855977538177969380341211185686132329741274620047561778086637546044715210164094511306878299567138060;
Add 13084164948467730154477770218264705022543906499304492226390684939303977687114428591264674659497859953229631763713009096681054421427985744125848715302236510;
Dbl 312263111600896923349946271430786815485923708608678435213522046103377873003186392641003148361549912098028404171898972281642924731660164919479110766998762;
Dbl 12168672318701564144454916340901243513796271295500104292014661079746815710541857003202441119584765707091581757349645909028577777325862116871151658096317386;
Add 10840049403169594476588180184839070718907581261202569780404882023061733209105667491087403502082436310694940131509799133932486722732422425121901544650837724;
Dbl 773423297511430217217410190486768043908538411986758679567400658190950921499231898026513419763668934479997302296219397813316541526403497333005071540751463;
Dbl 5303962978013676014673054567078961014163732814538372553648360964932794250888528136061436104059834482360004386868177263824685268361703140273881630642851850;
Dbl 7572185477728002583455842641122592629686999565544744432532040263755190429754009282151149870265772550682070497903192873222774817037443153908452267701943714;
Dbl 717561642604699357597850420813405800045072800153345064490868469330213624201452811589301979240871913464234753798292557229299936010987413664270652495498621;
Add 7763994058236258072506068423969384421970875618104396990886785665939770376195507236241273370505563574700533833965126838118556154931221295161737820935117170;
Dbl 3374626365915139680341180388503227655804965609455733239470877298598333152067282623046863148204553659145098967123034444023667561936916309267526239245915205;
Add 10622085875630180761613941492591825059815151398902883078946747013787298466986962814985998883120512137704632356230096574605940841269233754394325622775547292;
Dbl 6689354468441592272856262500428240468873691805084910370603703866375397792823833856767945063102723627107056745794143413455921503001946911937447423394010450;
Add 10735869757610388748135019222271357917560014452690080599436769167226832439376216856928487663059794526730358938872765970288018224586891292614795540175438034;
Dbl 5195400602689845580978206248371048623434276843503355832557425988832270865009085484227297064331150699939877192831318164570762413055079736921711037359190602;
Add 3568946609930112539792769623058533757170604232147507797733688175972055090757545243530933807699537463552873053622381445543391177644342811351923192755079604;
Dbl 5447681828296273163517898848199326982181532484660919371853331797449953610981477990477198014032419687950132278510751334334470174845404488687569153101006871;
Add 8356412025631508474957255871249745600166210783503558670573460896980518223866415294342390651059238392017166559361751356657776419347103125139283969787481528;
Dbl 10211246832533420071172408864420696419155815807831166191768302958708823659561836693045855088267287091602147989029994297864749641057657361582663357281352182;
Add 12693392601384199356508302568523785513816884435083451012217638482188406800584320677794843881527732253873852386847538787284175902708894620422543443410406811;
Dbl 5033620347703024509332316290464673476054368937560721363824314185495461874110724801285778829837988074591568983130018767737282241560296769542397105580680129;
Add 11815412403090485497729906560385008115412332941446193168243085761651903969917693342477844284448423632401873484489227214935374244135527967714016768352901364;
Dbl 3217536813957193573357258940721210881771129071204521566547500678761477218608729051072684873197448060019090660568654126644993110214632945130055202964070760;
Dbl 6475877946900078684413551695088893850929667018402570441335914840864839685161968727740932994788946384387295351932915267379883744368116299942773334495456440;
Dbl 10814635839799631537914949975409502421144094971003217326489298557906803726395071389121598271537334467921092595331730656416424578665814030135150418483724329;
Dbl 11258022342165083038883963384208016029438247425367873199593292319474662358709809227162431458373078151206145479338385800558756683461615437140030801882710260;
Dbl 10987673107956010057774259969688937567455202159392762020507335127921774983677247045151062030070123221927704764921134896707564113142098191074467984859402115;
Dbl 8126329017162141784648723692878561672486680378363058124885192341898811555916886836633070331032544743217416481088586178444889710914803207106647187025353544;
Dbl 6585372002550891052004225231776496598732194899846713562505193513767293989753907640014090750578573465926320057375990617969257776709792804425708570157567834;
Add 9209589193850308247030123312922591707119618893063795067397581741199829038138955473911927533369012766775169943964579240695404932383478064066263448354480148;
Dbl 1872494951712274988165102550971380725411702984658506310444962387402180212429644995457004065697012174421584131838885984135948445855591882110823787316821411;
Dbl 6366048303803070545191955286141819494178808767206282871824896686097304238653732762436692974397561934089915973754371306661641540310118237999338229466262845;
Dbl 9360444052422568482277187322744222302693029070191397845800005162049225127900728862830556266160104913992297209158405639192174562394580208704207431971520713;
Dbl 999268967971106584152179181813467757699085563565125647494624961694740996579966552909037043794261309109300659901890436794338890773888366579041561161005408;
Add 12370196410199505346931450848375628214432056391435903864124977209063591859007035838909520183763766864554445111982778666832665648844146703929052625503120354;
Dbl 7492383717134561057510219619645124427049258026807756195736015384331051678279752975436040449101267834988772707688617913374268977198512352510614572683291892;
Add 8967295726644451227542059312759388369918265058440108991030527566659493008577226691862444425906665071324633948439563041884573123975100414942339352992328493;
Dbl 4109943654066996664472557567087256248869281125222620796834578424179344643377265418687993090695497232571140233125162891575416431523076086158445685978127639;
Add 8372171417977681729460061927540053957442654047654387776252810678644910683163987334402401535710627664878116569450211931666156324823134641665587021410476069;
Dbl 2795887319573334553392636681013799739446840578012748920384721369194894434413092872041549788089434327827610910545905366172562484180472763586396141321957749;
Add 11951903241613236405134396437405790237975225912920425570132336538115729100290368963918877756092147620636082892928267057878968859180345967773061859727004735;
Dbl 2539339587416548763941741868040977615374540393865307384292514031566130633949169430156650881597666853643936587129511375897460618418508030057715315425533592;
Add 8900149474505470095268292647160504644403748825319010594545290896568249800062453817241578150141595953624991982425697829594637816106779148484314911130546331;
Dbl 12286411408539609674860140241618291085710277283440120229021574230556018358584728408936713438515134363492249854124332725224219659684188722429371684892753249;
Dbl 2162506723802134010423629899823899539906431322942855205527119025210126964474964471123977725701773932061428290836229544612880670654588251310711724377461698;
Add 6952053356710352665833400698065116028549682407802440876597063427682688397605948812689357266316021377220927045608046164633865955738813830668755920996566153;
Dbl 7208384537279558287649275140532349366976217595520236899860391627824241292919533215376841972373821615004467332181053049066352744586298961023937767970900318;
Add 310200569285214813310417058816513848589357200382525240725009026291686074709699538388666870272247655443526362604665975961664213631300418706179174715917974;
Dbl 9964503137612735873802313186184624405397349088569812898374621723240240251310902868826129684116607963367293848672218548768294917405947326853242764225778831;
Dbl 12120747076109435282000927077457284144361087606292913631593430025756659883874028967890246958013885981507509808045955865325116836542136761924723415537328703]%bigZ.
Lemma curve_checked : check_curve 13407807929942597099574024998205846127479365820592393377723561443721764030073546976801874298166903427690031858186486050853753882811946569946433649006083527%bigZ 11552207741726624081384854431754270453419990958158536547453630472753284279856029013033421730195977772912484970560977054897563749457966985165428182284278739%bigZ 11883046340949417535959253611031637438486121989357748247963585015455167053565085942161130870937622596747831459979590245849590330315393322885186213222089032%bigZ 12873887912291418762163219174899249027788909354964279561044704584079894283286935688639587101137346765264237830933785897290140286858111689735138773336704015%bigZ 9467654314974239364849779893497935997616546680893642377235981868741051215651032446828994750528267630604306101610711521055955290148577159125187794668181473%bigZ 8387402921416200334862154657162096496317296050468437917176389853790716057926060216350715772275627423982888721186519156226025925408692974762933547408991364%bigZ 3351951982485649274893506249551461531869841455148098344430890360930441007518362115868300084349221274418848205850841645514717116281909345935543464929272813 steps 9675428040946672932405855713893015684469218810620917889765591695575989422355561612085679060202765708724540160644182959423713100483085154862687836058057231%bigZ = true.
Proof. vm_cast_no_check (eq_refl true). Qed.
Lemma p_is_prime : prime 13407807929942597099574024998205846127479365820592393377723561443721764030073546976801874298166903427690031858186486050853753882811946569946433649006083527.
Proof.
  assert (E : zv 13407807929942597099574024998205846127479365820592393377723561443721764030073546976801874298166903427690031858186486050853753882811946569946433649006083527%bigZ = 13407807929942597099574024998205846127479365820592393377723561443721764030073546976801874298166903427690031858186486050853753882811946569946433649006083527) by (vm_cast_no_check (eq_refl 13407807929942597099574024998205846127479365820592393377723561443721764030073546976801874298166903427690031858186486050853753882811946569946433649006083527)). rewrite <- E.
  apply (prime_by_order _ _ _ _ _ _ _ _ _ curve_checked); rewrite ?E; [reflexivity | reflexivity | exact q_is_prime | reflexivity | reflexivity].
Qed.
Lemma curve_facts : ec_disc 13407807929942597099574024998205846127479365820592393377723561443721764030073546976801874298166903427690031858186486050853753882811946569946433649006083527 11552207741726624081384854431754270453419990958158536547453630472753284279856029013033421730195977772912484970560977054897563749457966985165428182284278739 9467654314974239364849779893497935997616546680893642377235981868741051215651032446828994750528267630604306101610711521055955290148577159125187794668181473 <> mk 13407807929942597099574024998205846127479365820592393377723561443721764030073546976801874298166903427690031858186486050853753882811946569946433649006083527 0 /\ ec_on 13407807929942597099574024998205846127479365820592393377723561443721764030073546976801874298166903427690031858186486050853753882811946569946433649006083527 11552207741726624081384854431754270453419990958158536547453630472753284279856029013033421730195977772912484970560977054897563749457966985165428182284278739 9467654314974239364849779893497935997616546680893642377235981868741051215651032446828994750528267630604306101610711521055955290148577159125187794668181473 (aff 13407807929942597099574024998205846127479365820592393377723561443721764030073546976801874298166903427690031858186486050853753882811946569946433649006083527 11883046340949417535959253611031637438486121989357748247963585015455167053565085942161130870937622596747831459979590245849590330315393322885186213222089032 12873887912291418762163219174899249027788909354964279561044704584079894283286935688639587101137346765264237830933785897290140286858111689735138773336704015) /\ ec_mul 13407807929942597099574024998205846127479365820592393377723561443721764030073546976801874298166903427690031858186486050853753882811946569946433649006083527 11552207741726624081384854431754270453419990958158536547453630472753284279856029013033421730195977772912484970560977054897563749457966985165428182284278739 3351951982485649274893506249551461531869841455148098344430890360930441007518362115868300084349221274418848205850841645514717116281909345935543464929272813 (aff 13407807929942597099574024998205846127479365820592393377723561443721764030073546976801874298166903427690031858186486050853753882811946569946433649006083527 11883046340949417535959253611031637438486121989357748247963585015455167053565085942161130870937622596747831459979590245849590330315393322885186213222089032 12873887912291418762163219174899249027788909354964279561044704584079894283286935688639587101137346765264237830933785897290140286858111689735138773336704015) = Inf.
Proof.
  apply (curve_facts_of _ _ _ _ _ _ _ _ _ _ _ _ _ _ curve_checked); [exact p_is_prime | reflexivity | exact q_is_prime | reflexivity | vm_cast_no_check (eq_refl 13407807929942597099574024998205846127479365820592393377723561443721764030073546976801874298166903427690031858186486050853753882811946569946433649006083527) | vm_cast_no_check (eq_refl 11552207741726624081384854431754270453419990958158536547453630472753284279856029013033421730195977772912484970560977054897563749457966985165428182284278739) | vm_cast_no_check (eq_refl 9467654314974239364849779893497935997616546680893642377235981868741051215651032446828994750528267630604306101610711521055955290148577159125187794668181473) | vm_cast_no_check (eq_refl 11883046340949417535959253611031637438486121989357748247963585015455167053565085942161130870937622596747831459979590245849590330315393322885186213222089032) | vm_cast_no_check (eq_refl 12873887912291418762163219174899249027788909354964279561044704584079894283286935688639587101137346765264237830933785897290140286858111689735138773336704015)].
Qed.
