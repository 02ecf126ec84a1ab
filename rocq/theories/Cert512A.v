(** * Certificate for the parameters 12_512_paramSetA: [p] and [q] are prime, the base point has order [q]

    Generated by a program outside this directory (factors of [q - 1] and so on; slopes of the chords and tangents). *)
From Bignums Require Import BigZ.
From Coq Require Import ZArith Znumtheory Lia List.
From Verif Require Import Fp SpecCurve SpecSign Primes BigCert BigCheck.
Import ListNotations.
Local Open Scope Z_scope.

Lemma prime_67 : prime 103.
Proof. apply (prime_small 80); [lia | vm_cast_no_check (eq_refl true)]. Qed.

Lemma prime_1f : prime 31.
Proof. apply (prime_small 80); [lia | vm_cast_no_check (eq_refl true)]. Qed.

Lemma prime_38209 : prime 229897.
Proof.
  apply (pock 229897 229897%bigZ [(103, 2232, 2%bigZ, 26099%bigZ); (31, 7416, 2%bigZ, 216719%bigZ)]%positive).
  - vm_cast_no_check (eq_refl 229897).
  - vm_cast_no_check (eq_refl true).
  - constructor; [exact prime_67|]. constructor; [exact prime_1f|]. constructor.
Qed.

Lemma prime_1ba006f : prime 28967023.
Proof.
  apply (pock 28967023 28967023%bigZ [(229897, 126, 2%bigZ, 17601558%bigZ)]%positive).
  - vm_cast_no_check (eq_refl 28967023).
  - vm_cast_no_check (eq_refl true).
  - constructor; [exact prime_38209|]. constructor.
Qed.

Lemma prime_44_b59589f105 : prime 17272572342533.
Proof.
  apply (pock 17272572342533 17272572342533%bigZ [(28967023, 596284, 2%bigZ, 8138926537032%bigZ)]%positive).
  - vm_cast_no_check (eq_refl 17272572342533).
  - vm_cast_no_check (eq_refl true).
  - constructor; [exact prime_1ba006f|]. constructor.
Qed.

Lemma prime_69_5572597d6f : prime 337731401551875505519.
Proof.
  apply (pock 337731401551875505519 337731401551875505519%bigZ [(17272572342533, 19553046, 2%bigZ, 189506845889098817888%bigZ)]%positive).
  - vm_cast_no_check (eq_refl 337731401551875505519).
  - vm_cast_no_check (eq_refl true).
  - constructor; [exact prime_44_b59589f105|]. constructor.
Qed.

Lemma prime_1af : prime 431.
Proof. apply (prime_small 80); [lia | vm_cast_no_check (eq_refl true)]. Qed.

Lemma prime_17 : prime 23.
Proof. apply (prime_small 80); [lia | vm_cast_no_check (eq_refl true)]. Qed.

Lemma prime_336db5 : prime 3370421.
Proof.
  apply (pock 3370421 3370421%bigZ [(431, 7820, 2%bigZ, 1522622%bigZ); (23, 146540, 2%bigZ, 786486%bigZ)]%positive).
  - vm_cast_no_check (eq_refl 3370421).
  - vm_cast_no_check (eq_refl true).
  - constructor; [exact prime_1af|]. constructor; [exact prime_17|]. constructor.
Qed.

Lemma prime_5e750edff1 : prime 405690834929.
Proof.
  apply (pock 405690834929 405690834929%bigZ [(3370421, 120368, 2%bigZ, 162012793351%bigZ)]%positive).
  - vm_cast_no_check (eq_refl 405690834929).
  - vm_cast_no_check (eq_refl true).
  - constructor; [exact prime_336db5|]. constructor.
Qed.

Lemma prime_59_f057a710f5 : prime 394261712727380213.
Proof.
  apply (pock 394261712727380213 394261712727380213%bigZ [(405690834929, 971828, 2%bigZ, 155016254890540612%bigZ)]%positive).
  - vm_cast_no_check (eq_refl 394261712727380213).
  - vm_cast_no_check (eq_refl true).
  - constructor; [exact prime_5e750edff1|]. constructor.
Qed.

Lemma prime_230_a7e9b628e9 : prime 926734293677401922807539456296487968545789703463419605036547983157481.
Proof.
  apply (pock 926734293677401922807539456296487968545789703463419605036547983157481 926734293677401922807539456296487968545789703463419605036547983157481%bigZ [(337731401551875505519, 2743998009717363041559881053002771294311408320920, 2%bigZ, 598711773545136234717994645104204549449540024636388248789297325526178%bigZ); (394261712727380213, 2350556150295552639250702499373309230067969849381960, 2%bigZ, 149504407340832390603036129249070033730795046526333923233548140938386%bigZ)]%positive).
  - vm_cast_no_check (eq_refl 926734293677401922807539456296487968545789703463419605036547983157481).
  - vm_cast_no_check (eq_refl true).
  - constructor; [exact prime_69_5572597d6f|]. constructor; [exact prime_59_f057a710f5|]. constructor.
Qed.

Lemma prime_377_4e6e56bb2b : prime 156653000495853514427094966475056866493477049445338089663954622108777301298738109970223050607345391305841500928811.
Proof.
  apply (pock 156653000495853514427094966475056866493477049445338089663954622108777301298738109970223050607345391305841500928811 156653000495853514427094966475056866493477049445338089663954622108777301298738109970223050607345391305841500928811%bigZ [(926734293677401922807539456296487968545789703463419605036547983157481, 169037664371126358604707925998243904115034010, 2%bigZ, 136986000473906414065733391313105735722154865544138502395019671696827540643708117890031988668226142539585305227858%bigZ)]%positive).
  - vm_cast_no_check (eq_refl 156653000495853514427094966475056866493477049445338089663954622108777301298738109970223050607345391305841500928811).
  - vm_cast_no_check (eq_refl true).
  - constructor; [exact prime_230_a7e9b628e9|]. constructor.
Qed.

Lemma prime_512_411f10b275 : prime 13407807929942597099574024998205846127479365820592393377723561443721764030073449232318290585817636498049628612556596899500625279906416653993875474742293109.
Proof.
  apply (pock 13407807929942597099574024998205846127479365820592393377723561443721764030073449232318290585817636498049628612556596899500625279906416653993875474742293109 13407807929942597099574024998205846127479365820592393377723561443721764030073449232318290585817636498049628612556596899500625279906416653993875474742293109%bigZ [(156653000495853514427094966475056866493477049445338089663954622108777301298738109970223050607345391305841500928811, 85589218766974664876511562180793597742428, 2%bigZ, 548896718712748143789188984318123370604094380163764473107014540648016442729465440069572550095154660952000380147336061832495015536601871885024592449048155%bigZ)]%positive).
  - vm_cast_no_check (eq_refl 13407807929942597099574024998205846127479365820592393377723561443721764030073449232318290585817636498049628612556596899500625279906416653993875474742293109).
  - vm_cast_no_check (eq_refl true).
  - constructor; [exact prime_377_4e6e56bb2b|]. constructor.
Qed.
Definition q_is_prime := prime_512_411f10b275.

Definition steps : list step := [
Dbl 4302768665885087322871321468508682526430430224658925541316136266850142082769438052874940517982855445689864561918346324969849006289488183241061396938793341;
Add 2818360503796266614679211672869655603491461014641779766607971869637120246302864220748816887666452648239021359474158139006731918466891767362026871710963361;
Dbl 963191442641725304868445992044959278264874382561091253748594307777380023839587706155842850389366923325429751478429578367188415760393761453405936936876619;
Add 13020946853349708033475162501671494836269226552451678177857981818562678255964336831713884634045706084964741271413137824282625890124090911990108175015166132;
Dbl 1419170120380542758403981171433187200378684795843032879077581471535299212876416932625962440918360510640225617927321543205654082505004618719516819431345730;
Add 8228582260417563199295132507975467014930401210760843695590059199309737551308461769321002485048000411277901000472652792841772304329460677232236288720176469;
Dbl 5515674772950120405439494093465035538894340997782252079564624001555458261324083552264406699969449679549172434691529198857526971147625217871782118276782765;
Add 9755594285931844332324155296686840167350962219445058183473888850118226863006820551856695333755175836033390915631270495695004186958308320889602758787001419;
Dbl 13352443160648654686627647587811866914909899057656321852577082782984896566592867149163784814329054259234018507153804145173844205530720379028797542754504415;
Add 178613240117161850509526269671822622119983898276167625362217564562409054154462679842971156583331035086118455714747147340059354185386425794914678918699424;
Dbl 4773276444362275673375290683479466502976166169542538633008666487928940032472332219065445509036776706751582448486554449537184832222270134346775757477193924;
Add 9200178779432111047946466706790801958548058343035413215973525875366323611567651646762320044694514722020462895991746131127004213188489051607366697092936640;
Dbl 4051034964341218997469966778725190136422615217764622386457869455580203508008259422022382125710162740518551574057128512369924574735149515281319742910292904;
Add 1226172962901467815090276396215232833947119087419299883136439043348282362609768113893399808325118185363815599625141734265979870557540299325030832351504781;
Dbl 5632117758847711897482501507108164313351757103836009394579042861629756824746284608952811559262148255787053339253894579337841509169910187003506479737000401;
Add 8623623297232181823747723565152934117034692183396955809140268431731916121592786599580672595932421786606874575114738384854452732288060164256572307303157475;
Dbl 6962497685231850511584040423210948625432331076050276015200050663338033056062574749048671700522647158777760480912098333467363135490811106648961470848544694;
Add 4803749909634445252025330005928326812743050846078280052752751995130246742538787654919623753654242017783890344134953488232740550818722730507402886791138292;
Dbl 4885588808230840377760334945355857189178989829509984644707798084504641107837366389259324861494586811436060860983990971423243186805558896437076390927142444;
Add 12420523003832477952835836559665114269289890430642393797615397783531561603878496506852397218886184363906011008401873432426451482828497298674629645614702083;
Dbl 7907961598775354283879923023450219473411870895247788245424695230007956427576962730795476641791668102596522743518683661666402354328991708820782417366481085;
Add 5519999098409895896034280884371797616008735710011277138602982932626689638959239776479488063512491521260522195661200454418896457510886097268962853384265983;
Dbl 2291134433695974469690978620790227562537984176216740337615898583817471850252345648361032464027737007853081325168437537675855202597837774921907351031240832;
Add 12197643654017559511364432507660988961060931756248787348423416996707021993477211143314607901032570912769328505748264977999603983750066184399380442802954304;
Dbl 12642064647889775413289464663376978422609023003058033016412675149842347145137478303342452744584772480179105275696452567271848144715509289446552957060703143;
Add 884116379877759432226297721300414171810825525999929181675634824067644223714581290611760984113719693790586910470203934698889606393715698489795818774454467;
Dbl 5041928961000449651424739284496743693837934629002509126503313274193819192544660932143484490520679255728420390499547405712461175895299200026355236542889109;
Add 4519734434093326897151337368970526038825126210296379062483198709318854950026511577646027809710816675580970238544226533726497625711922745896139866267611386;
Dbl 10443864897888016272276433875459178074781238487602300305364587470940002390414667161846460094420341692492653609097031718108459100991757390741299809421463558;
Add 852294136295236707514567371118580285893556712002961534291026537351842023846237334229256269354887091423677779961922112175405542706474972321079185707139821;
Dbl 8911813769339762684918624336899147723043556347483369436676778278308001415398404764938531331628140823132414277597118457657141792439966522219329220512352381;
Add 8380540103662697000754178620939121690659682784396188941962526592063772635214575286008147624560637528995635678463892857532093929467756705239288537398166198;
Dbl 5272889016057556243208609671857391742772663174307148253731416599012406082744981941320958143725603075332222750975272164202316681510522471646049635321250629;
Add 768245324082145840942878611416421700453506088038935397797154932008901925286996435624763820748878553275388467188620958831990519990396267390230105420200869;
Dbl 5024067342601060438623280598937514940520426926218472496232022004192408586870191571082588527105716929050668274022447979892820667098179102586452912990031034;
Add 11752022561495915895902972780105838145676568350666334573089547670900708660672355746215221545483899319770406025433485289569889773062569951536159408375437219;
Dbl 1075621311790645154089424898228881737598720599011559877725800462128470780900086108987746583246227492027130640236100205504252583844873834195364440268979359;
Add 431566955040454535968406311547567935281932205177324805196425645350264204734131523421082754657417286540527238632072084175928681667181019929791331689966005;
Dbl 4406294052955621814868626245499586999183159010797198411307856771779013047786663762474221967514764613052695486177361489530121560427780518854050414682652070;
Add 10677763530713654571036186566678441056896711054274039817370387612360311176240915460814165879970841923441341999179068720808713230311468058259280605990191870;
Dbl 8887978752846694735300528293452784599902025327679902772853029397029794864435194511868821804163919648450324693741375850462145560320227216234776394171487510;
Add 3659196758798100170621161843777808394818067843839049093985004264492231820455558567836528416542899974525283024254899629260107163987397078018516956456961326;
Dbl 1051913679718074828722913134008597799198756058057321035929222054831693097185615955503016217699537990072686005301205042655935433635091230621632822013058584;
Add 3886271638396965147497848796403710974152429368865600526929388380302651056863532718385361588234462452581484242120525326630609743095089847036167228778191448;
Dbl 794591201812741807200927981263925458630548517541456368458863361504878388199934084914429901352167227677984752874145287885930948726804934167130202539757933;
Add 10880684851978306272762016964317575116907813290684601590175170368486001054056384246507568386774910121054183884548004313330112933811378102615613931791061659;
Dbl 7397233189529462162196123770279979204862832691362573770538239705634320083454951814949964691482575012629343028255013731443590160259416506958809179105322212;
Add 3797828482672610540502274315922706260754237896972087742751709221724777404985222508938971669601315799292280427291306198801457774624092525296780686302611652;
Dbl 7110682029430658029725907681425210612834384502804001276727482842164305519270040412469021102467016943096791927068031016983215609274760472523093772841176600;
Add 1504045682711964720979140995709707691949105843992983381097893498581645646174150257840210519322965561436948699202355946473247521612428850900278774503955992;
Dbl 12981059942292607062424715302354690872190271654712860388954065910616037905089754545250462822622412416534782122813860504028509940929134532535863993469143283;
Add 8041385786352111766275754191091926247576867622568957618701388600384725572851780391925282740043095162074690073347561819986047619169977779475525609481989509;
Dbl 12933797431013445175229295189449224584630936809007200853983778232259067180809040477200523935212703653679060568273877393797485779384037950807848083195996434;
Add 3893791125624396132344758913120556152403365490143521544311513009601381407100435406464793797156351380570481577363238818685481472418070711034178958211565480;
Dbl 241794872805864393632211089454224040322138028602094746507794338596510094765496223521728757632011178903944674816645852230263041314743290229098362631965010;
Add 6738091029791809193939557377911321503110434348776414919763298559619157854685897486776680524789668084541602953961242825320491555053377485071564218208045604;
Dbl 1821806697419608246676823401034603684026276093830888184722771589680964432364009214399559456996791570636767471709380024060660197364499461706504670218020037;
Add 2283277730042407947143140180973076213165787208658025456020480496070914398898441298540964405482950540474354489517455959656612858123978120885188245432855992;
Dbl 12126591099029770528454599637200445678272278687587139515316158523219593971085860288222694224357482047149604724433793072684680354109474514799317939163758625;
Add 4358247404625794886442098331720389723601216380977531334311265386678738643227586571072025837983143752683304342953303955373064211523914206707314620414391959;
Dbl 804229993269821550809672172932984904517573511569660506971107194864431663989249301098918713574299081739764082354590998115769045823347785461569702952529079;
Add 10471021398686258060586262520320373943267731835635232155870998476368021727544938518114246569819386866268628874241623093067486799790335869982354485751086507;
Dbl 1407656465989468834437514013581863339186828040877563069522921213376284347360442120372829171027245759919075593237748450528765776667698155040235092533545610;
Add 2126694437117402307348749103973274623158718938267522899720242892813352008740460519276502065064461696836987195395833308003112162132874100136353577138394199;
Dbl 11630503984005681529977188601169597840666526433655611361345114398712928743910531454639948762207908557491003447059955664161239534847353432673726796801605822;
Add 5164500629511848259452358168899691236630992435268107563820665430225549540787098714996668536591391619028497280092942627211077720200145392318239135952149548;
Dbl 4699618439491875789960714971308835808671524545951146569788192257520902990991749767024383863559004128922302152657559255976812514893140150219233311983769135;
Add 2256970584024285182772873585400167465587924209243509523757777994581295984838921658605927833878000020811870804709087286551676320406107476506498537550286258;
Dbl 11429890286382090501976577812431196029894981015115976089370231696983030727040391430983895524851208036740175340452094080861866772628938088912281893364198392;
Add 11758575274175794131811483033466012969095494912193598348271680801758005665048896330933876650713405035357426465543731328957495267088323575437128600640111268;
Dbl 12541132692312111628111702914851627247721006866596814127717397590661848855091695006901070636251652076382529740043857803897269428472347715926703017040875293;
Add 8044370729000060369192067720106592409995070590751943339895880845176569389806217848845506334827105444374030508738218285849500753152129700706523408029816848;
Dbl 7021304117593086678768010463436389275651001339903116761007684316715408561848958261114505343985685604931350623661162395784366634941961718282564431798013596;
Add 10988980516682472358010943784939045816340070790890717496791437280570494958863764973395622770781322648539622558542388888205926758599914921561455866311848560;
Dbl 11412006602188343261617129522124366779126768881091171833927113482469216878456447720563537345799048475583052135658660153426681069988149165466242934355750379;
Add 4384290543485803390871486621148614450434275525587096923713292579322022426327031174535259879508145427368648834464489009891197761185032014649436888156584040;
Dbl 5346023841984246604338634384118174627870010478607629941638426952085503060995783607432662110222521873620404460511435424134884879633033514729710787592992746;
Add 7216746110630412578139082044428700763757696787630514983283484193020908580245973931151858735062834602771224939962221477539874967188525422555351449035991122;
Dbl 134624181337832856587132354319248012316558531695551910085245190951132563103734807763444207268099995331366593753072422167879977512988075680372239094867357;
Add 1357467490669440857333904464053421068210081805299970472793933788415275424264665426300427188249873466150800160029344988360719649700101551942200690643083871;
Dbl 10082583706375568771839642711761946627593930642462613540762876716838672253192481820313518786669392136399585584333042884105012633466623524168843883443792617;
Add 10265390074212480143115509401696624321131575553646580113538641720344080101078868910375380103944392426609924087874115564816738182668569756438009116670267571;
Dbl 11439135326721402339131697217023053558275224127398375924791236498638670142751564255526295941428099193434628872311349255271897507459492172881668198319139886;
Add 11249897187636448088983994166586299315711065807473901807487000885558998131164161247484221872026499678310432121431803234149671680234185867971981504402055918;
Dbl 4124206413743957382839103739471141569245625678606398156828656549537454553407877361556426351989973784376548194419557132438909235959454221043094467288726461;
Add 11054284269951620897941516095424624301083944714936065871049515305566284234620012804347835125153190602140906560590289384357383390183024893415112290711991366;
Dbl 5912508842523427164446468338801805194411099870419778387449346908387352148842284623426182196060648094989424415746447068780340238380306631726347048379875149;
Add 11112894857275571167477513770942752337777923817274475892362314899456571072432260951590182659460116549769371697151167867266507376919100932729383748934781220;
Dbl 1785110744135594453514826935393993961149953521467946621848284412677111447576598299984704397920715064746302328203526814316077904400566469235998002487495476;
Add 9058833969877375258691480042046084558638999454205369160782804162653935119791449318883158468850580295854278972304460844584654622114052901168905162774305717;
Dbl 4186153401055223955799579828096389236019741779823802728759776599756985092231016371806653882640058965052644258179395312373716443556422152101297140661540114;
Add 6853431674658390169805218196817381748642780764176521929683631660481707895157812028667627352682920171848129199653408289906698994935627310782767829663629124;
Dbl 12526847931105824751949273816231244542252522806729620228271640870758162580316655254289033511055764389885889545062689813150226288193793058423539115273622821;
Add 10096301857866528981294719147835945565182801116360034576893687497577979828369011720867091189816850515206730649095923693773736604669966294258952711729838804;
Dbl 8328749851169350810743065362455439878947456352872527835558048328577512256928298393273421528987747711532548875580169500229954436864674701108927113065756183;
Add 11302324468535420625116094826880036025480758120103648056616397655964961376520198150848756305284178710238726307199772044603592616145383787165778721427628733;
Dbl 887879842384558186878821319968707481763282587460103761230909898876994568630649190336471194108610707193727118081336514625954990586064741912804906045432001;
Add 11300805044450696701197232104698519052296733175784962045480094248214149928965717460808316238522466387835002323338926567407802851722194621158350854531665871;
Dbl 11331954968310039454603076680612910739425580051248550926229974234373312411879700516477250846653600434476766677847051852440768760820779138644817823501663375;
Add 9942154291251432781043312709141066233258159461869034044767204149700042173041019646493544899320528979691163800191589598715346118639176346149770122219629424;
Dbl 4146756038690959631091134262577109037482340485160076521361609411127152578103647226122236394475370447582759502579038509708208550013858457495569241315249317;
Add 13254576589554840352458795411170932833132187281118661444689073429797390465200622954957175121130123484823273178418139371458399261367469243449393985197837161;
Dbl 4838227196528796730054847473261222495631977267564040333906764971988767120454526556457395964727550721791366161903774390141755508227513471104768222117770667;
Add 10006945379846123175424159277639438335657561061806468082121977547323823370948462624084707835257531003773739238804541331645511925560095571947558528138197275;
Dbl 3468086205625105976843144148737167624458986178816658085121682659198189005564325718318941505159937727211693592347728643165125073348941416680320116250469123;
Add 8759243139049508853199615952410179591919547424281106865877456381518615711178445571990466824323972571744783172679384108328149461289933217459880758851855437;
Dbl 1800719457279609975157263613304610622895807860612458505711900595950329673991200276863678345998320095389181230466829778067530107537964044759359488220562699;
Add 1063805074200033968932636074961439880792514106978243474228900840488896848009222409372063399601357568375080908955898140698554198117375836383562499070670827;
Dbl 7846879158879627748149073022288336634693110939128426284173136498568503178780217987586422106328879360365263013007746937301246064692518056094001272588826314;
Add 9530825612992252337435159501931318876608383395396536099805230675207430351624472753758030450030295020416883287107926416829399719653183680368037650586972328;
Dbl 11753825702406278069542791496780740978277626443577786202835948361291113763099029790746043637867397664163912919993450213251892142951053495080304692747432157;
Add 1882424804826457786382803014708940873858363093060068917775507656585091955482602032962385174719584409920369267187979377157950306035531505551152912553028692;
Dbl 12700769635432451059496315023853494947089874960795098311412105934029176842648474401220717597652997028744338918330697727126005868139690170325438404926524799;
Add 7107864515392365206299221570275299225153462846726011116136019535379460950661566225653212025186812520280538635054956756606016839943501738535619209740125067;
Dbl 6012048578563740221190541071112384711073493059066485184191383021985441131383091561773161752330501713325358907320146931121245901373708600820927071267697239;
Add 947195659731118833188648368178922432195929956375278518432419096583511242820327360406684173105764558875429602466779730494795436020242463934331606713248051;
Dbl 3209626810360746925930657617874339807170777481113547169305817932889597706903419806982655371944012162096640116129685004046965643166623009597255690156046710;
Add 3297710789858440145748784234115757480125865034925385032622378190176977104659180584063226152695072362746428706584171620696855543956966781323540513168484292;
Dbl 3919226976244739734462380915049207989501351296482497305093367099753584886882635843609096716874743093204602836114562494879784738126245382830221915007464369;
Add 2958652345691899535676016901072023340036676944477671387202124659366501118467444085895901433651301433964063842478346653032346466573088165654604164339517632;
Dbl 8796720752219459606999679326441785519634426373787494570240726381001694904419670260357261784278471477355753459682983752293122008829135158907055267995644422;
Add 12544714125995873909318628312095251222043189913988644126664970258558452253125368511731264428628648852296930505081668249446517965232010843124679459864588067;
Dbl 472358400383078916502851128134462330233436384199587182168586413411762701710069680820189991810276140551024701701594939220185789974961411193299398278958544;
Add 4417901208465752996907610878858480640871127023041489197387010905484798318737221802152667070443706782256525897318358024851082673634402160859737673552688691;
Dbl 6090531791650009463836814794165245394102985752777943973799580914390236270960640455120702430512427058271909266421639177626229302659093000332214873342087806;
Add 12126103710002453658614852670136510485735276050642421119591841884247667418175900741838305424081108786296340734955095951331322294320416771186159720448502518;
Dbl 4665291107610073529939603252716784292554318355305834948915117654236076240768809371650602249766421863542884526934660753746645240040829110697876950731001017;
Add 4054119391241632520495774055058277512374129557001520520882185448151544197019059698436151157395170592833495699964310085305385354434194914795106711588235179;
Dbl 6244686971050096926378461614865938693196197042586392087630063037681290041779972420939649040470774604341014399897447132246925404790050905268137356177130227;
Add 8218246171457931888483795265413953309282708481497508314511427257489569672732805193891215452913710349060439332968830632609189914219657591964177447771695169;
Dbl 2903682142086206041093253070422310464269391295605119057616508929372691206745424697922683625566679236420459202696676198025421762521290489250189511724330871;
Add 11892554174020635670274315203963484491070708936558711746213230586912702623994482228522046541546792964713347856448510338629110728092451749042527581217417409;
Dbl 5826376350629137187561180914910447480094793427225148148325745765387363601643510598901648034396099526857496618837492268165014815685694829650238769666425518;
Add 10264219408862272857692739315333504698740003494419160754332778175117983816034020332455648106176100621647798372739117969266911548434843339543320250170246283;
Dbl 9239147770863930876351125919093704397922098542415903811093310765132287695717100839803567482166623423911110876200593913875200470651676538296661066875842216;
Add 11175147813763925202388464421280199534133239965203166405370072556225024891176323672557043328357554722395075130125651636573119011979809837382312948287332854;
Dbl 4358458785960280416559353163421438651809146144687728007596809628211569822279053771552405874881845128343923194625122974722132910798615252255794532765084091;
Add 10489490949755083080815461534616099661559370108146539158958594447297963837593479084540939900272177173188900415750188995077521002774608518507768337350953396;
Dbl 6557148717938441813089180463355184369027258412955572216662778911367163565291276830632548501620552407946705596095001736730000431460762107793750906893004867;
Add 9447665070316114167393810778081948344807898719870043050220100816542234467911789794608346523695543422218052259569064253879313691535733740207079203565934048;
Dbl 8929195269710974186249810591885552070851971600611459092516480499066176659847218166212226066569595823351515284709853107695948599441842003288459053931869561;
Add 11649507293242986461092468700609140841806137234006468375314434984340795268165601244985131187575773865991429552179341946200424415582971493210448906788783264;
Dbl 11481609751685356909591427925665739098095218944579143704070831297316214709471158297077872478122642494265310964781007395079381553939316053519904139446366281;
Add 11871551003057923115840016802122319921846535652947507250519833886775658545825774919689764287420873082132110992189214453010017738796386247348570332724864421;
Dbl 9055321566756813638790842508037619919575794974158611046394449292147697730318826852421371058763004594643939525522689940681788865534461578328811249513944956;
Add 4569099970711728481953541866573659599166161887729313063629021265297403280692874887060182381806347999963896670778299124190560336850726016350638321724686004;
Dbl 2288751135546897341520291742494620131774150961654675675757990289152680626272634871649960826000569526549266072819449362338853132291531359010190339669473550;
Add 4254836092072230659582989180839558432800090211395101464918886176780115054158478529596712380959419973258316029388076845991991908225687838617692981142376956;
Dbl 4841913326806381427972841353305556220513963395176960820970084232288631685168178352367990556801815520555226974059341214560116708410713605689527663872839444;
Add 1253106783185344991749196652169136395410115557013903858250796454474167949234773471556115258301201537062049226461452874254099606108655336437369262331277084;
Dbl 12739345189505086773526995333388899715755097851073952116564978020588196361063295238948066953755816585756876902118928741436201315304181462937740826269917842;
Add 2185950775667863096305158711863560762704462680578036282958821233799212175820227714272386896651691350568408863132311143896082966519056116011250407104853629;
Dbl 2123250405233388882581385430138336022352598487964371558880541660151492389506129158233010370918602213712976551924173470574104911252828796989551002528640082;
Add 2593176733171204746784083686709403010453364504237340220673898310924912206260780770562493896505443724713388921529845170255686533978441923193972685936395808;
Dbl 10128305195558081664947825905384641191460328918965472232213980282829935413815748196622429221115364645829177932786361033856671465631879782667932400483088737;
Add 1092380212750927252969256019785989794098428942569409547499909026905564977252415613582305498846113169060829900993676189937611605649992940464320189263731758;
Dbl 9434316422855949159184065114019683207460228422633295768664115525289350287375880299429751307184336210525942706807929015438540474952890298431086693652996829;
Add 438954829266436414086374128896945198585633147082063593946236130302239866797563535604282335574688299598472498912164957152632064710163159572052862018696825;
Dbl 486156020176636617379637273921053318025287864798750229898890834474627517950990906685676268971622694021590371633222390941357128704647747119879016374028496;
Add 6768145783461530899905627629321816472378933521841097586606541100643613827248337295859907368672681153872980916482282233331326772300692480822112839868206962;
Dbl 2932977170774118890464221804263594514517753186578760130968794804946475039625411776098092249463230179174105363807581587016864380614374893315577948782350421;
Add 2662636081109162447873839691451064128283606794691751544745155020993936028494353323638017920247153616806298314832686639807289025952474830549060833033867820;
Dbl 4432230038761693695008053158311218190060881743580235175900349320374997552252953085593938858393018913497745543127818746947991001913726098034794593007976990;
Add 1603489550655898709692927999363035935352963515206986742651588682592533712328134311569671905471569578395528441709953916065223695350655505591925345252876636;
Dbl 3211731337285191512093549011639428828415984343071742555537132368093019116086086770524742122982404946839423404236922750406945890902618620893396274353482339;
Add 10343591104201204483029248048312282445233851893537959062465566112456009986721411034068654144297108730516780581904187550533785968028240465154219435950685577;
Dbl 7978230334097765934620912828473991426910879072510327541708894240408063415969054528435090376638253188631811011581789075498143633173228791555248710410105845;
Add 5688754246520362790973776647873660329029255165035568346758721311288915788304097982707260952839011593214044471581587246840398291691191524172845239909534975;
Dbl 243516364189612856342286760567383112277781621345038879815557552130245165497759662439662720094798915403863845586211887703751251438988490888087690647756948;
Add 1852785458299561903248125041484187304435235683208292770359062045936511258813410518628658033621600085720571296259456832971803351238346982158769731845900273;
Dbl 12083107957090035848487395527293830847983520291900175816149452166666231386273826246494677188117937988159377182542902007247680239182398002823299595910028439;
Add 11283242138492697960556032340842761308223449806765459467704476506382197121200203671473065976998787737267838544251775129784204441169510739691722548217356381;
Dbl 2689119716454964424807623261675618431981307277511234296519217687619650798798339671198494377243682647418352342205021186225758745611164573469284061951239882;
Add 5355393660385156028376233187622656660913989886135301129506397356256811790575347152360166531685312522407539624086569354256324024138452096747087235428664214;
Dbl 7140121970355932636633542298626703676447599234063092254024412145924263858066182574486894888347907682826186384414441690427136618857265221290151932405540936;
Add 1477740698788884129970049326995960673867998679951984575201898153249758426160915015124310451068121251800925049794968703953132445453523521288841454609487518;
Dbl 3391090695489416588945059411798675056095223028217365071629499065539560886995627417567205809250865654173998137710698109631365810247974134862077597721896219;
Add 103440862543340980702374140667531512888168688165887180051351138760212386104617835969974508971692701426716690457539399588625795313464979814558566375700079;
Dbl 4720131833890266696511229696516796088999396944381143956934132869451669453915162928356427411500276457599405232482924716987755015641054756553196792876069497;
Add 10132721817575967110104640645724201897503057792155851848084128255325234674170368383636488709828734192421436937429780945290810063537433428190748317099781142;
Dbl 11529092113445100145549204539610707347687792504790874843395714928249070587220480495702086531789063334037283658853267395182688899715040023663788292500063641;
Add 4921416691905007918254989938502745661638193226286931758738449058393045937086134872092397563443949875907560752149193987677066380482464092722417649981385290;
Dbl 6631084359557610506607550075159778883242384684215608684568492982441097376015392477025537912647355752361046940570906263130017834201391814798836822966440471;
Add 10066681235036709085724326358927077922100785331187246733634217541722720974010700188752303716546563082749076500860285404727839475570817889647889835215890997;
Dbl 3593269008730113472301856160593958279862116093225133468478280136364933896183352307091137644266697552101820101369237743301262313493573572823636314061560132;
Add 11683050128635723849779342811082471339037985161366741558023068896600567671887733625946867957140703100281919558588071536973588619240991132032258264366045445;
Dbl 6628017160818065690432737003423850037886766010338193363607856376394763653818464646161160262280229269230891885842683407637657255911499268437311003962656124;
Add 10833062220801623764993275015860312392190705716027669703850752253920834156979288083648636948750771619692101532543752047062550973112787468687132996788051541;
Dbl 2746318477818630865354431054421926993232933311373026398656263356340880507764819425709573042737325108151547080344359205477735423661660909344848287436415011;
Add 10242795500242395790454592041447547873028082743561965755521965473602736975575084273954205150715372585346621977555820422934265393316302157113188385079259193;
Dbl 1858676905500715749988352739447085549902344044477122063239464331168223165884817505580606754271876632512390914551414367577029200804821723963829900529681516;
Add 2837143425065168511851244303876322033680028656838501877433388172489001962801937534975569469872289998572536742727559648063592754412264703590405214863410982;
Dbl 970627880704418391021912138792898027950846806613538163660794235167989655350670778549363229229175555416103427981783415900935981901971932519010271205919674;
Add 6679252301394328855258729804291956934663566373742234722524681860492749403150855730518544261976462930934823403092483116973916989058062516701179532696512774;
Dbl 6635837867726951040483814513741006405572377219689026123839500647101695966264194229986867085336276589277784613063693420743765979135995380217169703595758464;
Add 7442130359154925142415293398897082990842798716665290278895031195478672602246582163854229518886522806875887505148350165853036166695289993611880283774707526;
Dbl 916638071086201631038012150884941895153812793876052836351852285835649608275877844115755950584546807476411243595625713180478915051108516070829874524118945;
Add 8956073858745867196901603244006844996776136326374361597516091102029334901776718197010856624917302711480110553293037082706527097972661464670894112946974191;
Dbl 10782256738371110359881782490789956626361009554129593076871239453695850077323797876085353867840196450184631994168169399848996117734066234558510814497806477;
Add 8160802586057163928272925657949517002648155360172916566030339167044311475226287016163681302725209518297511562089540671519963886657188063815129794910348594;
Dbl 3361448000243616536536004639704249880276764198789499977695792650481368682761823135172544760139636189559254324002139004105587771518207410907726359968852571;
Add 7225487980699669160188280639060505264240546661874377716452634306571475050661048093794093278788318200875325846577520860744719888241003251898761337182311970;
Dbl 10819097847113144023351438055888855134158271780734822686428710246110062872837634122236375340100173853019117490578494112255002425681325362521543449818825925;
Add 9209600500941244225227023047243636211469592349999113890380663909167991945325415026442041027223682739189577689408134274082663061649742479749322691732926202;
Dbl 12780571136700967545032693155527887438300303124576070083966641901688949971437619805942490958114679525388836300305992735780161931982111749584839147718382224;
Add 9305791548219863003565425490246588732820737328034960333109380367882478934666416645654125698066168600683343538625699109089708743832058816111994694098031481;
Dbl 7606876881103534793374283239752358292417372677159012476220992833035448693334142143017118508530399737571915859069248416796773773851545550170053189917666732;
Add 11880756323677079799982498588950440710036300718894419558876516362051333708726981895335336737534939002105287025280166970997728224274709063098877782609720707;
Dbl 4544116201799498078232118528748752115694246661244767315706149642302806797518024987332924149015190176659772425234467884185675450013578626963607851195650493;
Add 4254094857527701175059010413132189296720777558595543621089958735789797514800120155110177319069087145509621539690882877799864782486359017220676941127709801;
Dbl 6655523648177720676536472901777892978536975992263330663778983787206321065941251237420965045286543990554761093856303232435627803689421302618769995577369259;
Add 7704452091379667244532635337186429083647794181285099460451890932807914992659508575643563400659324634463473867171180042604280794538508562765242785630681855;
Dbl 12107111689395902494138332365148653254207639524654577189586098067453373556607086783227406853498124280174075079699297158458895852085312546056605735188169909;
Add 8979206107425149012980314165557013194958682673140730811438010854117738229022653323719468551572309565530340836547044241588631095433919976651849528468698252;
Dbl 156817409364077565187700918097192062965787695209455697849719185701217115977408657783262006428818571130356992992644361310950861197968858630975212728762862;
Add 1348811274676185293261213646445004720912165595485748767470818457392435872636478015196193616115085318007948570176729824361394608883520524385136835852906877;
Dbl 1970495193204368226994919748577743367293825695260540542853538440276876603517819267725535593775233815947838288392303317878922186081876315955596250492654128;
Add 10111145156514060169581275101801247946196635915724154768373064406548834805683372249811734256809789546141089847937254960440330903851378838023641605978442293;
Dbl 8815964594345474579436277964667138747323942295759429765728340897094878352464889748412174031973573156598950769795821530592547739972192108421999144377988206;
Add 12584865623371193019452017928281402771254032360427973111979255964320293483163080255591115418256307785958728175396182205612119677714915212741289486620517156;
Dbl 5182209783113371586777013441859082966571333699327358733793158203824140229473918694402797450657659987112437139854480720768401101391634264674146900916001484;
Add 10629869837624384092069223291102425558278232521967304666148342001662944677780905242425018025122278992540664932215725225575564654341330145516461847263427386;
Dbl 1876106137725493887645192087517562979060627653389216203235285267956147466468613309408669997525193289150806306597097583206556937075577437480318785880860670;
Add 12844594252566843282990288752834499818620058017887681623391748153864936357507956993436914766470326995549846871053033611211212308063922918552779005461198336;
Dbl 2049361342992467756069117769542852765389865416781820035284802853239226147455669676035756971828632533301061038547783117537506657804529178421091432768670605;
Add 12189834014356751160016782376681139619026010603978223116192412749481118064264792749464588239272743921795476648766520051541220224640152059893600234274080179;
Dbl 10335956651615926072615589027810214318015378362045027707418745898424852426292819455438533698838213293338271117952768477249486003208209163640981542909758036;
Add 7494576792062665797311657314841022286025091741904181123034549662785196954891587110877172503229967424765744284552403499762911465613168561854050510683977156;
Dbl 1867860275682518163034283928452682535547227982789848161984332626937184184445832513652926622323363828236532661077966818558196033789348758573102864515223610;
Add 4964237105316427497906374196259844850322796201699388937679359001611906818399104127103114629860347472395413840783624477007175741457258474379730829141370015;
Dbl 10184115012222837285311762556121363205023223036286156014599330320890941747852870361972847746735941518593128349098970561412394212982232032381042271884459444;
Add 12892846181721099245867658118388810467129393435812422612167382819205364383725688551574709920400878492443168166609208335651462422903916934407754944316860527;
Dbl 11171120484925857808544090712734036795515529010926580955323566757685684956476064181065564307439684379041943559389468236007995222303813141246400388556229271;
Add 1912542231972015784122450599462169130609593490081329225644766746304382720204928668498513408960922006511210671266899180363425099566927648274434383896164944;
Dbl 6880617259858546205763367268817825108790729435939036074649162659307732130865324355882996775138207552668153237882208008352980424922884577464646993132743752;
Add 459497336134976953768733923315524951498957298077933101691610904192386089560375735380005602162698604929249600278943272178640120642606513699509760148936153;
Dbl 4333600105795298584607948296300102363761002902219088428996632992441139229173919241824788570717359346454902699328097477953259271020564244804202507477478256;
Add 9503592288854329422845950554923598541921108983193955355549570923729331389712846789012628275915077401328264425894238354823035961133637780555212148032115820;
Dbl 2695177561285115951459837677254620659207246108805402067911643008226431912604663072941176563344919966450109573221744123978781058135814336916505875233401560;
Add 1981733922881466272001644138443641175460317441657613141261186581893633606033581059875196626618274863838506231655698309390832822662206403187051107944408040;
Dbl 9160675455918154463125921011814487165286257878663965664684788756719928672730816353729514132382179748525283965934256181108422948999764716130672722568177644;
Add 5145824880994683580008498496531477363800752116416996336133917915428062778701222698603436608120946461360905449832968461639741005085792805741841526376432776;
Dbl 12274468387816956360540216997113491353215945457576763062840098144211605850868165339728743340199976027665882461321700019705662435603287457586022581164720805;
Add 3492311403518414435040223488347726209903003957013663384370396502408345725504437601945371362617942665230536291191661678526570581473830524236678494140952143;
Dbl 7716605165832134772583727011928873109993287119208153833917953434752250071568392653414537783103754495246043673346984746889270297873138001050790920966510807;
Add 10971354766473625485721623480855285328658199085752842827147155205973568524517163126977456986060544581707240854764608067447556861763256606994460366216649050;
Dbl 6509143780377316520527216061486312308425579015130505552678303433523685479581152631700632105144475532175472612451300681723470677346343461046247063770783531;
Add 1742261830618546799473177792900128100703370939907527910359694572423975181225968482868403859654614727093897246753572538198221279054322556947841080036422943;
Dbl 6770665773583478605129568087791647004008894007807694303533367524999650974349060257623406287678814588979761411936836271673059653976066790648901058033777073;
Add 6865942184528308424223072919463339633292470209317080893211290101592448157415296263712101031803082339977953528002240486938196923458392199150563461346514043;
Dbl 11827138158575688729410375223553441861807235949691794155878130043884092094856739477730755527055539633865217739719311261498122902704603027293691132004714749;
Add 4725657482448129975762292808405355779963250634589115791631257457989534210909907425384353777373247297424430908513539521297300156327819032290872288561784304;
Dbl 974487117774768669963492163119217809700094838300149697838645838513279159506329509638889087393758917765897924627050405239058065532077811349306616331935942;
Add 11138978970661101316721938226995698392254267741200920678405558606285085865674856266688653775227203028928874273107162993888453595116040654049746104999065923;
Dbl 8800399942303186785896026634546919618136420784823222932189946746349718168462692198988007779061284392977752205102599880191240730597310819668327760712667552;
Add 10810061074247229016574830370919878661803220583282829340794282654080717062935772213262417407259523946821628816930986832690242795385768475123855147433517388;
Dbl 1826702638378515811149753212513386481433657024935483409576467219317103556836283980071755271693505108217225644497272661444077859655926417812322030400413180;
Add 4175759078847363087528330059480893162185968015674289576168073356902356907256231515990295786083953307854076222266577062619185569044757189784845212456852370;
Dbl 9318738170620788179850608531362943635617486260695493106432134916328880901260679851555941146949218766092565659822274022082219117877018114381303129628479863;
Add 2832985116803751280611507172679928738011621832351038202803719025896658147991751784731978436300447224850922321311359683518976319449637990727226234468325381;
Dbl 2781512706400433700169951063958323390504419788365335063944735231009535598457731365526813913471339422975760333337287611483274206576916716683790958689300294;
Add 10110287151332434383340741269825699750521264842908982121326874652137527598269454270499322569277415582965262725473771346136507558653787331640808156667969651;
Dbl 6934258398005585447571064805361822316359346042497020818294514060700073345542457632458443508975268178448157516845227104583297199221925869222476447944109689;
Add 706188650541860622673181837842068248248396793198687003855302346088897703554921375031608513751731608600611924384941086166162107146879890792423251843058612;
Dbl 5541237069053933254981007784040677080407273624637583645234883010604804118813111955733669238722414125541762651401218747601482931249504675007941565207089890;
Add 433938904377074110112117409287377748899379602569929656748886415300397851573156609595044133890729248298295331473357264626957144411321569998313219337170038;
Dbl 10299335205456756478052977159551658094853091036923888182015975453639131758433991518540458976007587452364193854122769236906981843608083614099930582740926019;
Add 4983641138352452108359395238490866044333739937180183283051035254898447482433798246861212220763464366976810507165996583607664055021795459147372280014069065;
Dbl 7576247611220907540915368661993657737138677245403481292028765649410134882870838219179915469873146784992875681895816810811246736862018833364585887127222301;
Add 9051735156129790694652025209582996704097870898563903728217747381935701462841946887499557053992096874171539587765186806279785417837772458616286127295918218;
Dbl 8888149489577439442894496486233803666231711961375985415976032668900944333777763305217199879855186862187466222881028355743475070787800917119834449099572503;
Add 7018307479139515047528482221536730483209405400096764375376345636667602647709981338589001297760680842485088309901330118286077950009503158184404766700720059;
Dbl 3496125048170406437396823455547755045815722997840066633887061275881731128339037864599400465420102542530353420372842297875046885806043663608025145124028865;
Add 7241039497763746317663882625583237085460793376416187140552666640979689496278991621506090877411747025146624015996425824540589693965761392652499004962443702;
Dbl 1487867069106518919531468766410719478917893990030315161978320520993373588152442273689844299682866868144167680286668111687940640073786001485526750576469003;
Add 1142713865013462842016502676123108930820563596090567559698825283849743402789714632318824792955459457476190085862685430898131090932776278483528698882151221;
Dbl 5843760697594252320164588718929553790138383863244230729395759810276256948994034693211391406186468289448286692257388392104696984077208505291775033328074881;
Add 2263914157727871722381234193287533648237707055278597370406083151572511820483719474374640767116114501183182155115611671085500637143903497842389216414050726;
Dbl 5938112783575301728723644113886063684502050094271174929702696448916468610177998413135226852700777272141399090585019287758974204201523101243183991419583383;
Add 4444912872908491311389713837484477236296948651137230176676759775884440971073195297451514653558680659941719073983674925109393818805179870990748521746618011;
Dbl 3584377732385077985907437086481356954583083229674231237188277834595999928728786003296543701522274599521374783051014154933170897661429978530562345735745844;
Add 1374217319902835916856073137737567693880785406319314600316066958443020184606642520039507807034356917224891117401837488285756328167481110961581447498645585;
Dbl 5256399942840557080237123841493313076699087707836062368834096067365014979362789777818700324698244720330609707352869016279916748246512541595521081758922582;
Add 1874267267266625489087915514885497031271327531423981111649626186553760058356701809421637788638081481537196920685518090160017578266260590068276941317042683;
Dbl 2155145145554503755561832263283861735015606178666661583317879594672791962520609078402205333403375458854706698554216653089461054671603866844134784364892756;
Add 2788267428419123217398187066483181681892195637145702771939789477107435249887500132351123341926622003184586879195418272220616568267647417054387150680460977;
Dbl 790148603170955004520918851132488184975145803746171661347220466976235961037986516159169048126139452816846152803262576339767467375357691716143159199109624;
Add 757892599154004209235390682258357920633896980206947203507203132686687098619992486824186240218376826707667716731206276195930987579865057502354112894791380;
Dbl 8988900379888940751520349206998341801060947165317822758895190799208962777127284406841446851140196153834685572316692830620095091689146032233151958050392143;
Add 2735242028163016939073019137031546600483407848842903667680133521328905377156680967637839264393180710727109609972142419273855130493685976250985426512999453;
Dbl 11783160066606423797188069748139690345938014096534908361608124051114395067203522904199287342846754735678158473680770851223072900406993347437456375562610472;
Add 6609216209298672076693305759383712031917588683138862697765687681417216313543256462012382751628086570734562625293477281416305533144414669902361932310617131;
Dbl 3635367945025990336476907533936773894347970023966521082874223915859082192435429577293942087260798161763801826677589809242833651620135190940423577670057066;
Add 1420941058245948428511486636835337816587253878710055493289774241393730128384807800369678348976409605004544118778191128124770827303726348262912344852645450;
Dbl 3913402043090580566740313149586978628650015675953708685975957613560321083580193032001791957136132046947179464901018140283397903794726969937307405634878857;
Add 5917516650672087669214497113280339992667276735001026965775840617632455284473823805058807967659749083696523915296701631837049014482759025282938868483392375;
Dbl 12107476298710104420822116508002149677654200570037360868093807316390539391587283650273516083894413397266004366593003402506288029658470253929821046202963601;
Add 2990209274439086363114954295799270976447354080792851630241698847336648913314573848644358609759787616170144482507741958421735741288649677833785007584636887;
Dbl 3681813677236495522881638222114447759102079026285014724724725077698317405258424696433822264269275606725520858019750752855474868268927315464994192727496647;
Add 8252510951722870897904680932426826866218123813134905493940862584113656126037541526307796442706723054923188786446595353115167641930895171887389744212354109;
Dbl 11430016953346695752925653721884377257325989201515566568431631330476052362221985469346269206054157625551495508177542772396316359095775047308344209321164135;
Add 8686581603076953676646287511818923261477166807768103227473484350312999423124023699546234957448947350356710565610958956321063784428865289038896916748390770;
Dbl 3411317057428062051079023513819287384925941452079692402085485550236552070391441935861285207668719615485702386057165972445370031428769312317843023808291834;
Add 5654907165614193692225016395109629973970583434362266739432696071013105929286630768398429472212836873267456404200455577185946166897130216340236925514006726;
Dbl 12686862082708470598191177346506535678746538955157765061375824716408575388445559809182063834167045770076410861628020063243548357408787942596404465728639850;
Add 2093863637768682067997798462794178100099755249230794080311343665103895419600908060924411557822754397431516117782091072754297263287003624898380834349566809;
Dbl 7571013172367893251190124424794474830162082023022643723689460791758229530392209051324499384040288119265555191709136330223678706060886102203769283473113362;
Add 895755169731905944761444098176704676480084468978385468742441790470770954756854080253759973979748085817107912681564695447924307838361231844743936255615;
Dbl 12089916287954144857707950078384722898568057930808994852405968620930077409746308289813153755931883447535497452727381066635625277407594839499507320418512370;
Add 677249400566595044066368498893830930131135067022471465934976171875078753246405232721750948168914140156801526736123661834180531476160999478271967145709978;
Dbl 2055104351766720609225289188675813126170469015206229239160964830927539827952197508603082696126169358373013296879479106608680734067312093538219612394753014;
Add 3703684902023372791863433313384794171926393295839373964459588463959194994450759756227339939262988791571459948055444422130304988305443230209649794091531202;
Dbl 10186196150596197396691136503310586346900873500161278648479361634387984984337496429323297302226516900745233986489396495152563774487142450997775326851883012;
Add 12174477890001585647700951882878634208932019463801263510566799011948188273794438037685732857057800239689529515994371091376445671379537152279492310862948573;
Dbl 5060717763709759612754033950124597963399850719636930804512275427995270308425961259383620016844427474932510906381605422287760746171031122953834124460380585;
Add 4138757916362772607381714197842344364626487462743093836766705412457920427555848782501638819057859873624262541152781434266471611292577239672192492900267546;
Dbl 7771777352579603128191983733207626971557887507213319613814684724848459910183830731525734735533713054645438021715381357727877615894443832644764228476844605;
Add 1460135859936954165063682356494743372289425127387325813135850027048008828006308573373779946091920075791548675155327256026027868910661202856995531458313298;
Dbl 8113954458920082456100892575424988395691123835798254723436695715091368344672275524343608265684936003555427658355075228308739958092185126278597386387879272;
Add 12458086185105717291606899292329097972351814306862059150479277052584580012021441925440363818765162982138281386403490795959178727298700470535042526974322987;
Dbl 12004624339801119423177869412088999195756237296348385107658424810070493940625109276896682660626247913125341176846433941810928744489063694058480166992433373;
Add 6532993097010325529997381759154745131662200400582071903162544194180310397000528872770760575466764359201751194616807001943061701589937581335030614745872595;
Dbl 8341678102907917688209039395750943816087547169738848783122950046546773974073138226785170522363292514181789798612535118439420633721330005257115248643914044;
Add 10061800634541912527286915390558689486674870718208554392143482125250817510832556576818152304995466309206798152210318102236827133532907272566241655780441173;
Dbl 3226438135992503355175372210086397435034378543868817042141491065748351018909609102604661113378754364902771986902920068963427004154643812978318087387000278;
Add 8472787345262123433296293066652209011774057649790960698341164799821376552320750981582682230968615084876697437721125468209482959750497646840754434161082193;
Dbl 5079261257399054478203721805408374479432361955024369743989476901356158282926773503628478995362057645610189187427956329541425713030082422831652207506175816;
Add 3767495647327446553477387009554179018588853957285074363608174004960647400938254241527897628337959676574624845011135375473611153591650561782365770141559775;
Dbl 2794241304245673992119954023019528163873350692672494373196744551522429535392051213630519182851057290705949833350408314552750459356966023060035548044693334;
Add 10771196600225303714038321970593935939918906519446116373835689723160675430908232723751144139801579860772600564665506980044107945216054411474140409557646282;
Dbl 5437587019072336758591829423325221464647202567104503285893416271324465154804499365497693685089856039937238363400596052274002475090757293790987236502613961;
Add 10204689653064591992122692772217114099098013643758112062787511750003514087691597229832174768091773839478897359360745502832872944285464198675619945441604810;
Dbl 9679387964668723980815298177450372743309544917296873718770692378316601731979365469682324931576740023896826001744433465157882302911755531189136492601463376;
Add 5450884105935713709166219942058939286603104689154058596069231930997917034867523518656572655283092501984183650421968145055461575884493732189802657196834070;
Dbl 1903719331498201072550609454566700818147362337294079744997184914249272750974306039732733115856066239494943268863618433646537558440313590733736141343941237;
Add 1637293121791305955621723360506323617636673934704743873773696828274035038949750479907047372929846412716266441464656062424835290715031788876613052759226317;
Dbl 5448977045810903053690298070876896958599482412913514453035101867496095573266916170643677096219766117230891589696785967224622256932538413150140785382616405;
Add 10678237071012727539311729329741676911557942105940166941726081192151547880447044952398599046639528388270853012124960832307243077874384149430926840692674740;
Dbl 3890060176931900720611994647319581014497755813864475353584510438447061038896747491759636481609002565692962837248947160474385230797613534737397743806701160;
Add 12987013621928121772028319168158406005969700001124551431157579989079459932325281317460244092614594112629372074453574771065876930909266735145053917207804276;
Dbl 10729517816795028814692224608192588381218646546248852560250306775219839725201274264384849667699222058498160050579606688401520665399144885864427066520135855;
Add 2277490871245585714284684775877933710577978885777597138326651294871382365968987263576027301529112464117256987116646465280262482986919958658969888447565584;
Dbl 9690696072175872449432586543640871484471076386367595138794659824679272561684415134657113242170741761017120267351581766463978321116906967983871876995956933;
Add 1344665374725180571287816570418087166607096117319997272924805287489256986733435821635803375988197809900961670942840451034514721865943751419886203419829414;
Dbl 5461544414804676488512077724085431494656294817288579353929450736564645185355753080346486113755739890890654989222062046040093666709955916932322976720116591;
Add 10742106499513992874517892403694307264763372765544120969597775309688499935468493498044503810442832668485317487421878123592370943987846763252452074859119944;
Dbl 3054745353637994175167400400346935926003272863909363478859387191677545897960677554731996347661850480011413559282057275536779395496783513386456769845105483;
Add 157777170820278437916676478194218917436628144704559776455495249588673003215378515543126485264472961501462494184234674808322853763305783364074707147729350;
Dbl 9062578251799458784397328404566710117131243139416360698287912445756243380223101942451267218526803000716050721570902739247401046392412311705133404454148030;
Add 1269150792009885139849187266004617307452971118565861775594133172344608464676131541321996133465720246382509474737477518089103828429044589874994503660131901;
Dbl 13311940196325660972073334353526674381953351211349058731926638388520055693171898579506127603055202878414319249004151920911445000493409939348948520131852605;
Add 4264289203250912852807729384600606147067560030795000373896533767073320273963865787753692051880249221258626988613779080750191111792099488763017473896165224;
Dbl 13186718854681438261609549126416345663506686998993933874700244448290134131129896311841947256969669138243304088299132346627405482434510011600135528790284461;
Add 11801067200832420439659062458760273948961671498640453880912246591532038621606150689960663953633385704946320393420337497951990926977261822851863184193600005;
Dbl 7455331723936649166382260799563355882838613454375690355019045164042813437245095142432263471159597843989709444558558400773906068240687479002559144658049368;
Add 915270426152847672172446535958049631835042297583790170155190418534969861795379498113987708056364294032165674112483557534928394371271632304141944724403501;
Dbl 6362795957299238346258025427974300172740718937066096494029184237143019666249010551142657937286889036360082287014122109814335847023571762968855684914089254;
Add 231242056115806307852502513714050447225627323841215551723816789717943818986375916359318184806018472618098059769977592899229766527223032435172097609482233;
Dbl 6841285000602390895324776707499276303573289778756733909653222403345545571748607335324306600916731390432301436252971132143078736602780124960319992358026265;
Add 10664037383996846749444318896253984347888657655583628224697177087197879102658692175655202685393457689087062893681948454626522897976678431965883680828357782;
Dbl 699427440406195085998502556196984400303718972037987654020465876203814633185127078336447501278587133363777664270914176115708208046599842615273970226765743;
Add 8692308736647585075377445541378675576402453589013927724822144231037997822044653586120191375469568566602569294215237036690798894908468026314188565093413202;
Dbl 12846090187208655971154175985305796835804606914604083460684687957157311133880429900664110803192437838664301805260809029807212552101971485171214367054276698;
Add 632756799336670140925468957213809703331729157711965907795347835716261200368858281370527971363657184186136870683712894664189630604321879422080727386460551;
Dbl 569953455683785883100790630393438751237428690791388533515986388965264381470389079965794005483580152135432142642337870729748657338431699997590744054787386;
Add 8220603799731044478886821118848499513150125554108248933703399132701300123790590411381931985850283054413858288857281923109157002735359771669245141094774764;
Dbl 9185105149650408914852525398687285616518299893256619363152874118230459527570982085303720823292794550164956088966245552765433068654358724375977553786485686;
Add 5276878345710194864668274341639817536849915782935139967212893873205283071020828980868302605196298162536913686750933609257921180479344199700035604608581951;
Dbl 268007745953305184814211580856139482454978364102083934973365779479550304910737479017672601774596866505140615764076759123651791856674844603518279901901813;
Add 3987299675811038768922075094438004765461570902429071002990191676254556766469607622512267801238681808427819471675139787654793321397783218020907084362991899;
Dbl 3274540341385714359555039247263616975106079021448739466196741321124885655477657900448841483561174131318320251966148588248905540206838993982124216981469682;
Add 8153872786460680686282195460021267745999424040326552125616337394991631529023270624828033345095977388411212843683136120855058962752117279666530912763507553;
Dbl 11128159544996393691352151725285473241719421137919623058665115745126899644934265112699427025711357700206261333555926252050573512119937192309681457951152826;
Add 4887415259181615438629665692348397068317802379612669132867343185062059133622354072039411995731541836271161297299255511290243087030162688130721671361934024;
Dbl 11127919845830988791182023656694235633705306461249208731466681065475429311790243355354537117787375406967969785188794035098262417557491387708604884619406918;
Add 5819034262498180783279228120446423559136058476243054406712172182347350222927458021200346391815848265286992852997791483389414410724959120740904584320738079;
Dbl 5879208480284768732729116499781038833276087054246727961438808045747361501971484362629097559629448685107195577698701550201133362307820151710060121971906958;
Add 9185193488277001216000374933318830379568633728082826013995179807323351678226939052103898786621703112206134814141482502682622153945548013253263878676542103;
Dbl 7478428754477990506097227989937553097451263339546298628545808952018664351418474221770195372688638827381796107965581180478579762766536905996447913013424538;
Add 7475321700951263426998510113921398938190138033535033749071450452158179699057603499189067301644674912117950698248422582885029586783313131204120669165405050;
Dbl 1081746090185481235925425688255707205133453652085859353741326278384806881459865649569918770442925965423974979888074357590047935672110463890240851382305255;
Add 1937547176498612860477386168660624891066969377945519670916814125511141580516616831816879888910335109375370862575767347632679250307518665416536666992177883;
Dbl 7997598467257353904428843061701483175003683292306769217882219864245779318934734436006631380876895259866468689098352002686774700484294427420064067256667961;
Add 3312171878454292140530323859989366313564071663096530405562874850664457855894642130857260434889871517660314004323681796548786806778783335503456068254945681;
Dbl 13010837139904356112364778777557438531232690626200027087210224208113673815959254949572870336784178135034714121656885236303001168282772540812432749422787105;
Add 2086690818754752910394368502339874260428253734356250425749393857995512202980945312019933372732448482257595156476263162706529595266824373209040768755704286;
Dbl 10445562655509761298130039097117950298260155744333419089852317877971604981737492345901213388569053978903627725976925587759201762537647633094986697084975441;
Add 11047487130131401987445401312337721730482756246409455961749254438522881230025624908993545353409960265642468613762421248933621685187357563075759244300309255;
Dbl 7374902617324161904498344567818047354606067305275746455190900508216705078169836403516042443247774898673837931032269767647998773489017941050684032254432347;
Add 4064071888585259784664117028255731285186057210184490144325823941742592216294269953711102909223959732882664857407760479012440486036356209796180298639354685;
Dbl 10634997520263043629327348796123520640153038991303368342617168019611023465049495067719733786566188048632815592249162257296026482446260037985242213415139756;
Add 4503108332973214357859611275063875791369128322062238359401847545933429598576301111802911976037646796495842920504531753759059256010698802844716787116860578;
Dbl 7943579933172766713931531725060048821648583275736023464714084801765183784905132048736621471587887710280685209520510886350486167705646706936480794372772402;
Add 3061800768932719948396364008605359016244818705524100406900518689391258664875886711396683521921428720136405301872819615424492512350552173834121989340815547;
Dbl 2167255453533758975788394582710556305378776997238533083377934854040566786140318501754729135758306140655448667720249363319473445453286702643579243773779467;
Add 3944058500923402184993377929076075665855929194574788496665829415716751317760510340650440762670965215749100153228362816275711869134174559593608106719645479;
Dbl 361529529775479740938041404623026122248277139648008893750287793163690845726497582947449884382653345451298122084577881869367108900538111816390201747139898;
Add 8600000561254443435730232866458975769034834888555644974175704209200503997694357241670179693256012816782896907849673410907230204512330709390050869165941563;
Dbl 7880788286035583172617340859286019269317781292895401340560289295166620715302086497282919592161831198315864990495997775019058822676908847247138077940873647;
Add 1154576599728570779050773154801677991858682715353505919248883679190691360534010984218106009945651980613901837141863334422485504868447252143000775491670351;
Dbl 11490619173758579075908845034743230328098000348102604959525577365427138446350435147033031095981276416260968508477518959865270605680837558516825358360502474;
Add 7799880926017032464659446699784443687344582125845739596442943917334132052229397445407814567963865999770410940580669933405411151778118312164816222940986541;
Dbl 9898350977026364460143495315095106223246384466822653729054896262468997286585897293706232724558116982594830412885365118539851229015004688162790552550753523;
Add 6519619439138845400489516593295330676877901072872169963908826576273974980687649419320794525345797352861076963357317593654740299405388454736564561268215379;
Dbl 7598228543635153536852721319684838227501788525946790265604864064818481791529619264265490689257240600929153674477929705705572583382187207246464329309487617;
Add 10983529440106035129212339511849146416803090681268319740200074795056593354899870484570722412646447490389714577319738168986542362696480130541075172020213227;
Dbl 12781361202919073085649594487394722657206521511274122171512100569335330540069680288972232307565028375963543899539028531445751402563129010332386427955250957;
Add 10663370116137819476336085270403833585220511788858215824974367296161130210486088628559354172492616247914486846281780510590812295201920211719822537291966686;
Dbl 8221140672633286378810340151014694720154500607694221978717914556903240687475732237548729505961741379308724546674461311330909362310181173419371870452008049;
Add 34816767257655739430560611276115598327647355969877325135376282075118048278568262283174628543076917403852622441410386874885553981053769999669536748694959;
Dbl 7912386539443841104334121441475775427116043695445103219714065282539123535583597674768131159738048781490776478664477452024189752744377885687916373166083036;
Add 13020489027547866852734916725517912785224237956722026843396456000297050431387167090294040794589073457912818781161012084956409172951759798855611617443558787;
Dbl 6742797404092306831068595193694708465527514496966346422123840365543643625197110954783292964009273714824888676677442880388299871536332221490747052611914238;
Add 11465340167504192411597819012469930889071731028299255032766471227721806471737165363332181207481148095553266370954477996425204746481250908770461473872014121;
Dbl 7030141648858341058347690075571283291543524279214997237988889053640835246076723746837666520870278447612750351867695152500856411488102935442355131079408462;
Add 2315885628930657021766885454238726512082226867795773217628102596388703294415075380482477634602756785764221702714293857742688306960936035197601672329961606;
Dbl 11076720255931177422898721278081432203820220081376853869858664274959343818590967696852435050008138436662193667572131446904235506252301185467634610878085336;
Add 1410077104961786132401624761050064304832865950357873887669694159784666072260562312236925159033944994606485603635448654089271170958495264648552210823256612;
Dbl 6421499896823590062524787556333330151136124018118528695322237504099724810636258537549980952522975477018273609015850709551397441174431576569519488376902249;
Add 252866662391954454563241651396947124999597718411744657130783615600320746710415205805321378828346861425775211992294312525375579084300242636509347901697957;
Dbl 275795251801369912989977380854438767774678519390710468649232162393572270605663028624782469796194817721119078411570604432130839276222006194782092247051735;
Add 2989992662530397572964033187364735109453847210834940082581694437777747703448220801122502269336614510150067966648312070551897147129348466170005471399881777;
Dbl 11431408276540004177555528285898936902861613169158809469299580645539325592262684469397814342461329125866058830647744265119094279956897870253145239964831817;
Add 10852071494129796012606997933729672786972251465004832343620110981975108789567033746151947675864495953069446422123761881883926717645309783560587613578497105;
Dbl 7332518894311985746048250708897772722469248781259720628933990255315140232800462846335195357214622338303910076460283523098867816027454803356541510129017961;
Add 7145778900759336337815005064878014747250175200108720494541984289727017840553038892431618544625060469143568186991811517475490957342384996404702488842303065;
Dbl 8390147231262631445929822871712035715146617234111325910181122034821097152133159681977058424727725603247990178975480851554850960012360178041645758449345739;
Add 6940482157546190148912862412820254630830311672101169308125242738477699605639877769134855282357887807442044802015964040297475419306221921528072015115736446;
Dbl 12161344232131937196875046888257788809989037139673223470590892545609584756752869870072678451526269828209080928713864446135027066567277851943827958570532068;
Add 3370908824929263953365642331980534692209826101800718377850972833654615182039369407078007742344079514600273103625827604594880066756386472239550036946425176;
Dbl 2252089287058044922453226854037367333338830707070454292552889409403733466815361335242051420666240367471930361901889167832315210257233309192762895838098299;
Add 13284158703978714063182972116881990095462677566990109047354941015421956788956083243499398859842684103246577009224281628243216112256362034139724237524435967;
Dbl 8905886036040730428324491033731344446631838174047733174287987432096170955771593419308953308923786016873339399195271306906033605821028399199541597534329836;
Add 5685637778493262145477064870799427638507335213460337027264384800114332363183068796353671918049095786462147679246012199947529595524615543750057800888645172;
Dbl 8241974903269311973192095682977148392732679130874345694573599325408759761845937236888745485590166552617241886984507462151199452327751871171478553594022730;
Add 11689861195357567577505849806371067169600274846283016300717018031804970533386978643199696747483036277019451574718064999369304024355953341754960182065578492;
Dbl 8251449522560272414968028435765825388843779786517749173353808616587146202486245903220622876205404996365351307542786677593667893175347651826479580023242152;
Add 4315236808878216422588962597965118374125887421610410291402784327468208878564562017398404340167855301921566901909996249669088457171674085007937659491589520;
Dbl 3812619148592458648223765918921555478438902864571946772474737673606664627564716433337981120263408782258072182355025797790894820002716689468540686192611130;
Add 10696899925976901801886646766910837429407076295443324649613646211416287924501952636597138013814581515076517750613826647389794318677108212887338236243776884;
Dbl 6303318730094208609048592998055886656967161835566348771237994667228806176810102264124904842587215445947291415669283080606065493797959535396988750695233847;
Add 12223238349035887956993925224061823737133027233634479376905589337523163864351215512613308645871434564814618557334680484828408431456955954808200030326793260;
Dbl 4582527927764259109214135927845777268909730078281521145448771717481741212225294380996274000927019506406468745777808161577384698041498571422918311472793460;
Add 6120112833340852754065382338868302105152817926593315093610163672305518264984945364945995874557934926360959058317485092550767585676892692089484818512804644;
Dbl 2618232963116109497652326584919124649035611949830097678976252964409858248824677526504199036697083168183562983936169542515685860820188901533528621654055777;
Add 8480252718109096292325673665952599950424872502035137962476057891844248841756279847772100305697057965405706019443088915252451937181359376940325099093874353;
Dbl 5295328915592359910145896013586746782631257656335641285929732044702145748667833598437316602374945591455891284650217528009129778448688459637608241942377205;
Add 10248038137878365675806992716782785701553490957856930822254521214174722566858913676687342582702613029597259673178476445522972549965049561174823755454758662;
Dbl 11878770689357064869633209617236385353907293746971015766872355463027340076469462261157486913660328266236887523032969462140712301053799877631675610215722273;
Add 9575451982697910079878462528280501605567920388135250247195829648047649833402000246223696345035580833962089814190022646113276455987703593620217716377405243;
Dbl 10509649276975312506812851133459913036245226190162616497951814561019141434495229526496855321409139706276348522763738383728488366814939843418649693016140243;
Add 2627078754189836753453327409120241696184471036077691980426682700791471399942501311123817879572823192127806705818963031222587393982090126644954997185249372;
Dbl 4578669839393562069545560956347209312131853776324618809714037384469044225657241960911661559497363056352917409594591190965405185698510337779036038975367756;
Add 9719909150380522835706323380493502545076417274642013685933302470844436681552076126771456616394499379145144448164241656927153830325487644444356002354549003;
Dbl 4444581878875880685256276027066254178303701669491099330431338412704884184560884711765998666127838852076917873773535448529697379051749028274610918698831595;
Add 454891085583080759621055050529790494609922729141333716790322820482037668764451399363047690817782067173696855309460647350765294906136792716467659960599703;
Dbl 3473783216249238202142227000310006011527957105367491098234050318209192213602205662271419174263128351090008945895801492862215949936444994330335513278547637;
Add 1447429792650075673987044514074194876134725016590134021494625240809169114165727825267077015223866476656590796374894677225344770398326230345422389010867096;
Dbl 4304073561959698146999316755221110721505390246788542080817839068823290560291882587960208760614845154422178394287505310240806209289540634299119231125919841;
Add 10962160742656951548200108807015103020950173645858822656722567089296245090645256530811006349066657025993722864176425594429217830750961950521764907963112604;
Dbl 11549311076604791007160834784864166230444264641175575962311582737187116785221045434099826494444842700544862102973815025273177105397185292226126908954437008;
Add 3958144637811278920849013782057477219622602986231039155146565707441750239505931808525629098377398522624348579239798782791214821067958840920668484038166582;
Dbl 7978475340162155724750130079567679784001207802444109420815648529711593408170567137766514227482514805400544207497846872730064546061107899871625555259441258;
Add 7561919635892171116846542517104415107247443290704910354858309232437213529965099627595550509558612146405072618628399141435340555450937518758549115781741214;
Dbl 10325934369777838974422991221060082640360678127241421344975164219576433740826670594423574264008519433762454129833908276267170801615691870688141302521739280;
Add 6066177343092169573037530656147797875513805783712566665244669427274028255042920047028186644527767374600826534247318323814069581083412483028475700543140249;
Dbl 8038888239362981870809933959844984881047546176665746619564015712194025971177272694446912945982825191560292665435646681009172437608431874349547866271220215;
Add 164156195342449605444826728652121490375476420074586528650919392486358379739343984442182996851707178938099429518129064225578303422210829487197122730684708;
Dbl 269213698088928558916230335513603255690596675610739927676178661018530916769466288397237137804986392109536925757316069202726361779040958443386062394577643;
Add 1343637375925013398576135390205900674337928016685400720887659999119617055992953534716036689064650669300899036023995706103627632993232452302080522810533249;
Dbl 7987610577602311242859102190366276094815371065397321578127089920441223832881771265199740814705514455404855289400537876180829985120456322972081511168103714;
Add 5324528765809024711907978033019918544480028716438025508592738549326483915757127872637781701443562397022204623413785968327680726428476337406169139103644739;
Dbl 11572470289794429788059506467831026689937777292623184532119170379872845390716148615076575778378630460052608949596784772354286540834511444252089955870380167;
Add 3247208841279249345806329932113784233596212892879250266916742592566153999695286931875027463624357061442852553092475333913886044956752631753233715527281302;
Dbl 1322453358701869956312999858466840776678314745843387917287860057960963947793868146864291582399120007160286031260943690314790431679237441935065123555354186;
Add 2280172168089794185839039775715738865429943934677703297343694034337561909814442723712025500225890196166151182319427337780293812751779354205281298070510156;
Dbl 10206429035927011189630599476877078704290141466374291665243093524915565155666919903193604880431430525400457791512113400155598941648793729459410937334971930;
Add 12176884777792872352811488363802791251009090139409906006137112892596876548230523889171550660766844514639678512091162234660562848995914440718064995606031213;
Dbl 5147067277270928451182524655164027304285349601191665205063729092015468664788950005967947335706419943050593775073682240783816292676832473820739840973212475;
Add 11442738681620191643760998719888945390195524663204264217310491254497835750042792640479830868965779135995795670972666921665322757888283304662532836869124568;
Dbl 4381059839396999173220503050202876820143199010688182012768703020183154427625892956742344343018924802899695307495437521879905040281198075478244979766951136;
Add 4605114835464734842368573901740906465097045161522308950175768503144616505069606601268969836787733334953558019350510131088991657833556812985111714642198349;
Dbl 9908559646554823913418878352542957800833608581186346784668808339278447079327496250828155160436863990416158986890598930806202422046502417540654661311184501;
Add 13072978683885052206692530039166478642981477508020449074379148659341171307147709384314375740211952139629392202416843431152544977095617692621375655552838440;
Dbl 557615905833787863427409494685213643989983610337930995340799765103298911557875177334970778796969843806059958513819488533688078897068916732634767225225154;
Add 7015650232300135923682570576114634120523064846604165663140347510943156270553156886866764419911853771940376143794118633537120456619725242701370865553664485;
Dbl 6722559200553557714609855334884245769018008939869147430522844312009878690657349561720340182772934823661688180250722610520805618180958457871731463335309717;
Add 6521832917582062319504827852382000846961803778263869873558606415937679465506894792601853408127648194293285274018777313426946456821270731910796461424306659;
Dbl 3306085647695364415987310920775209956778456323688622601492573398983541150697523542482710034578996794396001870558010573050033395009856925907332844515318975;
Add 2780339770773815938228301481573319149226545224914052043755165917592130698856587534021626790972445651167772396849600103959897874573780202583017996904355235;
Dbl 5865883929167175195275961319309953521585736211465487558630519832381585455590540527680505532497558175769862698924382408672455954886356829627768617113609038;
Add 1976238784304125394902217131074520203903833823850126649951030023333628538613070975516216270449981420848796079352621769093645746132509864077710847315565339;
Dbl 1884165446511347668080690923602139863246672615521553818200357516437220035323820250166255118698533656985692051534709661914394114451623059725508828871081826;
Add 2992005726352939726688944945417013181325099623639969816621102514355620461169991560730489437482575384943739346419071604336861108140469708902665992124005264;
Dbl 10487750949322814278182535083049504758129550405919368459004210696542171964898430810007149538720291100457827074008850319641409419670330767031827740725337660;
Add 2146212881508651892639539145727409839633280227034710394449839582937420977178622909430404442116603830721022235124757766392771792814099737884638712098272915;
Dbl 6538304454572134915371236076471098819230699563002939443638643415735602257638574170426292286287274959534118797005315551798165931976440083649773940244232391;
Add 5144500047458396644383429484947719398760136470719720869155088360870199110092940443773278635751857993515400449564096801735293257529667786615785851275148262;
Dbl 4311376233797926482074976341915040538985444488506312773306571913386741618728207707974575235883779709503533394222539100809395180851691500900191484657383019;
Add 3259259345576476315164604349166145532832288918099208025458130566902026018761446400712159708707955942981757452059453436305081936992776401669623914394047221;
Dbl 5019175652808091637697623378005431273822293511835414994233109019053832358220080019943647329248120014268702255875688492975993151004873108179393361388645964;
Add 11300584883679579136315519312399703429415624907686307969942225048562596599389628532943746893836764507444730904472777264210067199218487603584699978849204492;
Dbl 5957539850118055735617820971227531174670206506649143809284203275272859677771033137656378738643536793570610952667708876487526359232723442464256709899064343;
Add 11115266432490852325443107397248102134264795324354486711904280314210590951601177331540882663840702049664378843672241230512684847987358582406732244162400354;
Dbl 8652335883667645349444539362663004148245390993013292085535585342581869046351313080921254043187095691304199786497617978945115718637876259968996732089177668;
Add 4600611202805351778185335686599494101051996515219880185023256323297733456840091287292810964273941078871415709983760261845574276051824643499934723345016476;
Dbl 1257989501367970711692016674200837920202154588862837442990431380273446447530991352183825919167793433701595432189036833773190702311609417836750889671440621;
Add 2479699279782539420756790570895496331565522555348710353808059562174496464798094389546422571916399561510352448870235310485755388911059445735065967968731026;
Dbl 6012140730985691986932386501956870851302406614735448020395902980860341260591302457100237240336859238779749787591938038231979602267115145519950339271483359;
Add 7537860276157145453590092356349956025255329602079594351588873303074202626382449153018359454425780599398618948480451032557718420460700588932317661286177091;
Dbl 11141983842572470031134994223053108533502081915888592405071948806671294120852130382558085105793067625347184490732985161565229771246555447752033748817647410;
Dbl 10366842300982469469621288909703619822338407924768523221843572097096231150076722419886721101528561863606295860278036623171189290126156468372449995715624256;
Dbl 764849096393887517544347376093297001290676089820320311590813865286692482558313004103813765574730311753885172049131771975596498669019387942883019948463446;
Add 1064331602356472967914297586693201333442158187692433996870187631907670465073641899928922037004545428368192663514954924870110359206626679492730587714468413;
Dbl 9457169176756118318009382545575087016293883019939421386086420952716049664545752131034524199393512444763273786804814704943750285304333268067768192393383331;
Dbl 1682669884517051996624863603049684254618071073908495261131709754961158368736615861920401338142580404882928137050459901584465968540799806213969566235975285;
Dbl 7504708935286011341658723101499600758379418172691119616503442820041986161268891034409294112464513158091293534693424210237625300600473867560062877756895776;
Add 900075454315682264247850540220755046800346867343558078505524480205847266405203687026243658166032408828884634255752132745589363787584646765127598747007579;
Dbl 12899738836348654503380818170204730107207947863515416175880826197936333723107570773766811975859020117694290771520722750337348631618020417551613379553944872;
Add 12055785369166614906383170259298362196488078018466531659545242410959326038310046422183098851337059076256789862471513531460585397062959330449083996327785001;
Dbl 11686719862910134029896821524092125391618729586660803033539316721872064040361938470052226182197065076094741829986265053883012811004856466231519276463627557;
Add 1829359841007013010472425716523767451008468818120606980096903406874773329390742298888475677961784717145508902591372762910753336603373566213786067894052693;
Dbl 12212195867785666683712587003061388100683479009110900036656645388346884648459461641102207904030208891547042360701757072029065538864932627485747082296795492;
Add 2206928869765396316589244680401819833387788359034363866967848419629035503102329930946031828351744349074096305786232810083206365377952128570155088675617135;
Dbl 5936296811893838663709189920584465346562347852199057511983057017058127596853066157488213300293678745082775513856323271147324845420162949659008891452530752;
Add 1511014917376136910549916449662894929537183920607827599575001765057140812537464876535090758530330405061108497956810826949969055497400222743616922938085970;
Dbl 11060284984089337190717708493833825707682067665362114421033127631325479988115766247910035666522491486598359762695332213483019763733599282384385093805616363;
Add 6900644296589763894225174091767824978883345389029366138425864605625360098293395668498031029767478496831780121520536357366809086697188173375998637471469232;
Dbl 5269735966044137743008472061417803606686542471105156440230654491257031068231579051278551407747519879990987353906606548686315748373132715082727111628278606;
Dbl 4216925482179438551844788097630109019202026236961022572527828009118308002823637719833879944515237898593769066520486597725226834575961731727625255437390954;
Dbl 5695221455535979333383281989311701983164501659676595783488551530447643549947216936026389889990673267252806573204518381829831314833532375644210981816663430;
Add 12061360647311037197488245794006212752611075436887874743938761580929272478467638861091412312223966689788505649706246250815418573370910167834776631493080967;
Dbl 3448107466879727284106442536773698860589702816244086754470338668880907971523510996372719037056129195826879785422735398780275461027556673154101217607062115;
Add 5335045433849670552497472604224207213070654191081923381459319256973067679871220702551199188294161709563819304427570698441507811070490755340835252705744220;
Dbl 9090411142245658505785380642979725304072226938277290273327747734592250173048736313429112554377116961308987308165109641404478683873470330805481162484961089;
Dbl 10653164081105660941901943795450589290146996544987996850490093643259326328161762467292272944278215811155551050941370896079074990894485210807602346613817114;
Add 4399674644972111200787910953654111528959012248053360488694043151514482721324388668384498224288230435766352944085201981567081940199184742371302638485745529;
Dbl 3480664335617244428822194893125407947440249403938637615482582138839038930242875688852124132375191481181699043949797956269539996086279886357835084935318441;
Dbl 11489593163615331365402986348538707393745442401569918988548739120808818396449518747156839740058080566505642244653540937179647646391862847024168582494062698;
Dbl 8218971505507640907057874490262895154280492872220352828505829944214925079120105994746884362896298801725205568998742898524330174971436284983791053020104013;
Add 11750488671192454083908179313376285110669869059582620511749406131635754807203780270465001162120905699421378624287700652961553526582375284150591234618771694;
Dbl 1235181744911785688919241444484789187597489052585690670753335015971261701586554867537941253229667920479559327732238944516903571959098233756845649513035151;
Dbl 8614322869268078505992109118730568921893111584237489495876600264655505339386386385272280828751106397306846212593514144749210261032800161390658255102688541;
Add 7454560519894430427739485935093282981659697518380053402169739422128215112336140390257757630853871493961964456382512027757284348562426671671631207578837572;
Dbl 13266246161903332503200111423343265304370744936620696294921774282987004558420722243136352782469962566649945273112124078456368740979635047651232226082290717;
Dbl 2252944919045667535804619752133774651435137242795568541688427657329863665328092887240118531122523351556318837073229478331767899551445230015210203031724846;
Add 2746463031622521800152414869002720265316904768161986868717512915972980723041955991725213085478509583729208314856163523371187851274814003021714807377974581;
Dbl 8847245228026359630278953992104342638479549379694741053536610147331658702772226930197195772600063804382244710575278883351020800043178474266801052627502242;
Dbl 7021041975965020476457084172252136430810286102704097923691729488113485768039244610732742416280505074129509479382362344091512890448826912809376148298024475;
Dbl 10186746300757417555640821879199511676392335836638544831619590167032335881205911048581115725093981062766876652322253604502658555129861348132951309928298162;
Add 9650013281645111540469075993048650611858479829863323867128155970832300421894720779477000287098694991803461489903742141156151645497355611791333408343803549;
Dbl 6366267978284078357575813300120128900512946680476901164846662009610079583930522522305911809897382395516266372673171730915305447563994684136457534632943612;
Add 3811812360255031304009424483130148115843184751845312799210418692327067516441330279816472946991275728331220860592457256734041744844160302323615865492353031;
Dbl 8470243752470488998849432753877076452173547717883095651671912462458345236529586379128282280628623248862317449034366826700028944824909569533083194905949678;
Dbl 8011860495341561406676475490415947884983565653838338443105758071279994436908260252324170758985787915298446526197097964915802487105573066921235920992851220;
Dbl 512963712710528301323457465687786454740306843795563322322224147867883157491356176681393481465614891272045315841465434911171431968722805622948399410639821;
Add 3630897794615565939875391073199641569055014926481884088584237751383301078267971807356650764276176947221784971286872130628287126071124413763139992210852347;
Dbl 4995061540410005168186342561602247634711413332564869141130828382975216100612674152392516623573149799596413286776797501005777766045622931162480158092093140;
Dbl 3597879544395079156027159857603489615401289162073896236400981527950503276311926847426908621876656724452650167774518512713207390730139461824243450419153143;
Add 6917046667104591068629281813579531602878679539764392931618973983184858151585956371446157349964437979732150822762405090003434938495080830044039526812609113;
Dbl 10965727924161535510421339733948892759515036413780479101366107932244654601574187485916117237802169961028783256142313862641521359476346274326697396935508740;
Add 4031695529410606562950504443459460802280047276486105393862800381166007433879935698939522372804797402244054651934593661865422017379352684109800783133934736;
Dbl 201682886596794237239855845084729882448210944213671393881599576214071538576311669425683860022813872480587090419890385880654211922937002809103089147664593;
Add 12804419876058230541140751435775185230439131782332607477075628261067820434828661574662069974383622645924707047382817477931289301678903645572357467076402692;
Dbl 6403949595253559979776317392008789767289808436714372193756830197550748076892696016852033442302776983714350577634642061068234863585795843116411817885760048;
Add 9081080716767438881928678044665009386585625563433604450901179706338242343572251350226840053450141885563413229423027428634418258302147228288990302845600380;
Dbl 4345861296711260667450729234447537745684954661856490879824012022018882593941179303638108788869497164574507576424739556567148496504468752833203132639731509;
Dbl 1237946294726338199166367631911372305838363630090983155781063085118047506930530064235497646637875828930195870557660423946438493715986326619441014026272734;
Add 5178886762471934528417636945004651600171154389322460314025851562816705524467978623575262751535407593080684218839793803076901319240460125924775642036918628;
Dbl 2053889723503824676302626716409383555771899725276767424577243592468168887062525999509451252773410990858644448774798398962159632833637140645751430333501405;
Dbl 167075693450280321141150428125581025774442910201842881426032634862455291629019117595834092747936185717040542039981991568151888642817046856809521626839710;
Dbl 6683191822365338593099002677354925696609296985341832969732097038718378199193075657888049817685305706660508762195187257727900838934555459985385549723722544;
Add 12918558416314555733554274173884767217848089313464857799040251470276480669588559502033543336076338085821064802813013338333052404909403650739591529844038308;
Dbl 4352151079721608442246493589917211979832918158020733098392241043396757478876366912546923854555670777268652048945385653219411843800481386156346745458399850;
Dbl 8366717644289203915032041633710100562361737087630445669877980415411235699731057120206578866234367964835438996010217290692041243454522618617880418307197879;
Dbl 12965835015025280745177925281767227500020239056542230569115286765692136479159722847173501103386325135529022511346109581235190963175583582978246394169213244;
Dbl 4539222260151360452050185084193964390891783620456558766092519878834746988350674656693005782368723150327821226516302507661445658081807734901182756237163070;
Add 12263475067272634480289760445173803693606203531537832577808928646743997053354777038977440590066000350488403834536026431463436063276315335370101736697414929;
Dbl 32818095872424772186319983834347100918853595558745298282342567369398550078621454246214143849738327609634401080122480369418606242389531161496162648421174;
Add 963381407521586859838123923451571121893494481820794668343861432635892245691509361126306409421414284925332896612675553677189624963628088415338242098604207;
Dbl 7457574266578235872608497826396136771532731192256298397090879454731975828104135050661009796229092531780952064624477469713061553164655259377052867454465276;
Dbl 2701716032186783604773210699244845400641660451301634782501922901350316477386924126581441781645247035663895296986636122019034892699097410728330556696861225;
Add 12252569226248665877828906700411891510042521776797856355985966437458144249087099336626350446836638539536884447145258309900603912756976482148481968686041449;
Dbl 2185469745396835285145570162545513729151019530454608718999469849950469742921721603885325742805099611431557228863374483463555634260894736458655986234676494;
Add 5865682781435342407047035289266475724227603914875091157136587001841635257105993442551684169463162810853522015600821624315225352486028028079206634866943577;
Dbl 6418520312005922745955292995556079905000238132691770779911018128719665104785389080167545682907507595657002082472978956235624732464533341281831669585902978;
Dbl 1045193728434795389607496914925170540921398051973824440277249967069582694196738409753652612891369732307063475394441983914569616373329514562667250459059228;
Dbl 5504196218574330967839247210225434006678977613309812582581734891047775245417043724906029379207121292437088506736756558126385574274709284246037465855439622;
Dbl 955136569037422945903606631464390017433822632279014820555489124752370108261921965677693389889222630783732961854439348887215519070527361258673479663754658;
Add 1777352435553504731869104780447636172704817982292238249694372988177997335587201822293180746523699720502347230105521390464105927479131634441022249919015813;
Dbl 10440150873038846109841468711630049052001850631308643010401503052389383429830089953775654044478974061521405983007179667513682129600916424996097608217518130;
Dbl 9880408998885949293431860012283483702178970995767038142566171623521708604729596520281874814295493256435581439544068323294997080529539810935119282190195613;
Dbl 2625677483668390122412684317664614047197011300477276203159176616703027027846447435755110872010433161306647316547357339478466760524132500360953323025641753;
Add 8246909125407606526901195174629901705442904187261150079112775671826364331701609456930295369517842651433770137132504077636318812992682252884510750963518773;
Dbl 2984098130188084603097647879439763163939770342736599187269369347623822964724153245733802023555122607848800882599726492260346017932552948109414460770336974;
Dbl 3308118978141771183063579011640890788125851414638779183649223557673745079638192966751597459181074164456678903265514262657478223423209677798327251598636616;
Dbl 7309088187289726128663786911147075390583838344477376422343769058173592034017784742169412290305694681517632784094675354038688880676179545103147771777545320;
Dbl 2388532887283660153496259892696460644338950413506390274508127896672842272253785086211743555915230281205826784974273389384911217700883217445380339807451836;
Add 343762377567707903341298877971107769477670740157075232229830254139575173195687326599692778498283987200925862974612982424244013520396718391201162040653002;
Dbl 10339434820825006607644747110687962397372718772866852337566866266151913173719792430299947096953331682755827626955505276463001904952297019931503659217930717;
Dbl 3729783740781248226089838781708877491738253330274362422355338297444933810292341003609405802879322580625611376198206640768687081353597193445401279751203807;
Dbl 10939873116448817384578058150167897745393945291053969723271810298525039193911450800370756297737093334479009337528932715532873939644232053180076330572118176;
Dbl 11622849816147443350974662826879562910216553159905222217652434046636965050711133004546048790212974804903311113397344182772270047981811171276180834523330802;
Add 6157272534903813023354163752927841056094073311577115051898794919102426179924460880899958494817198701958443180405033906716771536921919530498024083158594542;
Dbl 11471402875824392767904889107707857742639415122635460411602122996455961171571296844724559997210469078316944268080130789794322423562614130290905148180305019;
Dbl 1142657396566066591098326406123719233663359024819526659599450569841778848309193910815554609010177746424480646570611415184429647943567363103997117850912308;
Add 4541254610097975735164489010384196155665024032145582663197141895818616288108062455495128849906934871631219500764368051028015860394173127516342211342169210;
Dbl 12302619640777028540053026166284046389436363988096680461952776496992925910752921017905847973798576406238693965455960064395813182305368293682302117751415395;
Add 5167992243249563473259659925871209095207645680849265920738795144318606345895805267864055243296892294644860649693603699790909165292758275461577685831869592;
Dbl 6771079412641155550806841998750041571321023070640221377498662094359421596199679685269398568840925533625745469006729209282587131501913316011843397646046477;
Dbl 12600591844242741395526283601357464839333391717698043211479829746171051319088331784334578616647921835480478420090265633049153958629559661825024812434892223;
Add 4200449959504256967703751902981780695987996137387391374163104017139928157233319197129148227872080692228768413935425429730595408887106510160865399316445816;
Dbl 2417707835215317558363066634203193992665948586283947899975291238919927570869515171687081942227802618134329335426501589184761962987715256035876439257685412;
Add 649783427480402039352398951616669478122941432476824212468661302472741032251211659445854205216013188516160746878325035139919337599454599215141977075087664;
Dbl 10965525709430596485677844343982332471175331339560826263299955856888498152219771253698523060157113759148273352546989044549964386019525916260689759639425587;
Add 3505593223881632652181097109241269917668672028602191902028264011078079839981996474972975404669610872555683608201721373607758430164205327545116384252656003;
Dbl 6338640094186146882154482774894349700834216456875656817016186650086367972498863992878025234060809057655441230999382234059134556969414031585007956361300665;
Add 9276511916843134075517070381045788778453720748332531107913890436012211221497698034618752884557521967405127275890916053665603883293620774911743413593496321;
Dbl 759784209598264970238561289914829473086062645592381607905898620586461943008843666287804850631443229027147858591170204793428387131584577757716659557982268;
Add 4983382717595877913347348326829846089573025891333619260803678749664631044990377422596521082617213747661620332470186013748632955512646867845366078109059213;
Dbl 8469393633954090999271840809475405084207925888773652543496452782356751537507856271389961711964794023290705690383019424584007477589889260893603215958705648;
Add 11842013220049356321973432825482527193964560324901392991540359517649128461949295195148245489737620755438761397727789083170471362018316151874037558096241181;
Dbl 12513541351560678966495005562800355220258267083794994065229595470282993952204428437964668321685382973539215445111878004183803019871622025457603320493172108;
Add 4434538840404003408929213001372721158072237397609289457416743662856827389849062819232356734771584386454526423811890710674331685470142361808287054994518672;
Dbl 8565724354496600107998922600501460722234072607145416554553336667446561951706415156297731628117901551591118904558621135242324382257521009959696542705067;
Add 5458651294930208069503137461291641952874895775220439125417467373685295261988313945353719174702055126537553778623543253856222353588561586099641868266373690;
Dbl 9472491920890005111038236495638163108827973763644477693534209480604335105312490675230636038534651517346393159837813257137558911647169368160243289382281230;
Dbl 3255786293491459415451852317068702481901398039778808949990053358006173839261083604959336194845439612468563673375956008574718794930840052327105102559942888;
Dbl 8781822708867843279291155343034231726527348358253793148132407365310914787146057461380153699097819845643502065984264350511116129813333447018296950411569748;
Add 6299308144094778924455661072923700509685465983966811082819568958066115702131579011479502184550208435625953589630689598976001192351235324570011482870995831;
Dbl 6129977895018810294852740685482498391020809370573944044180003470987386472498600226996778439690619297986448080763960650365630384849805521883322810181907003;
Dbl 10967048980007271014169122697366098555568911053350315325898375390507118055543579469800311212390210525867633622538787255957582545323321416416344595557313424;
Dbl 12452363247381995422055638411136725292494294120748991041288921710164578573101795052866248236163901967589488761313376043677475567469333460758007461484718339;
Dbl 10198991401992456623043176951147229246490270552478501108901624024371868451206093130457539894828107270840831752810719731306804455586016558257612179390216851;
Add 4206603373934840647705182772925794120078118631514754454152798360305286591433069601472051483610950485660193293868354999245711583904883003225753346108742540;
Dbl 2654614770060166408251827217202913263796004814845636911391053406095008899012244805467291382425856232889919608656225000271401721640553682218774947848096275;
Dbl 6836140722669841899325645600893223598619735002705918734072120952018342084018366302174018791832139352111471425686113159629506311160715011722198053580504518;
Add 3157089288692579640308979228221323620628704471884806871319450317772935120824484395169566529803681303049405931674425541687358895005912099994222194867273578;
Dbl 3632283223554600636566420495444049264427595297824557437421273321418547970090638445604602571307796346983207165645845487145481384716268237908377633416495091;
Dbl 7084374689923612180304830269587949789968262190713145392182277461310653405669310116448626362249153547670261011548928752127513649152956046370473563573467657;
Add 2909724558297511725957192905063130777762731919934659522130719517660468697450560349050195057498751919313371024438598774312505149370129601058986578346219818;
Dbl 535660784634914681634889444858161367365459273371519704576291199813697763152525538118100066097744195601007856519307175797378940263188042530046329352694664;
Add 6360280773600985306156745307876415373253065745262428374685298011854575176097310272478041741971815858083043443462986120172986995930126282722727797404255096;
Dbl 5342981296996147930197157723088200005116252589350795118899398704585114469645564728640607495241541105546270569699341817075057535848039321485303060046064018;
Add 12255011555101710066297531754816861901260278729074870345393876549868059896125337364493613871845687510100621971448676299240521636572980462184462618437763961;
Dbl 5374350681163319539362490688975610772129415878258684935654880814354444515094306520271655765626704567660723203099284551255113310615932289236606060250555012;
Dbl 1491999342834623931134294963380657010284140105441716186507444038086508547091388267982312317021287222376749266546335004225677841335874530142093213130235122;
Dbl 7022232482732302210287625980159543824145738797985921618982708329504529387861978102945928678328090643205618228889563489275793216066767187058030065176377917;
Dbl 631839210946001880513325133030583458282546989321273629850213504782547145105922546996971493176505820445885150277593695579370939200951286960209243846138931;
Add 7208159201107353492119039868612313884903499437356862478666550332687432762293639286418472932939796017208704048417529526696059286561302342662753948766915704;
Dbl 5601455944329373707777689478801134251678646643804070848751085653219793176788812424979955865860173004022451011378751609064924087858668282401590360786712381;
Add 1050113296776053174880777637415851136007013532339934315417493497264267350069288417724900993018082541489426034938669377192037738895949726763097706561440360;
Dbl 10501121269540529884564578861456598382413512773082331114993512058052783211635380685002095789619440278990336120148616218756162479762743748876844168687203158;
Dbl 10346919588070344939894720996850829840610807036597275009561383359820742769580071982907437380844600048704385630171712530131252959736079793441130137639975090;
Add 9446357530730863116401296934890296517772147066245671430613181712324796674265308192190037119741529716486055605407419468802886343673305773080185687262435121;
Dbl 165271735206520941439965493037043906203949835331120647221760009909300889037382581120940527993219169158946126804649591109007317422524638463408364097698537;
Dbl 5582331838647162397931507480631341619672646195192655455270422591637830837504078914254707162198792867722168098753356433763110466604006038109067097232481915;
Add 4347533881844623647996179338782951190430173223319026744555640517521971819240723258199522152658997549867321509189189032539355115618871513344147536338373462;
Dbl 3385897498503533413875526949048051135476027086062268992909555467938986368987425301812578546027066978381076365837866234500196594780500344418021481264109121;
Dbl 671717998274991519745590850191322438941141229967720830562396651419753762866985085538890251308527640996772864417294541754143731618924759228445362090320347;
Dbl 10652308321815198808935560173216240145014341870140104647029306623359477326606778939684862802035962671669874549089496788283078144132556634342865563786583059;
Add 3725542673801091095123140877484862068758027328674460028704330815263275184744079819714509262718251767439575927503369823374380467662162757508660258160752321;
Dbl 4039111740644627976952756944254881971607149095733782358375766782287786160189100052372064396636648623615696907684704931121373940968750508679460938278597235;
Add 1237469342103686798900375465270728797912972834817509399536626450298839824839076009425998027926599586724776829156531466539802789748146911916449099721210581;
Dbl 12525623817948988361459269039948131520237089182515193166060334307685113127644908315903513184404649185488989117336080319228624087890990104217656557556938178;
Add 9403993575603595178176579535749061829947063115934297786107921920697859933701451719461307637191756767056526514257032478495943034241265416277534192136245623;
Dbl 2762304458745006401892014422184697431935577396165249645765667624397097486107590247946994250758759600593331816116395426434448437132437421556608572333924029;
Dbl 10562363075192502444166010825278342609547346195647121006853036039499035107988406952764627367865274264250878659827735942274725600930401455678565170644663706;
Dbl 4514062996651559667795681856870918093037167575382601891057851221853716138455058008721786711122800627469851112685008500221722147113642707354312400754136312;
Dbl 1087812382065522855251451911666656446849236461539769472534921056299295340494853226795736982007835942357188288558906432523298252045976403805319625730443111;
Dbl 9983219002766445939621398257264186124344903180545296766964745764667024790181134433154515536736888250532960751695163574391343401964733666835840140664091007;
Dbl 1291739839669823948891785261909695031398837412507267341674916856601767370392585872471543868426809704450096002214889239258739639568730515592218737696330642;
Dbl 2881263462533373949931252098253916068803199015915931113240276606965328781241523173328188890067962964221593627500368541256352902448960508159402231687533345;
Add 2293398055823483199387332244086450189088492887830222529712068934942410378281976329375865495364265713445044017698902038533708842641629101744845673192145871;
Dbl 6733362009357165018409327018710976810401003396839891058949744578991412917359984547371485776953032172240999944510618833504250111009889118450082746776271868;
Dbl 8517975480864684464893704758875471959604641790357367719903559883345908960419140040653118841537597595884762266195478755728036000293219622885969394573228363;
Add 684099063740266600338838158426690792051519792392156028535273123800491063621040836652756412016902340178671140064667836266051481197937007963713341442752642;
Dbl 2481039380138646230148965371284445351714705407016048076604332248856796829438739821032799815696944826385451978676564982501065248467464609610697433470191265;
Dbl 5582867839466769923004588411593988061955430102942113813351766683560500157352474048872019610495607011835139684313860348685273828597920366860611891801420641;
Add 9558593804057164666381948607238621084842750981911868937506367624821769536194649587664253201150748100137325891102469871417565394527995165703686521894499756;
Dbl 7915265133213885543199689028952329401977500121017673581885664474224710545778487910153390829412629624525988316594482360505054944631672844056641335717376137;
Add 355470450724893326826856909839943458862711760959615629240301627595721900992516767648329764624444601417345943083445430531509658426668866332846055739444358;
Dbl 8609219033232197744993182517514220040866410517758334375343863785833581304492878771218084000531529643346099705621668128722570458483768979229002619164060898;
Dbl 7477145342961079384190627527467464959120308625079520361251551635599434890232381932057243233058622645872577739381763586279392921728421019833396948272115606;
Dbl 4712806886640852462139610552747032220580703186126084278977380659185680518709414358339935766928867475337982167544875365020301354731202078076788791222610635;
Dbl 7911575288093609078027167871158476561448389607215504778667825416757913676474117727786724449722424701483103287792886284029396675112076322951102336927611117;
Dbl 12544126867816755962279132459231322802358286398748623425189360057615577348918716176056362874773234341121300201657361676721260786068806925785989169147397406;
Dbl 13091489875996060409319836781336478245052358882208370910064867822190715905857869707654974872975128287148110733553912382773669328739711934020855285957787654;
Dbl 4171661605516515727609781614734005638693463708009662036299440051583464048136921324124377776429073980289556747175728825683849555753768290884239104152409657;
Add 3488317788273801043316384081743064544566065181684270285095250653462193633857331668135177038685785786710674728491885275787777944762083382017774427009959662;
Dbl 4112280272724090294871996221344365376059390147732836574744059470822703871892851933667807773996221949679085933404387095055640286950263032607253711920325969;
Add 4005701150317138888934223655181349638515330783450362906600520431974822570995612205920232829732591459314409573145713032180764811543993570763739436900330942;
Dbl 8230300628032330141986803195642341064654131504667634346538698128077617145285381564551022115510284301744810499500139035869586700012885693189044256427225687;
Dbl 2580156518731644707075727210553298893663809349779887339938341800350331973413527730208728712381441993918394694494865561533495715186816329308121235558832800;
Dbl 10327128631631645009350652383430926322726679440293027658694460830371925870983924271091722790320967041156135655666590824300703455973282757428870497369096796;
Dbl 7292191609435804133224893998763252144702641068336581723337499595081364391653921743712041933619320526090083176466352964440687634477636329116982904567954381;
Dbl 8563794380655997142673001458797987520264900953509453439549331052976885058460459462088677736237266623338569895309447522749997488671114365225487175746654274;
Dbl 7985444776021887344297866562269875149149995677205653008134945040265487522359516136352786003034370819646484449556129176699910103343703045384933175394747329;
Add 12029189426157717108267523644031957381291888793404380044243835533941256697325207233597165364894860542818214093869980469932082066715555902030029063599390350;
Dbl 3432807841829037771772251050483623703079837800617119657630304570895448002670113123159563657572052198784413786214976577048499797780872445301350005547111024;
Dbl 565001716656287791027950018148387172871587272720560972563307509171863855746841257186201711473120275216277745524192101338753706470531176883360880567345991;
Dbl 7517008359717533809777433145997372335137761512072510664697761769652835402481247258831857739719442644531988173719713737849081710051675546006292507294281984;
Add 9288986243233833198191861513541581247343304323851857742981347613642909850976636812401871403892114242662382953707098172155402632074596992927352583127387779;
Dbl 9757012193427217121315411855720921112458169536309736295764444338866484385451740568764221171239645807503484961583725347855649792382324991999958589406269699;
Add 9252966090849587737421195532355372271656117303723476393153272620338246893037172834753819502501374566336226015039905733704983478820191988346582891691373;
Dbl 9061593709639400474424920329654782997399737981225398401980432506146991860699378227778677207211361407656768169115516861702835737692635481852105996464106529;
Dbl 8500607717625698316566379006166201856307447857115719135471875969332812404172613895910723375372105186006342812908834784504600144843327146282809398478899812;
Add 2561971851523128689366509661237103137772293640484588547480611276452125560770791284691256631351156909351480320859957041534193491469396033559824657281134299;
Dbl 11080728284918601473869928444820058802238647625204977535479182644004898235504427659395017961097474322205373178734307212860743529840940664593487214614280778;
Add 2908406949528897899749394239445324554307952506125551328336269058708295442761149260780211647121604090486337447886612316052736685127866353580172680188647913;
Dbl 11886165423364522617882239733098116890833718330064605297033356521498796212988610934663620025208337472837780934647186278968214715937513384463601133916754113;
Dbl 4646858539777863933716424359047679639611022263817701366747092790039933861271070266946384967599807830857006847191535306243000371104041970568433244439234018;
Add 5566164352610463727326013821581988087909590473997599010487303650551753007833331936042717884488645119862608507896378323222305948310679883480776761111469368;
Dbl 6899368537174236027178511955653628590100524673171241530050974054900020103596467195790663601234941288527195940810533567107093179680616254220975616324480641;
Dbl 11487088516337100838923567689032347952524730519645546346775741802854204920372242421736557758148545992848720141588947525730176685804760735766984691808807970;
Dbl 5571943016742290770908339118984841204214216587543993160040071030459902078743838817539190924995743829996547218916332199673677586970407146629898947719799502;
Add 5358887982209170389768067537204726419723481633049683785638203754926437417753853816102746765838251309501859712891777950948539334126879388565964924051324747;
Dbl 9287920532238003873703264793433976251213069941133842052337598820242126500014700660746016816716107735154549831211324259312099569657636983953954484685981013;
Dbl 8307717771580219393179183393849642347909175198951181389213849086859507296367445506025223305830705789023528961483490530343483988077185235543235638154082644;
Add 9358178914620219848256206592567813239916106460328876029449578499049593970689001346321892996264928372616642298405070863434198032962343787310086696337585253;
Dbl 10993633217101847854984298551681587744999673175261213491386517351332551716403553777492810236001306178189478694180160485300411752936063621975037741604694638;
Add 7914201017672406138076509751756980668553069746599415637589291089983088460974821757477981139895465209448399179095660408017782548246936936484812045378645703;
Dbl 10830587212726893705206139411309992188340687167293478004866062690487112942098704075589816004979220542818813713485743182268135762335587799192683164880157169;
Dbl 3011174053679686566979064325407383643452960702178664447114601567788933913780708539931997047488954409109331347977887191231116273427825776200451724968640304;
Dbl 8032892943153854629965008033187068026114434002566019123600699891037113434655076234589267870249851379728969497853148924103104941468713479658413903057156861;
Add 4480408702989131073690985085586754924384413468755300117884884358918009178428791480614946051561230957072601493578321986126849962852677496123158743564972054;
Dbl 11064586971583912529219734258645332032970184731108431808690180324447096992615645672243422299074259355927842328335057878251247277460694887773747831101145463;
Add 12490054840945150349092169674854728644076971088254852865832573120847229561505299358704983813869981058962219709214237647503183346612215544484999937548699009;
Dbl 3200217998177860131966109412925432988874408991746211896948767632169062906946499893944650178160722845602900192932580819932972759211144481621417228105046532;
Add 6440251007113661212476449317132709650791217401079895750305172114275216707048121361349533993781944258810672792789069262096328157984912090196201336205138083;
Dbl 4348191661667491427253577910589676124740699520265900546284217772283108511583542973043342341056606145866059789001568539577552351186009528967959931062014260;
Dbl 9963965576017740713816753395849875402246932169826949615596214837931787528740800663031854535190176924763396315119182928760515354341856586547493214594214228;
Dbl 12281961212575418521484093186313164676064608120288792263549534510516946297993955432069364978668590129161561789593153413306428368368958417447849369385637441;
Dbl 6942375007164766904288903979348298925470548789568552082365371903827089484113582880300483335282993001965989816659070166389358632458136953613461099024540058;
Add 6686142095868868136611515212189522038625301514717178984530936152107754997560844114033169131174654122023228855996452312770628876896255984144543510146308919;
Dbl 10784548560340876661646250074292856511053112491010949265654401967214484676731471452351459454877951728898306969113014281280487576666087418694163539957209404;
Dbl 357306382902742712356880437260322423264975615379359134337509027023024053122874570522188428853708134802156970936602600223361546906142362315209707717927429;
Add 3284591449715435743426090194498287283740263972630471567867765451057086745457342763416028202869015777477563831340255724660371253783897612052568928491681008;
Dbl 6494309525650026026218438440439498089801470057453177714911359695264359547168464402066381360985303804698870998920631299210913031445613887706035841463763836;
Dbl 1690031087497436840829342855087822978999730190469375054719134271984125599391946037582523212431372848786483805269278803719200680592579926682052611326045574;
Add 1841113247553006645151883465767382532596710247610765675423846894207566520177609854104297920806554000263021243925080527875652154946021825428143320438512758;
Dbl 1479870023133556404187224275708501605255460533522030617488737845809782104221999404445404116024399831469049540963860349807100823885895034040234844341449237;
Dbl 147844718942894330684679313201337360292623560611785384708406366398929642849708769706844264672492993743779851085231156233501929659695490626176970050949066;
Add 12302701826753482429168730000523261226019612460819603579562928227368866798789616592885427133665036981181839376722167929273855178158021395029007568088096259;
Dbl 8577943847855914371661870519333590073266248984849169258794997545844157360096036219330152900748484916697903926278818650122774917898199222973242186477418630;
Add 551381800037617259660616510048266181921622808772997299674116934026371764258979575135679240093273365816580119100028725449847188046103039854510826501929534;
Dbl 1135646147207510650190524543335091757838963520998328476029557137927755623615294710141502211724957279260134721303377433695796135711713620008708728704074420;
Add 5024432311826462198352351724959822718646721665221043878652890636429815325873005429033071308063509787574433781854114454050315600860721325155468433545603644;
Dbl 4771788257245811005564619094922745173951890125420989875780438072467881652309841803113478588072605224526878034812106103037108070795648386279764011590621038;
Add 2272429272533648919094884862752165113401532122517432760056065239171845868478943459486980798054640026272505295048875978605311839991513798727494699316789034;
Dbl 11385649875647516177275483547103445876349378072697652366791872680962034843953221512889284777618670970864897622611964310601688239054712387169975597730495098;
Add 1455212329788235582546968833675220911064791989188637346389860788940920349478189778681467296680924975053231173363951607593474332243061933202327460053714466;
Dbl 3487503306468670915980006306968157355227673469726246799109263500922167595732942844508506018976880595371024846601387597213569797551928603846241333088179382;
Add 3875034598937333514416131455790775758414458325890846592697022913348665469470672244211910110449873803982777453034749143921964610157655369742682807688659336;
Dbl 2096673727169842037033971656560436693185176600391180153445151087464954962487825876564348105772375459268500476032308424002615482973505491776044592018752237;
Add 5667678825640547422434477748512952264759225352244870005488220603752053788503003333489656201106411341212796204362986750362792607777639622118491002197843644;
Dbl 4029057557048286946007023162826928675211314888804203966545479269234002949325236655053896825831755895033606969357066736596148127340912986711861151515559050;
Dbl 7245281418812063830503110493708959712548227245122058967002983045910919382282759358514023273109739669020746803544409409641669321706937487852798328378567491;
Add 11898389963994896855993430956196774683964215552331800250046222713342691433816388008147159903098040080425591500812741747238256105798216149480194522774903061;
Dbl 4637577228586688567609679947319672843910234395823302348991297185341887675891788480215545412825088125443907040176527412304447263689992669729305950755048998;
Dbl 8295040020803034005414466402115755798112590675324906664449328602791772192370922041878807837409464890298290743458736813067591420889188166603586417216513299;
Add 2593351784256451548644320795470881643543982422454071725261647731130461394472011629794764049367033141362390371134820296817257429096150895190436360747429453;
Dbl 4619053526516830294209415223198336087064911718163106937794469670898180866252987458215036489012336906410742347994981869762933033490732174968512878283519664;
Add 5039588129035611196230057141001882871587343323662572659488627581140611194628410918375625543043734273431354792612097169795195060984699908315333741388249226;
Dbl 12358795111406848234669066534826303908328472297442281104789205201838626993859132678465413342302224804175144285881409503455124285757118348366070073563559050;
Dbl 10476998708971386982480484064774003537793181335064911261353840091355212133205061979420007375433874766099564491702751206696084683556663793495366726640388204;
Add 8917804244851775262866307744975944467719753189119988038682993064651994235969489626656127468729494556178298698536679295017053148542292823591032101558171912;
Dbl 1884319451835037582157659560487531495214690436952455241616529687618485273762982489260980548462352646962865047451163950199204728986835431235252065771273873;
Dbl 3396608514194778979359199922632681668292949543963618944266068314430161347038069456529516499485284907096021422731527265577641583917081604864694347437887686;
Dbl 3777752829165945450175670199328983986272729438303153404554186234273283143604609421137848633959278574986149613134201821204938729374797128948245271199284468;
Add 821391480248879085888337229927945127138504241712813108455915364178605505311132803589295100878695746023069585322955701819702311075361988741324170091981401;
Dbl 11069491783979771017922585405577174685437673788252230023021753320099694088934092329014442952408399152596907800008921028208474192365535817552073289658750921;
Dbl 390833994456552324668285932202343735781915397379018000906466076082298771833099751404704391172968918167466255969662171250053066157553169873271206324692180;
Add 11560999182098981557293938378453058801433138932322163024943807112311563765698712035399776629503460990229912329057546448500248918537172973449850297975162701;
Dbl 11142384896539909906359189753170952988380529735176061136977648003994904179128872238122811845260744652221616630666275175747891541659539195685304594984364649;
Dbl 8568542366018554020567072779543116082932670949670098769971046074079314961708618142813466017494805514550161430387109125753521008088945822283089505079280725;
Add 7732640076663976675726093261493971867321018732708949981799532984930041197149542271709034360625121434842655514764450342936036598681092856709116952120327808;
Dbl 3680849822262563245849596285734708454188136690383342363867590096010561589705957113868750425208720421207539694012662942823365687699868886997198922803591037;
Add 3843144341001126360063415499729946023037866742250775214518743577786109472687294635422425660631150263773448733525621728950723908224280198833375411728732683;
Dbl 6214563142558633869222665172991507680097180555166585639717351276561677071726626573741820926410193975610560899757164544854643630541281071871482330671770608;
Add 925925051617194602829986928416778105022022423183222578001431941040471894370827441652814669346307303215969351842733676956861957351810877419392920247419641;
Dbl 7666235662663315269970520616788306997619745315583148193570475906945557810691975101820484083010774075495185980360215272254175235114302241708661357034371788;
Dbl 11003947303445929834490013030835123525678142803141790470851282122089601133153445872520654592775738834067076708580711624615478532185498211839299672763321526;
Dbl 2153067860719356040348247677412380667043078792543489959971044491960388553818260625398965758710661954412050147178866847254013899233321211985532868418647092;
Dbl 8601083816972289831175083366810760207312125625267032751687825139013827597742508763490645551616104963067260860442029100585944284818639562266027594034133847;
Dbl 9371334101317402878448749491466519157974355365539617918411718011087853437929816047771312482329992359590928938199845745452040850496929028676549905959569855;
Add 10687496784571887657862945606194750125875535683800056156153693730153619746760711128444310958953960944245747167866928791753916310959354200718829111180224642;
Dbl 4603978415618644311204448752778841187597118407540628854361675630135974274324686100836486909258516042445110239442280412070291423019546816040325063760494616;
Dbl 2972904298660348015411896816845331037772927398628020036352484878657962630000988458244386612148812091999186948666180787118952307465692273226146797898002909;
Add 5200786534153840178603660728741639716338088257677319648468999397729027561776998079210051937346364304389685824160631319287812681739162415364665090557400643;
Dbl 11743326962557274584517417926045248117315952797908224042254104839289169067358729184669347011011063384719513982903476845267364724273814118171391445721071563;
Add 4047886489250881703738470179119717266621506752072466392069212692346239257482754816497021335850783219016069739617816241422218740120645924567808486780535080;
Dbl 5401653536018014794357013026157722203283078774076553249133085751609759456071256191651957426629385190836756736806850644151725291560504507887239211474095295;
Add 5660912070347272182134038110705837223395081442581727479347864917436818863331732864846686380323885324694835666254995862394089885658921709075447476903429995;
Dbl 11521985929436976415835427502012669717403699327228805423094994485264465594335403944192881866849309843202099100806950420971488737525344213545935136921195847;
Dbl 5705571999609251564954241220724155807490101769074377867739053888730279786734605422077716711250821108593495166197075665742892971738307093358650369148493263;
Add 6603664892304486224288803179349077744446149240119354707175852016364579974631803372941880159215871554571324243991491238121215214752891644903685452993788886;
Dbl 7812849811196672605225386925250898283039564582526297443529028041039649407092643541443893494856445026175658816457453840714239801656788877607170798873999664;
Add 11949323908202877876533472536743273860834989662021710739728683606211985622206333172251368876946193543003256713863262380871278479869747988746346707226631302;
Dbl 11656781826982657119788319514576510675183118979046275963789132582688060446224481538142670659874706960707103804353058973040826487495003977736173569298012827;
Add 8123474586270959622298157284199448550884368270010346031814450314479269388787552147569662840213498895369529827943364799022131357333152858518819961329626260;
Dbl 5550894632678275660252130207578923673739338997165423488576106185885558816183569582577501689600694318326084847050414100696389430155854084967283538212064233;
Dbl 4273336371917971904740146504979348992252717239787121675565462499455361362536838030280157183122862951216616859034670027038475788739313246794909891323486816;
Dbl 13176010011751661061430832571553160958796726045024538303288694706007295735933331727479096858792650074846361936828217683600143610739193470244263793297049452;
Add 3209154096228872435954222530146053302193323533753752343694806258913196742192836193106706065161108502873147617368059252976250094016047823996192754842036390;
Dbl 3169248116123794437779526599277139283733062514562015694698303464979960026959400486687606712168330391172004531050741616885681656459163147876145488333814842;
Dbl 5721987229568576239109824228272330347846436478536872373354437234054682986945635868819453305551027479459098301386874471706403413392781125133972487513051176;
Add 535384666662438501414215818197589069041273553191147429558133169558694040561546515698858244184537026516950191786021449603796078698105782986605336595973098;
Dbl 9938294591262378300573957544342362740791656182496569222667316115320560665729638031049503842393659150434567652480717389915078794246175172507755168196885800;
Dbl 6076480514850380673262475730035100476860126773702446207447427989606746147148570997955331524097099348460908087123831874460747841768974692796261980410500631;
Add 7080773971683031926728271209336499860166582025043837978406136976917594117355859696502380332377543935480212071118924089543676211675014611249815678688182074;
Dbl 5006919156902297675443888983516455143181605380447958170475168314090140191496044641357033300590513913373157532305165980844557899673279213226908903230187015;
Add 2391427543579682749821443054465758687301605151819035682006524259031446732743152335884167410891607043728258168365937877738145774040139451919142673249366843;
Dbl 11365518263534609751779368216310996787209414264189479015430297843365854236641859623993438582715675521669077832200627646777327989113774555622928190354979645;
Dbl 11229786316287265255226085344406515004366683983787983728313701782533645502202654278177200806765239213291457573682879438865187609691795991590463446377194772;
Dbl 1684334929349815244650363899298752691523386747019508591565509341289488655208992288708455676466381982870522632848198611756943790738355997859371044576117987;
Add 11671102778036181697675621694199866415562997017114861383345235006102127270834915038921051872221007321107227012268991740784806889107075601904440305776546789;
Dbl 3777751060353005921196382644027206516225914598254869075886855622910265722307046473986698601627933294910716467791595818476841658360910008266560119251570501;
Add 1986848339080236974899267528451509284371448873255158041025014121507430766532483886678642040701566635249740972910570999891642886418789268901264939224568175;
Dbl 708819118386171436244931092095368401815430981511446744241812004759681856534035900319734214078651477669370780201749285968429185508924264379449571968052550;
Dbl 12669753334987510352625840866419590963199844362969734603864209396731884156321906863980229872337727659324523580635163342042368610393229522398896378354914965;
Add 2721889145243346240965339284292411534591644877525790579011035372589751297074141553073157214026540863611111495015027755123101486168761388768692446919837266;
Dbl 304693025637377538298064669562777972616243797307143311609160137548756768162344320132150800337687320785003615670581479340501677595390502176989976601764106;
Add 694693654843459175431549522079567026759958482124026277870630536012027849219967693454110908865337885958650430493789819682195455993305946140800726940858411;
Dbl 12322520154751023296964785561154067329544673304356035878259678847571943678273637265147139236263663531765755702262728833342008918328310655011144141145580736;
Dbl 12405277646605637480773341681157289041550497382367565548810337995901275021432923727670954645801468903743385147693181379328757886051609890360410865528854922;
Add 12888583297497027453411503635568539208233749554041880369751185109048354348378105912794250677299444971099978076838228088310027708162536726984915284649593222;
Dbl 4140712438104559944665830762778838561091058643864645127113567585920642337349133318946633819442139150593160851763600966376323771194309778562710482748251370;
Add 10105469432520300280570496392245330097694439673187330699085810177505350059306691178607155752673705789310969393278830725078271903269224610596431835797571509;
Dbl 12502329798940303554069983531398763346333805378611312189432492041764842053101724635860285579098702158932606719641717559984866460854427403046782662576971216;
Dbl 9092375208060231698717251375766226795267701268591108774186352323157438322239857046281133188026162899230099121717513181865787954076432173430866011563015826;
Dbl 12347708214719367581028524120660371522750138520711419496115536483089316690332135735853389305897658198089456516971489743272314192207204095896662429735875382;
Dbl 9095469535490522365866071331151809989708110943300678538967093901680056539868073725771234177901086464553492053320768351142759991057123845873725177143927327;
Add 9238650526217784862004702622773804134476413327678905152107194648980742202325899360350524941169731623904946768892944717626326290835254784911165889148343074;
Dbl 2165620957571890170516928193182330922710808229487232429268821402382392853962414519572252315799499633481099301634562011579644320947963137707471564669352087;
Dbl 572232973618798347360848616756530289045700162089550800048857877647418878824321580063653713506411358440344897581508474444451016854071583754004599604464423;
Add 1748341861116366454273682102207040941696123212156056691598825657153874784930102105062803394873298156299953654506970193706595049400120151317916430120243044;
Dbl 12061684176584468229440410103255478040751484140557036467399126759204446622436983826925211721860450364211226890684880898325293829341517868731816853020280511;
Dbl 12942070195462385167899869141958725674979165351001513528265699244891874972491644898095481797421277395612617060475230487348208380074296256404164006464830908;
Dbl 2457573748095990893624995672069434305066232737228172553198396792733219992521969579199745751802798753809065083626873606335001499908430352084096161052028161;
Dbl 10688576004442966108346077036533962390702383277595199523840298103933355181214293385375122525717828485465150903959447638574964455264060370637170259290124396;
Dbl 9326211717229597218735252338988518430850276673915190803527528476515167416316885134450420157977918790373754297718719250342778645279053137959784260809264801;
Dbl 708831032871814381688039357156485281687431343762500012669633982952272339302275087572612939739518998637585893482775232163584274625133887326818959790299077;
Add 7117377713256298853101866617543493149916366715384299444910252343114716968671261691696056219901523186252060988932071673838638770660805206351399973776172406;
Dbl 5905211199458198321302452350237942768670624118806460573112006469210932217765729544397825587249905872987229749242991452631720061326335657754116526821228014;
Dbl 1752952099823266291357782814120612614208620451868911865831555080969585990146174272107407362844477555959300926728712862997427740853569012462197628512907411;
Dbl 9503509740646413106574358476486194656202846955620074569234486838897478876174795242207306971059720424585991454994795554002001633710280225146757300127033447;
Dbl 2754186172799010345851131179285792190368115964552100274891761758628511652459475916054442171081190053035437961361248025201523924678988851607998491650051464;
Add 7074876572861529278538099841253260558094373542154454957760417149266038870516968262481252302799606607239824147573081356906595922655008260636481524616344985;
Dbl 3734600951228383602410845653861746779357046954397955292413165828759660466732085080221398447692953241378706313431134884724383076053286575425703166757220205;
Add 4997378780373971014313500449358734270386256311524016207916797566706586175626042698712542613727886203880916362428559411011184746482330505296936553066753767;
Dbl 5388942614396517083520452537963119194594836922052624034045396108935345322499104888453376919090500031526728814194953862821837271385494816500972766075507906;
Add 11114805287809897991368530737102480026540479149115872733770564417843332094929134175205674528988166240994981575442942666428553874507125070489000403846398986;
Dbl 7538669392654104762169208961599538753972691112108595524977575429020257979789631603792037004779555326420357449061739466886284149759860326805966589485641628;
Add 5843032029560570240841117696243314605491022757245109519171883301672400473300041973683241752471539155070780296138519947270890658122431711950778826837128255;
Dbl 8877003419925603476657035287686386940092400787713651381449584278294630409949988801039005213707035696020994990496479021772347422257367979457647618748206254;
Add 2412258231931807766736024661032496345124466465487354156693522435990481107255730735690062037340747359878339378626753481398805011207448347566951710551918123;
Dbl 10638333149732486087718812291019047291112505271814562837062078200551469346968695613475963288872400320160593170357324316740428212164634736807409274765827022;
Dbl 4854287978115937984086310195065272649766700880859615411852587781030009634407403385150312957645841653699947617411892992173386024763595705503554175417201592;
Dbl 5562837808469935461474155248158793694710449944607848684067694291223431813139408199794621820961804696284981649573311531280853967975408096827928580515746747;
Dbl 6460152613461991217183128147640923702779468074679889250405553637373025475494304283123161501611590455693979595635064576345720163392537518691724983393462943;
Add 8084564459238535686217576334401495309003129249758193861363805965498552971814139626554713415694090032593058197008131960339591346428198018377045813413460434;
Dbl 6797960279925726749175857237896937899675035281245483765963609704110262127416060037586603571224581110448238786980602288105098097132339089141254940325024025;
Dbl 985819525218485439747845638657107075990918608909895458725406360952556720203750569056536704248043562201905119015456872118400081146078673630169504974704931;
Dbl 11830637865825500503355592864194625138250225390922202157572096087837001630937659659666774328418848214820565823510281897161566990947037885718262364932625506;
Dbl 5804458847327510984374870191026003291936283397569090499513793591785163438354377792322851420816074210369759652133425035914284547064853980974997166864309031;
Dbl 8157497694029334174214867366028600549241185300189614046834077487142178576296909322517578006084316583939152793691041144017118490324033429918422371565872035;
Add 8970565435927005046586041477162090982972712741462778891648652933721590090952248886609229882234779465470997639916503459890773343154461464695876967874026194;
Dbl 6425129301051627787581954571354267171868143996121153132997884746418450020645813375173267089168124558003079195491028883415615519072099820652901729838764668;
Dbl 4600551765467518460575362560849754842346663945734515777764696129222652996438116402090598104078416431613637098163232511036624856169546014994124670830422104;
Add 7962580114305156938995521362571775323261469162298907301121416537043078679343755456447926669568712056948840264758172645875711783430449115799941765831661729;
Dbl 11114492989936877039840609882789787636697496052219200819054684908463783136452028330186551071995228243185324546422177417814959148437361922542327773613078125;
Add 3499821878448690133397898005029799532224001864646752275551759393766323838284370961992702247665322487539679468127291510097214023900895707664229067004979827;
Dbl 3967849788652704278848858835879059930648230344281383926419861409886531132259935206230304151854615026388109458553534512418163501837853502964241787320706985;
Dbl 578834206524384038918674103449673880811956571676546835256200208207635259797990392487700502577325055931048595147327541685647055423184893031370278179192807;
Dbl 7811250750360700238053514173195374079415550556775768761170947208170323476495416280917537453559950920384238121684841791310710955582498819524174966446382366;
Add 3882040482235835531594648840330357575506755068428350837544251360006594911581293934442615553789375497103332333281427006064017392849998617409437302553234137;
Dbl 4781509900886476431470028236561756853501234944095717904242332132192385737548659823498466642359289636176261898615350392506326914244434603504502860316439076;
Dbl 3085377753793509057364114031791102054044495639911528689390242929838094873833725006279848488530117560552669715106038878966946709580384063683209204101897397;
Dbl 8825037433706076051518033241308745027975579168277813116409839593296545252411960829532572396016679728001850476361336641899591682470006510608128135187064698;
Add 13036427992321451634887781425938526172659195976161016357865567842717947797836850522958095903378097131893681560920966837141159090865973609711290494260213975;
Dbl 12061978346491071754993722517998694376026474490289738121680254209918285263888811616545667593048693584365312794776510338799320309657739640434695700332060479;
Add 8773342195848990209869647866158523788142090174878870620382127241671091634858819996563513189538330502717541273382261736671620612754295585378089268420737041;
Dbl 2128467864367248624522866802761252278072613921289626556509053549377805066008731441979633721406443153138382138135189580446865780142804864612170268553589705;
Add 12759590009725860118156104211873454582584401253037311177133579389813814229729956838107248476628557281954307009652984523425793391008776695219572467402418134;
Dbl 2632862857488427302960494867654234960908836600848977205270038079011031332480375000225078542454717577052028199287528997096732475609144806809659024008364727;
Dbl 579875072770888118147374475957443253236810175250957576769683308667527215851900208968518023415520394672276459402735207789820699573364180367050854325227069;
Add 9518592567047909053816883297335017242338322739168723949290202624074547349663201507248458085955047345276895265500147162830342734482375278946477104904981515;
Dbl 2889057184425207698638773526775503189129649079163545050045371270703174049484175249410780965025972470314493014460673213476423702675773415120803038972496223;
Dbl 10997888770932340257990427217138518401009649694530556913489275729181779920745141957765364110000629876851912073020297704461980498987868525928732634048667809]%bigZ.
Lemma curve_checked : check_curve 13407807929942597099574024998205846127479365820592393377723561443721764030073546976801874298166903427690031858186486050853753882811946569946433649006083527%bigZ 13407807929942597099574024998205846127479365820592393377723561443721764030073546976801874298166903427690031858186486050853753882811946569946433649006083524%bigZ 3%bigZ 6128567132159368375550676650534153371826708807906353132296049546866464545472607119134529221703336921516405107369028606191097747738367571924466694236795556%bigZ 12190580024266230156189424758340094075514844064736231252208772337825397464478540423418981074322718899427039088997221609947354520590448683948135300824418144%bigZ 11395874289119774124525043400050999520406179539983415185079230414215693200505113151322716256979889411335012563103137515618558145421443293368649428612888153%bigZ 13407807929942597099574024998205846127479365820592393377723561443721764030073449232318290585817636498049628612556596899500625279906416653993875474742293109 steps 13223379927500841824711471388167926851386069489859403596889046448557182714487100232809245388570916713872214996842944772741236751749187902326305663241203966%bigZ = true.
Proof. vm_cast_no_check (eq_refl true). Qed.
Lemma p_is_prime : prime 13407807929942597099574024998205846127479365820592393377723561443721764030073546976801874298166903427690031858186486050853753882811946569946433649006083527.
Proof.
  assert (E : zv 13407807929942597099574024998205846127479365820592393377723561443721764030073546976801874298166903427690031858186486050853753882811946569946433649006083527%bigZ = 13407807929942597099574024998205846127479365820592393377723561443721764030073546976801874298166903427690031858186486050853753882811946569946433649006083527) by (vm_cast_no_check (eq_refl 13407807929942597099574024998205846127479365820592393377723561443721764030073546976801874298166903427690031858186486050853753882811946569946433649006083527)). rewrite <- E.
  apply (prime_by_order _ _ _ _ _ _ _ _ _ curve_checked); rewrite ?E; [reflexivity | reflexivity | exact q_is_prime | reflexivity | reflexivity].
Qed.
Lemma curve_facts : ec_disc 13407807929942597099574024998205846127479365820592393377723561443721764030073546976801874298166903427690031858186486050853753882811946569946433649006083527 13407807929942597099574024998205846127479365820592393377723561443721764030073546976801874298166903427690031858186486050853753882811946569946433649006083524 12190580024266230156189424758340094075514844064736231252208772337825397464478540423418981074322718899427039088997221609947354520590448683948135300824418144 <> mk 13407807929942597099574024998205846127479365820592393377723561443721764030073546976801874298166903427690031858186486050853753882811946569946433649006083527 0 /\ ec_on 13407807929942597099574024998205846127479365820592393377723561443721764030073546976801874298166903427690031858186486050853753882811946569946433649006083527 13407807929942597099574024998205846127479365820592393377723561443721764030073546976801874298166903427690031858186486050853753882811946569946433649006083524 12190580024266230156189424758340094075514844064736231252208772337825397464478540423418981074322718899427039088997221609947354520590448683948135300824418144 (aff 13407807929942597099574024998205846127479365820592393377723561443721764030073546976801874298166903427690031858186486050853753882811946569946433649006083527 3 6128567132159368375550676650534153371826708807906353132296049546866464545472607119134529221703336921516405107369028606191097747738367571924466694236795556) /\ ec_mul 13407807929942597099574024998205846127479365820592393377723561443721764030073546976801874298166903427690031858186486050853753882811946569946433649006083527 13407807929942597099574024998205846127479365820592393377723561443721764030073546976801874298166903427690031858186486050853753882811946569946433649006083524 13407807929942597099574024998205846127479365820592393377723561443721764030073449232318290585817636498049628612556596899500625279906416653993875474742293109 (aff 13407807929942597099574024998205846127479365820592393377723561443721764030073546976801874298166903427690031858186486050853753882811946569946433649006083527 3 6128567132159368375550676650534153371826708807906353132296049546866464545472607119134529221703336921516405107369028606191097747738367571924466694236795556) = Inf.
Proof.
  apply (curve_facts_of _ _ _ _ _ _ _ _ _ _ _ _ _ _ curve_checked); [exact p_is_prime | reflexivity | exact q_is_prime | reflexivity | vm_cast_no_check (eq_refl 13407807929942597099574024998205846127479365820592393377723561443721764030073546976801874298166903427690031858186486050853753882811946569946433649006083527) | vm_cast_no_check (eq_refl 13407807929942597099574024998205846127479365820592393377723561443721764030073546976801874298166903427690031858186486050853753882811946569946433649006083524) | vm_cast_no_check (eq_refl 12190580024266230156189424758340094075514844064736231252208772337825397464478540423418981074322718899427039088997221609947354520590448683948135300824418144) | vm_cast_no_check (eq_refl 3) | vm_cast_no_check (eq_refl 6128567132159368375550676650534153371826708807906353132296049546866464545472607119134529221703336921516405107369028606191097747738367571924466694236795556)].
Qed.
