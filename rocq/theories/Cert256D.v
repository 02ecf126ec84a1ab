(** * Certificate for the parameters 2012_256_paramSetD: [p] and [q] are prime, the base point has order [q]

    Generated by a program outside this directory (factors of [q - 1] and so on; slopes of the chords and tangents). *)
From Bignums Require Import BigZ.
From Coq Require Import ZArith Znumtheory Lia List.
From Verif Require Import Fp SpecCurve SpecSign Primes BigCert BigCheck.
Import ListNotations.
Local Open Scope Z_scope.

Lemma prime_167 : prime 359.
Proof. apply (prime_small 80); [lia | vm_cast_no_check (eq_refl true)]. Qed.

Lemma prime_71 : prime 113.
Proof. apply (prime_small 80); [lia | vm_cast_no_check (eq_refl true)]. Qed.

Lemma prime_1db651 : prime 1947217.
Proof.
  apply (pock 1947217 1947217%bigZ [(359, 5424, 2%bigZ, 1047506%bigZ); (113, 17232, 2%bigZ, 464550%bigZ)]%positive).
  - vm_cast_no_check (eq_refl 1947217).
  - vm_cast_no_check (eq_refl true).
  - constructor; [exact prime_167|]. constructor; [exact prime_71|]. constructor.
Qed.

Lemma prime_43 : prime 67.
Proof. apply (prime_small 80); [lia | vm_cast_no_check (eq_refl true)]. Qed.

Lemma prime_11 : prime 17.
Proof. apply (prime_small 80); [lia | vm_cast_no_check (eq_refl true)]. Qed.

Lemma prime_dc3c9 : prime 902089.
Proof.
  apply (pock 902089 902089%bigZ [(67, 13464, 2%bigZ, 422479%bigZ); (17, 53064, 2%bigZ, 873971%bigZ)]%positive).
  - vm_cast_no_check (eq_refl 902089).
  - vm_cast_no_check (eq_refl true).
  - constructor; [exact prime_43|]. constructor; [exact prime_11|]. constructor.
Qed.

Lemma prime_44_f9d12875fb : prime 17565630363131.
Proof.
  apply (pock 17565630363131 17565630363131%bigZ [(1947217, 9020890, 2%bigZ, 17365487221108%bigZ); (902089, 19472170, 2%bigZ, 133168282058%bigZ)]%positive).
  - vm_cast_no_check (eq_refl 17565630363131).
  - vm_cast_no_check (eq_refl true).
  - constructor; [exact prime_1db651|]. constructor; [exact prime_dc3c9|]. constructor.
Qed.

Lemma prime_233 : prime 563.
Proof. apply (prime_small 80); [lia | vm_cast_no_check (eq_refl true)]. Qed.

Lemma prime_350e7 : prime 217319.
Proof.
  apply (pock 217319 217319%bigZ [(563, 386, 2%bigZ, 108817%bigZ)]%positive).
  - vm_cast_no_check (eq_refl 217319).
  - vm_cast_no_check (eq_refl true).
  - constructor; [exact prime_233|]. constructor.
Qed.

Lemma prime_745 : prime 1861.
Proof. apply (prime_small 80); [lia | vm_cast_no_check (eq_refl true)]. Qed.

Lemma prime_f716006ed : prime 66326628077.
Proof.
  apply (pock 66326628077 66326628077%bigZ [(217319, 305204, 2%bigZ, 12481434901%bigZ); (1861, 35640316, 2%bigZ, 40410636978%bigZ)]%positive).
  - vm_cast_no_check (eq_refl 66326628077).
  - vm_cast_no_check (eq_refl true).
  - constructor; [exact prime_350e7|]. constructor; [exact prime_745|]. constructor.
Qed.

Lemma prime_138_b7451fe4f : prime 260862815097120313262827914162129492639311.
Proof.
  apply (pock 260862815097120313262827914162129492639311 260862815097120313262827914162129492639311%bigZ [(17565630363131, 14850751706847519571093168010, 2%bigZ, 4494067899069234335342840398882879775629%bigZ); (66326628077, 3933002817424686452040454361030, 2%bigZ, 109057837468879902502751419702356974208337%bigZ)]%positive).
  - vm_cast_no_check (eq_refl 260862815097120313262827914162129492639311).
  - vm_cast_no_check (eq_refl true).
  - constructor; [exact prime_44_f9d12875fb|]. constructor; [exact prime_f716006ed|]. constructor.
Qed.

Lemma prime_256_6598980bb9 : prime 70390085352083305199547718019018437840920882647164081035322601458352298396601.
Proof.
  apply (pock 70390085352083305199547718019018437840920882647164081035322601458352298396601 70390085352083305199547718019018437840920882647164081035322601458352298396601%bigZ [(260862815097120313262827914162129492639311, 269835642637977294912925317964710600, 2%bigZ, 39585179798880746203555743323571199667568456810309233095247725320295213046260%bigZ)]%positive).
  - vm_cast_no_check (eq_refl 70390085352083305199547718019018437840920882647164081035322601458352298396601).
  - vm_cast_no_check (eq_refl true).
  - constructor; [exact prime_138_b7451fe4f|]. constructor.
Qed.
Definition q_is_prime := prime_256_6598980bb9.

Definition steps : list step := [
Dbl 53600973653182659449430367627457829760961722093020174922962674685217849590261;
Dbl 66200824015713449718627540070956075890827511360373830037576095804552867606458;
Dbl 57569248648855607298613846527069353306489014646453317972802215514108790884615;
Add 64609887561066766655725154002984879538067833242325679046947442222808442350459;
Dbl 34262944914868657853706365179717064832079227258362465420640122595409201240561;
Add 59464503546035057554107296426891894402971737397268841733034270606101885175629;
Dbl 27196263227422575300675745828606244287104887518295927316022913280277985141311;
Dbl 8275098758465411662573574698837815145878357525154435206902895756929207769902;
Add 58871198920243507247998864634148750165939531349913280820227203864618812207863;
Dbl 54623705134283188159823836951291209878477546523360523475661494242707941531451;
Add 42714526184696504387529371907708031932392366608346048114329555341422081398453;
Dbl 36852241164412079377669027526097170269070227963733666534701828523021652519211;
Add 38531280317384773124060579560880554365643473284125347355095157406505276904691;
Dbl 22446528084949840416135043472242612190251699436438589543106654742276734837610;
Dbl 43805449563088450616731390056887618477487789297148281836911420108012222560493;
Dbl 63445886351522468130380489860366843572029723293863353410887732784552137038872;
Add 11920291767396569189720672633426952014476957449656348871911612033887694562643;
Dbl 61104771942096624332401051287502735313570095906658613809587025099011477173540;
Add 69643444572156203081357848746684203960203432750286834989627372515141466870300;
Dbl 21413838394172333834113437817249919908883474744697002518133157645469932065309;
Add 30431548478104923742035536024601643219982780274069616942244913807103325175991;
Dbl 36137016398717586149421435357742657555222330112571476816436804276678328560445;
Add 65629293649113258601937600786403686154429869243949121020103206273931919546737;
Dbl 41799799255668531381622000204817216255385228151220128564244554543421176991171;
Add 45399651943600503089934328087894387885256585742356807517319788570322075307469;
Dbl 31010758939746725712996016510081252882651094377905665389077843985490665192237;
Dbl 1290303670341429093410494236238151238423181935038200578461774787023816289093;
Add 20958639217272069156945537373283460932610872183124580150488371347010062059600;
Dbl 66888603868731430770105594723278061584407698654701385355809066430130801879152;
Add 9442058124442822031896757805756348479853438659738483782728009007951406869364;
Dbl 24330570417100810670068804695112047936726404773269002723419434600464713554006;
Dbl 48375526516687072939113496128174488416696396967825476733716942413705954701456;
Dbl 61177773519210761113468353567880581758856175272420430128951517627153651949966;
Dbl 5760358804603377964008549757833788249850487381154108708852644813999958959332;
Dbl 12547014059374641309528638015852706814728328008034764264744939704320644734941;
Dbl 55701458511815377329289989130886656471077589124375201688818295202640563939588;
Dbl 3659011607400128805106359550364397462567257242359628780369269675438475948526;
Add 23046528563295171022783819239317330398298837023575196701944911659762409988624;
Dbl 41346271901127001241668724397168481122640280083642652303118436301171342193801;
Dbl 1576041826511676514352852224612080734976588274317766140497573739914963158746;
Add 27828219193797657796823865586235688470550366284964998491203665632735401000736;
Dbl 15198152746049610522840100924704530681562146819412889260846958803268294738572;
Add 36253090425109653738522144788452615012692315459803610109553220865674898591623;
Dbl 16981408791544924343889055860019930137084250936411919860866637241834303106139;
Add 58491779278035078426223073696066493435892126727036388615351404382744170640471;
Dbl 35095693672725770904937645583193314154114378313038202650737535638528966506929;
Add 47182126216518521860235259321700793383385692841526933164466448859137468847605;
Dbl 10105142501396345457365397930437427054134281165116381916250240817128044670507;
Add 7820003637765874280397299301163266054444302947130140814695878575710016572029;
Dbl 44786493384394484555771487994038720368278129292112428252017544381342299853013;
Dbl 7938301804862556090773587785169122991518724446279406451739471413390511352567;
Add 1165328441364343299500115234238049995106920741529933052166443053573097163905;
Dbl 15221587350303446461958227758944256097632259428029229285450296272137855881383;
Dbl 50187189974219918713506810714139216878778484323302507940155713889985776695353;
Add 3969452073234030188228685239348646610618666595691211240971768087507912659254;
Dbl 2761092020242977115263435679861823820481684143720354586449021238335297034769;
Add 5778382988175642573202347301203308292098631720772220426038742551842457140633;
Dbl 1038729211766639542533155526316479283076947581450984955283226046105384597832;
Dbl 20184715242328314449890698355500076690015318844316779065492734594684577978502;
Add 49661245282097485121650881194565501361949884951826706379588391735679054625995;
Dbl 14533172943195324203617112200466270515627973069957780052076192432989413041313;
Dbl 50671337474651275059334864900600462582000250009651578735754408021407203636878;
Add 68821940168731760089276115118049226957322610394485320411433467403224634147931;
Dbl 58841290215413781196426763287801379603868523779868855194901827656479204305620;
Dbl 66715617936841685133764507166446142861810025523446262509577990653230101478207;
Dbl 19607320621982712732345798620941894611089186264852799012720135931814800200523;
Dbl 7150083961349432292198503715072316161298858305352333238942934515049320479040;
Dbl 52816372866183757016863765510763040572185368412922506926851202497487398286443;
Add 54580345443345422331736820254120401449731155471801142454942420930217120009458;
Dbl 60103122935960489194399708727299044673924504897279087448549255145187068091464;
Dbl 27739451550318954816837843617345800246823995347428950053518831064275592510789;
Add 33753232054535018713624751690060168998774852597487259490792943920754137555110;
Dbl 58465673943757545167396030412677843086049573703014062039284280887767018854073;
Add 52693295023668258047798095685264518632491287168725770282593022773549788233084;
Dbl 64979506676412916305546099094639006286984297327180869516098217678097543436382;
Dbl 49754669349749885160290491617670087438168876254538876293045164652197011573504;
Dbl 26714173012950222844011510673972592856551588804562613583682981460816527992004;
Dbl 38128781497327354386063496185454750050874021806025004381982122401387339516908;
Dbl 40153350995219313688408276366689245097437413064243201739734019566375197978299;
Dbl 54368881624394665280677324164334263521893279268680118603714360225637728174952;
Dbl 6117490210032304139649289466464054458450843309169632101750098283811048330406;
Add 51235341408300195889407233198075275012197113603722306649337210567459457916737;
Dbl 30175293492808240985810601811045813590794431298784963145501249073041786794033;
Dbl 30291488270327780305840204559745072226802024967077471246587604960058718884435;
Dbl 42792966780193181304622218627727801884119933494596073629576460825656384893780;
Dbl 58270867930021368055289047726983527984672130855633031121802910007270363845705;
Dbl 9313925306630636261059113972492022573454406841589300398180013787961082266302;
Dbl 10574245853307115954735143693705992531627418664758297677744871155394777568268;
Add 17497550273711107198205490977435227449871064268453343249005077760784589964968;
Dbl 36675829172963174237109542275102299826281223929658147794798417790578003768896;
Add 28868932874189875616117509209082568460696151184673869864500164429783927621124;
Dbl 9045580081594333194558521212587649311881293229090958002163318680829001116192;
Add 7562391985784040537181123577955879922330076990384141964370711841113447223840;
Dbl 11272687815672367061092210423555941596785815659990035937623712214053136613412;
Add 16441464236555927354814901627764681651017929693542686559055430547158200443663;
Dbl 56744966432659681550003897473308264184836252110210619587581299329042204575422;
Dbl 29652219872046375983912385917027036354820839093380693802711737131039296115529;
Add 65494084496936176766132407557890103198127857596539100406100209501682059918974;
Dbl 5858115096652883297529162953570968923397758427172213866466819671016086373003;
Dbl 52164641270660022752616086648053330421337309778309189495380708994744279258203;
Add 2922923731045946562347808030365393751721407925438300039480431770013929875960;
Dbl 4393674178014395346094013406332986430247863901091548796701909034027401861835;
Dbl 53982588704560602265115441199269411375772858856730441526822192083409670585459;
Add 8681048706089358970001853590694169350722333476138712009817574026601800415516;
Dbl 22449044720112701622851714711485660161771542105260526665658715095247748976932;
Add 22865417255112745732724417983993633912386254727178183552586385848323520485848;
Dbl 65862026671313527299042265773757008964824775061365128281148064432037584280481;
Dbl 34349233563581886409288169832511205029156575301625282050212097678938834005801;
Dbl 36221092171333716643543396600400810602636560842979831217088630620640295089743;
Dbl 2609499396184522395810919632076002936047106891908754566701485422340264919192;
Add 22853060313760317146800916144956437314212895564418528124341595468100479958483;
Dbl 7848131142241717192137335358926879132198120654317164312951988111728626704692;
Add 59751232744217093671227601964222839740254154347409871342118315143722782870462;
Dbl 49056871477539441805356867131180547540954445182415674665724765280435747672915;
Add 21149976753835328680380918520283612743881933016793890716466161933731104232706;
Dbl 64152384254102492084887922655163990742018304598547919554101118272329909264906;
Add 21415609657724492630552642746165193341227741811314490316802813352784846516956;
Dbl 23689719500029944624130038757214523070996218840507890830460118952462912766512;
Dbl 28401653045184234551620322264492464689968932212486756870306860441749627249515;
Add 7068073563394318988264928983323931888726448649817441253570987940699201624525;
Dbl 12352330831653000767054934317957508041057884061229450481425943482919050796985;
Add 47772774608181265326715450333570060602709956165175609281037280898203723649555;
Dbl 22544073612313002132893269993280705925714592587476492189057565180602747903383;
Dbl 48403894780591234093442770111853753891985382707411516066628263697808322329747;
Dbl 18812368504770348857267295420840421101783470436341957836011753650202131960654;
Add 60520338184720047264007015856126298210890869583555341540736165281520394122456;
Dbl 7877285900254290330219566921419118920222713028508236476823386600479388495979;
Dbl 17748776490908043661535808629056488276963722082258096077496052769776457136723;
Dbl 54930254728986153395709555901844084239476228967232293632340652326085222778336;
Dbl 63052393974764744573714352897050969118232717127731436422992441707024306877224;
Dbl 55706649973964805497853198450515939564715722414328620142747617716770161790839;
Add 15739313135771675945045571355513921779127165732326984824769291912954329488447;
Dbl 28217953217127157442468822970672185022080491065461073224564648953516914469232;
Dbl 61649795405486353225506050833697952237975811425465752862026812601289671445978;
Add 22766180754436513469726201866505496334653508352187315253004729082856956789272;
Dbl 46448246842424155516530394456682320020785315619784198040775377106423856137485;
Add 41406567938333992222296225199223578365522119473697644504815975539008981463154;
Dbl 53831976448009109556756066699167638760887800349830017022031350625404105780352;
Add 50823816127646090530851536191058804106249405298368249913346992770478432513322;
Dbl 42768808803874274625417185297541830129866824144845220593390567620326618154703;
Add 11623890700511674747578898784916126009663072160519818013783596619176041810753;
Dbl 48897178729113629468596188461848968560279700300240262632772477508628483452207;
Dbl 27690148889170864036072392720151144523757286792575554519611670653777762817671;
Dbl 62856311744048806806474755375875313997250633886773727212923415530945068155130;
Add 40742054793139927945955486955445319877827249388158310505098491726384386160886;
Dbl 57581940552656635568164817765364549971719914272674165419904737815794782987777;
Add 32895927743641694940494966283796491318525260330799627674919082264650932732867;
Dbl 46070507812513124724040865945210026965698867185842575452612039524486399772439;
Dbl 68757871676010372415694353573423034418924978512425495856501721499631409017404;
Add 49695818827746736520524076260203770418275139396529819517236154498762283689702;
Dbl 11144643967450808038480520844580147553928964568671422958633984038877866243937;
Dbl 19261052787648068768202052188646905833605060659496994674559087678978821004152;
Add 49407287560403251212679862219468209158861849957026240485405104041025870018544;
Dbl 45069717565879321768902390602675871516373178769101234201741964216648935319606;
Add 50767422773045008799567688285933183605389635067918508087136352970350307699874;
Dbl 67010685207048351360535299507369539546765420729958584421557956618342166309780;
Dbl 59251716903193396201349581869028960182435220635575379044056861938445051348498;
Add 37451926064435168813469403876814606486952285318951503448448898300886897171250;
Dbl 56744633571953832710643731059367175624631790656660665467478978748742533981364;
Dbl 4425702824833044022076962657640650301573762481221371289364554210033420607857;
Dbl 30032838190143382688080467024363357850555188392342585022297912961193181729969;
Dbl 36139520043829015012267267814065140264093446642725043230568756603120513760051;
Dbl 59360396356484955264247675666881298532486450560937186674569229351334536137217;
Dbl 3857958411009552667263323719598097706216541562838659009267000821821080576349;
Add 894833194090158851813442392987744537608832457090677868713267780708898747128;
Dbl 42143881589495687950725333901774973112496033222866894689581889959410294062459;
Add 23424726174029057893414106333904036272747356176579264043746744349604093857029;
Dbl 59722798289325321386701284698989931452215840786841953215537485164340234956858;
Add 6811847991288841303124361930866757396626662917525188377860097242172366563366;
Dbl 46875690550807534343117884785839949374516139181942075070017805342416420124356;
Dbl 55324447342028173446271402486614605272948394089835254016714954423552828278384;
Dbl 18411548606944165728698085520351744358771847924291182844992326596498735574978;
Add 20063194338243676962977727903441450755925444975445030999928228003971811570272;
Dbl 26219287366669899380024439311308876086615281251314579690925387856159954936192;
Dbl 36748384660104041789480816898881785780633423240234283117722382459405431291050;
Dbl 20132306784265771127842011054120617903838555730696429454766118504967962487168;
Dbl 28555336603375031364650051037729385225524378855322150540172434826143568338639;
Add 59896641446520821633544440774180121434657543530232814951652788088276411810842;
Dbl 9424758638317965510840442571884169119556211114147448604565568655701461632815;
Dbl 53804811022043050681831837837239300586886756563267464679111140676862420930323;
Add 11823952382602258528683830221338512867469459328780742304614568040758577519953;
Dbl 67388747750249755882676067585537830270446708352002675271631307245216675368720;
Dbl 27074599805377843357037661485110356541551707493060629209824451375769457127839;
Add 45021314834109134985018264746188231464590625877726541607358004290407010103922;
Dbl 63112329777884293983964632202854489569598676368899518052993353441454477731516;
Dbl 26925143427268610239280598713791236757369391964883051801234640130525155827640;
Add 43986867952270980822006272830467405358944867284391873621529519801378190833188;
Dbl 67508799566138613547727242121156917146933039890987384430600560041037808053584;
Dbl 45101961406433515437089728121974852330790400309816252395610330671555639756484;
Dbl 52539838532742161040767202289892733189783832778802357179135627775531831384074;
Add 16158309884949504406928994357452044599036242278591743603994825495469742073204;
Dbl 30209059196679810910213574328135409668391916571313835695280112640294705513576;
Dbl 31863759532112226758208258864558924121917688473618904800455540982421176081392;
Add 35121673624700465482503481076201125662009645593867848543878645966573869204474;
Dbl 42550259219366909970059179273015690317293876125947150864224581912616987657570;
Add 17550796694007553833772034057179437698417742793357800471855394880579471800585;
Dbl 62661232648521907372028314209309924662647574838817938539197704141365855515249;
Dbl 13427994768085767721271750930048733909637965455684026373500629414347361083316;
Dbl 61676403185681335094455358400125401583263050271672283696161689576624175338153;
Dbl 66771462765187442150469689079389955464191856114937523547611781196486987426039;
Dbl 44613651599300280288804717469783774886613333256325786655119816370713954940456;
Dbl 39812936728747687168990297171587247610872282563969668614210575443510313696687;
Add 13173542394210914916340423180072675295118094845337400447589704173648844720870;
Dbl 18957028598759689882076293722334580073374265443325038472905527311358758039827;
Dbl 32728169183909497462413552914134158120907890899153452688811580846048576983673;
Add 27207860048843888646338607247890874983059216282771509188322003139772039351233;
Dbl 67456596434937025261006270218074153789683797801506770624140280703280370183301;
Add 9607129862535729327709920516589234826652456221558660683098313844227483730873;
Dbl 9070112660455806880353882707336711835735367047056257809679045334372618485279;
Dbl 24095939208831685939879502740017678929820055762099004947344173334048811041506;
Dbl 51839426380349141369784103655711114652048421123470496116817861613403411513302;
Add 66061687697897766743674382716787205340992092925441885539866243269260671578845;
Dbl 57291091119364315478340090978258257828007505091062088816407798820666540090273;
Dbl 27599316086794106743150317160894947723139466395227326491370384829141252289085;
Add 24964906559509554039194247163537070603339203669771600890018076213841996920031;
Dbl 30196794695607620458799824699061851790054145535373530500370101800440723286691;
Dbl 36083904902456952229148251556898143242679843251013449473441260706789173464706;
Dbl 55751029192493799802476779470903189742099304908582703001619944601285286657605;
Dbl 12998598962416411026567004416008121105485902537897902988597330306451999428154;
Add 2376973393756669529347340966469195301426835732167229076011628358187396922441;
Dbl 14168647769563158909785099073807181143253637391303707586636198589453835013918;
Add 33312930124980273309519488063734955012110049477392127275027389235234813829541;
Dbl 19129972141824615442190193192369217714045581270101954340551882879279361846254;
Dbl 53605456563163147153521930461528866923331876071942663107741638845411258849756;
Add 31105134704138527632266083925247455512553095698686331440730803563083072961358;
Dbl 52936302335145637656780254471024033653977743679085444166254303449095226675940;
Dbl 22238318266718485384927224100080830235012242283134598068234714029000937128418;
Add 21644770496743389319158943580959373824592588030578953768147570878785021898001;
Dbl 30445528036672668977669122132056674977784732260529048388837694322651866049941;
Dbl 16681622541116127697646722510718113261797145262274216972369340992327230413551;
Dbl 42308177273154467597756672337677065427272333074621515099501314222157475525569;
Dbl 37256878716559069240362967653067951854461127483718230544840073702100705339796;
Add 59860070749553020174580788530705328298069533306643291438997953019585536208365;
Dbl 60280892512111849222420000368947248805557605193439038683112604248915979893386;
Dbl 15168787512023671629492897010995678688510232074318662665710215440200394721705;
Dbl 12245782261924198727332673632772337424948787393465743293937068580396306642898;
Dbl 31903701237762518396113947564475376058382022631382262165594227916695269754678;
Add 63246608467117474532173634283626076538687745669632356817189032313660036363277;
Dbl 32365160858264219506283842552398891046780287217053506623220147377345226472783;
Add 68599919404290643719752453489453678206693413243162360802082423806845163575450;
Dbl 47771840651157191816369358087100895912517847537435427832767302034554336765890;
Add 46769336074248943570385829726201921174946226250443350624632925925707262131174;
Dbl 31985203903376650720436346991658229689912829389931495935382774806357939365620;
Add 40901128234384648962976787909486906811427051502248477615744042478469583893744;
Dbl 38138432042246275358279297683247502108570562199509578324190421839790271266573;
Dbl 51023707709999303592222474508729392839651860829596977736237660867089540380814;
Add 32714349614623022288367846605252733722724323201238273350535548209872938295142;
Dbl 12827122294063636843307581151136469579210716022539365450551706557017551627594;
Add 22866355485696749741765788850175231638374520439756063065004785710813011729034;
Dbl 5044734937512542481748103906443291797953386259329470765245737248888729544011;
Dbl 45021593785441911624271139976856911979748635065359310230220488556983423091218;
Add 2168605746528033463472895195768307431293238829730250777191949494457287846964;
Dbl 33540161495139465850255341838556869787126553339781462536667090585057442196829;
Add 17344740780596568840159950728203817687372735358755475207035083693668840728279;
Dbl 11163411763672614951315659086408411995891464606006970205392865273197705971160;
Add 42736017451955151185224388626776744173824053039036416566323233381273254140180;
Dbl 41837910864781361335822281123825042922177228907275935560540172026544494367388;
Dbl 48468516959282090634985217526164369207060459279678949957752802516666603461181;
Add 16869365475138412058404238525366706722380711140581643021453928576505396223692;
Dbl 57056673470766403403254710571853467918815890811183349997072332630230108413208;
Add 4149665352546140751722541973361334189660610050395691953023096084308115033213;
Dbl 43212008089001050400731630753340015808841753190053114376482073513200660975585;
Add 46942634856412764278768191210957489675068280254476406598829280766334742666333;
Dbl 17752181327497241608869197675722117994952895269865681799365554805218405871051;
Add 45342453350503457101048068010709734060190506171547458564997692164068237330131;
Dbl 49227185528816339813535974738796100420456585156849826528137967303462851258705;
Add 5802244298690026550147127486135329903691941477943529219793880730553959201962;
Dbl 11659586341483125149492824810086211286974599615594873886885097898975970402220;
Add 64131548956765044815113450354619921499161649272504776124759960842327072896313;
Dbl 20006801520228193860386466927491278305148326516370808208266367431274756869253;
Dbl 61039352985043664369469788178095369242530066462838038033785450277837403595902;
Add 16418520182027199255956988859882402292383898965955952043443945837123428047537;
Dbl 43297335126833497701303932874952646849837550965910099518366316403271764063325;
Add 29202092419226470269566891616868991880667167165109601624875615576956486817423;
Dbl 48613854880555598479487469630158960907481743073069863463860292413739509625507;
Dbl 515947758764175694155276384858806345378449198959740650385696461013021438396;
Add 57127796073128490774104918187465990625266861376034808694469534299582632884488;
Dbl 51574499753826938381670118838411637368575802650123584142190168944067351293972;
Add 22533507757688117833898885746241786959861868472536230632214138706554822375571;
Dbl 53184944751083022265245550864467724364980396462716334107162996723697172504223;
Add 68390268247189013105014580574149783838917862024389731847797960469319748230411;
Dbl 49134717605778772216140263558862866963660288880514937408046879524953663004353;
Dbl 38878414803235861232925500534674700655133565834470343138469749066833455011250;
Add 36140680452653097561705260635151466357026178116544324921663813413289346329622;
Dbl 34130480242171177892454338012028726920068494860280890031637162406362976686371;
Dbl 42943838447913835772937191923594293554592964629005813555100731913563149605774;
Dbl 31411167670144160239444237615869801261947651463559099227365121085013942414597;
Add 51836005387219407770910493987842863012078273584928648992149654581567525936925;
Dbl 23144144664842108090265612090897727440018026615983512599140363499582186532445;
Add 24425772648258964811561831785473222564808360582810798217527074290234309147305;
Dbl 27015967822429923047100417068842110324726721208633682292973135250142787318607;
Add 64219207224352815240866023898686448952837041415400034126504149575002033399663;
Dbl 53113633648353129196026209841562872298134410738893543987237049814227556390634;
Add 51045822560655342606420491181266833493301867448959714197660763314991469016978;
Dbl 47626488358976288885662667925424916308602477492817481585302703433463930075942;
Dbl 55219168315886117274285576606848604207194197487874525831083250811004469329068;
Dbl 57688874960602596067510029651158710682699344387548624272124413453693501328834;
Dbl 32964878657193049308688756747155740295346075733707946007952204211920817301690;
Dbl 58951782925588666024661902981040390485343445050221585422405529584805394578648;
Dbl 7659124696508407060843160650897853385820674064559480585231358741612788721095;
Dbl 42786579349111868387564176895660626648241216666674189460665640742087892250849;
Add 66703381534479269943008269624074475114984064260466390686066051703232949368033;
Dbl 11453037629426567166641478125002181818488550413413112413546904937794902354010;
Dbl 59104115943676818360843462679943718360768797864554179728081585942071044206176;
Add 53070007391998034591999322271001322345825258730509323670766248106032265880477;
Dbl 424342080881122418985671905549502960674067948226575106039631217910713683380;
Add 24232617666060991756451255563762613522610148093095142700286994699824281134868;
Dbl 24409427864847961100960922343373468891043070477658335081810954359607706677773;
Add 43828203725847458147793597156007234526961959448509628267723508442906696228800;
Dbl 48719182591240250368566057768439363749066519867145711335321492546732980512289;
Add 48488910677346974695426991777628001994947285126745276726045280559618862169986;
Dbl 66135866898627018164504102355314906707221826468328413130196421284464094319690;
Dbl 52230260733141765790721790383658757397066507561289891353557638212887532536520;
Dbl 65031589401348023603099405554007925214760835519886589522343866658388044349646;
Add 13817171657055913146304903271034201974080522692344350213874462225464321940088;
Dbl 36727520148495687774830612617056376462450764506077955387011915093343462494826;
Add 69436130182081496023133760823124919900972918939076853747711920929423152850310;
Dbl 60350043447737372363597418108051697527227911900508123031642831672629452486704;
Add 52029649520867147937414049183884669462066772798549445198157061794648998477833;
Dbl 31040581821975520614968826183237123709995544321037824810490695446516671149783;
Dbl 12963226360707752447179564124257365567275129012368363648227082530021394203843;
Add 35615612804770179793208639578859193485519250143683628390834189078347982023537;
Dbl 3656546955403769504167284724016721138080297059529127517800791280578425591671;
Dbl 33209597836414994867036034149075734046121808007841621863201131128247155326308;
Dbl 67957442315589553173131866694689972629211543500886267636673867439753907978971;
Add 52558797247961003680540256020764449067388649052845462582405578088642594970145;
Dbl 16791953573889754712177055657494713549106128768219499523003866045456046616515;
Add 19710543447989220688385431656533507868247812392462257624086753007966167140267;
Dbl 27110251874262036023252415370959958265054434046292173107244291491888828018832;
Dbl 14874717991260376763006346090370872197209714800408923419463263046793648955177;
Dbl 40510613288931336283341832010314976900840689490408757335979419592565065976819;
Add 26970019543815633988858963144275318920683604899049128539852697050340979735810;
Dbl 62861543795411643876605882948929983178179026543237077936663284725882275215376;
Dbl 27216719774861761671688341040179489019185590918825656237086478135941662746076;
Add 11792872985316003343401725853772196937853777687502975028461582793669885899145;
Dbl 48376683062660976995841620744792609534355460002554260276975808634078829643332;
Add 20510118295155806350812281448592429788520330440652924444770426892988247751839;
Dbl 56899605641617629884764451961090494460210252373164615701308049976068514315311;
Dbl 44686639094163136951930943589688946374124854517221699974257947426812108506338;
Dbl 3404015495635852218110735474787567869236519835676282307228054379875758063407;
Add 18667908975479048255306584662967469373391969807827649830937649841918188327056;
Dbl 6043245408224388231841668497435811582870251278237245300952162447141582526553;
Add 47998600070334974298415727302222518542668847421089406894608551586132905454314;
Dbl 15245200789480157171886313059362735380207718715430597873748118346361228291920;
Dbl 55837250877620793663071559778665773183315651735101069775102445945573487277521;
Dbl 47601815488424844010854200747842275428262907072204924239777721994770966695255;
Dbl 64925211747850499986028038449474260608962190566594965097727811669452032368194;
Add 15539043766791186549035857848969333532415897140761162032094020312691225508360;
Dbl 68294284867061351291428175736071176450860872738649295914154118792435672402406;
Dbl 35749596673971927166779903646788761720683638856192954815315114034951299364090;
Dbl 52516563876503300814791880834234103485337986585493943855512407815550859227516;
Add 43838224823302139719242529811315875410847728325060602748635821371970810155379;
Dbl 69442455239481199474390496382445726515182318720174791093154013574326252846190;
Add 21809445121515293134724482501012465956983056283297972080166868925962651002584;
Dbl 52799143389218006709487517774615188811263719993049288726954231374523389472682;
Dbl 11017347827399342685488029002025667400664743470304889505878582748830665266939;
Dbl 40186043842319246276030271139703416269581467379242273128336838951060841812824;
Dbl 57607373265995576405371265056087850573611020534717853620989324202994402382120;
Dbl 65484879273097280296537311530340109249613936293364131873944556410163329345300;
Dbl 36118686250418643488192989196706639134352634602836855499267918403264941597009;
Dbl 13220202095842360176594064818444127070171973689916710287193002211718375143597;
Dbl 36943884924391718561628061203444095426769666854137549307881718386739053261915;
Add 47298298172104900083929176426470530284871575622941625119383406473303790863955;
Dbl 18989870295037280033537243596779249570186470863622192463879453067490282559856;
Dbl 2756668407397543032864038811235702971116737213534736008486858235717555907850;
Add 41475842352136140422594939738204869434572915892225442025191489255778052118349;
Dbl 4528876021619268041858161185679093638566478878951680368366345872041997123989;
Add 24314348290129511181333754900509877688614269357946887302842314869966062540101;
Dbl 9232803777165902297799245909776756827145485860295226266978546347881476290726;
Add 44611222902981633229218153353774635658274314374325830074938145907320098504592;
Dbl 13030537410238019136365469972517469170017673065279824948927285512792984311639;
Dbl 66219240236003941208519350459635537717729568735764680209436821222872839695317;
Add 66442459697618178950648109161814416220164495471550455837161658230600120235121;
Dbl 69554324070408873388068846513844144845277246791724178709774580145763291897146;
Add 63064162663243953914715670102201064238153901247907820870161860461662046197336;
Dbl 34842503117491730265398822149241046499193121306761270217937043874682055451738;
Add 11364347252609040641795223589420841511965608558742214132028353157874416937189;
Dbl 68399069739994087462386538637799456118817965444870009886677752330602059391035;
Dbl 18909254773472360966285626347409275410984863539084394830710436804613878267037;
Dbl 66869400830601315399941299166965455623015602386897448928132286144391298733250]%bigZ.
Lemma curve_checked : check_curve 70390085352083305199547718019018437841079516630045180471284346843705633502619%bigZ 70390085352083305199547718019018437841079516630045180471284346843705633502616%bigZ 0%bigZ 29818893917731240733471273240314769927240550812383695689146495261604565990247%bigZ 32858%bigZ 49635152293801595913006250045122757185201288219744174075316607225249118063103%bigZ 70390085352083305199547718019018437840920882647164081035322601458352298396601 steps 1256893312962830937846138832654409066368124359507531296637715693141703464859%bigZ = true.
Proof. vm_cast_no_check (eq_refl true). Qed.
Lemma p_is_prime : prime 70390085352083305199547718019018437841079516630045180471284346843705633502619.
Proof.
  assert (E : zv 70390085352083305199547718019018437841079516630045180471284346843705633502619%bigZ = 70390085352083305199547718019018437841079516630045180471284346843705633502619) by (vm_cast_no_check (eq_refl 70390085352083305199547718019018437841079516630045180471284346843705633502619)). rewrite <- E.
  apply (prime_by_order _ _ _ _ _ _ _ _ _ curve_checked); rewrite ?E; [reflexivity | reflexivity | exact q_is_prime | reflexivity | reflexivity].
Qed.
Lemma curve_facts : ec_disc 70390085352083305199547718019018437841079516630045180471284346843705633502619 70390085352083305199547718019018437841079516630045180471284346843705633502616 32858 <> mk 70390085352083305199547718019018437841079516630045180471284346843705633502619 0 /\ ec_on 70390085352083305199547718019018437841079516630045180471284346843705633502619 70390085352083305199547718019018437841079516630045180471284346843705633502616 32858 (aff 70390085352083305199547718019018437841079516630045180471284346843705633502619 0 29818893917731240733471273240314769927240550812383695689146495261604565990247) /\ ec_mul 70390085352083305199547718019018437841079516630045180471284346843705633502619 70390085352083305199547718019018437841079516630045180471284346843705633502616 70390085352083305199547718019018437840920882647164081035322601458352298396601 (aff 70390085352083305199547718019018437841079516630045180471284346843705633502619 0 29818893917731240733471273240314769927240550812383695689146495261604565990247) = Inf.
Proof.
  apply (curve_facts_of _ _ _ _ _ _ _ _ _ _ _ _ _ _ curve_checked); [exact p_is_prime | reflexivity | exact q_is_prime | reflexivity | vm_cast_no_check (eq_refl 70390085352083305199547718019018437841079516630045180471284346843705633502619) | vm_cast_no_check (eq_refl 70390085352083305199547718019018437841079516630045180471284346843705633502616) | vm_cast_no_check (eq_refl 32858) | vm_cast_no_check (eq_refl 0) | vm_cast_no_check (eq_refl 29818893917731240733471273240314769927240550812383695689146495261604565990247)].
Qed.
