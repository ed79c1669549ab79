(** Primality of the field characteristic and of the group order: Pocklington certificates.
    Generated; every certificate is re-checked by the kernel. *)
From Coq Require Import ZArith Znumtheory List.
From Verif Require Import Fermat.
Import ListNotations.
Open Scope Z_scope.

Definition q0 (q : Z) : Z * option Z := (q, None).
Definition q1 (q q2 : Z) : Z * option Z := (q, Some q2).

Lemma prime_107590001 : prime 107590001.
Proof. apply (prime_trial (Z.to_nat 10375)); vm_compute; reflexivity. Qed.

Lemma prime_7240687 : prime 7240687.
Proof. apply (prime_trial (Z.to_nat 2693)); vm_compute; reflexivity. Qed.

Lemma prime_96557 : prime 96557.
Proof. apply (prime_trial (Z.to_nat 313)); vm_compute; reflexivity. Qed.

Lemma prime_41201 : prime 41201.
Proof. apply (prime_trial (Z.to_nat 205)); vm_compute; reflexivity. Qed.

Lemma step_255515944373312847190720520512484175977_0 : pock_step 255515944373312847190720520512484175977 107590001
  82381214149343919061612748413412685903.
Proof.
  apply (pock_check_ok _ _ _ 235081362755335172132203715226758066727 75792875216320803940127491159486690489
  [q1 0 0;
   q1 26560629949591867129313623614083112907 14588016343798488105744349162021281911;
   q0 100754751750030980189838687178680441601;
   q0 35522103074006844979073895978570376129;
   q1 41608165605130595093123792064657324553 80537950389349394455344352151413631773;
   q1 6809968305792961851955094775083498 65842657983135183990934380024220690903;
   q0 140540578919152639316976227514658003888;
   q1 28393497428363837214111058004514404771 41908571815388079912028976604318369137;
   q0 9921419435254725601714881466581663118;
   q0 133134881750633969531530688455386362447;
   q1 4810617787466425397061342186792782880 15564774004934206555755365156582466015;
   q1 225513207215377949185772356004770322058 61054346636186499979473656294412555152;
   q0 4883077706193896611998269641072979595;
   q1 69679328967035922691846177518186138863 38905969285597485710165328727588569520;
   q1 8013008562240782086081092013199767173 33977129072571692203441320901874751902;
   q0 238086770611862008564781841151218182897;
   q0 111595437256845653088119070648481433666;
   q0 82543280152026000411397678957113428824;
   q1 174045732162356058965613063324797311218 45503402444175065660063468101146714475;
   q0 14909010948663275725372838898617799863;
   q1 271186093039995582138433893560482495 70227395392515263902865613431719522422;
   q1 41911449364004560390410040183991646777 67469840179221425891771427073254021651;
   q1 152426572439811433260874062440668520619 23654790755945044600538728135138976870;
   q0 53348218091416717160235109576702709355;
   q0 478329960598611666472087413599793939;
   q0 16258021448396018690041292386706558269;
   q1 214945093282672957654228836113639749550 65918052447474411690430676359927318636]).
  - exact prime_107590001.
  - vm_compute; reflexivity.
Qed.

Lemma step_255515944373312847190720520512484175977_1 : pock_step 255515944373312847190720520512484175977 7240687
  111233916942653821000329437866037388564.
Proof.
  apply (pock_check_ok _ _ _ 175544394104025381149509263364095140941 76419851612027529596436277344255632966
  [q1 0 0;
   q1 48423531098036224728971462366290159183 39862263355643726668326195904237143498;
   q0 22189510867143576798549735079043935049;
   q1 238547273841644208883781711967561769054 31019486867572718750054055044843697473;
   q1 158748080219791261698059836396458812 10869817923285687327907999266125078719;
   q1 255357517739418520242471147533974722971 94200583745747560880179934950897812868;
   q0 51230859232031758388663819033831961980;
   q0 2659428628419218197509053614575927891;
   q1 155113413484627226320790454244723656573 105722879628385607894905159276718968782;
   q1 93129362838906332487902785435196331428 9527983807622304360022317986510395890;
   q1 53403774397084995305984780502198659918 72630914499172801964788725331454221141;
   q1 268939256285859016621429469791065965 44848250181144731269043060674580128897;
   q0 94232560772085677809655444009123326277;
   q1 139644886154244002679632790006265987208 83218922028302624044511841887842850719;
   q1 156503265430282760120717718293135128910 66712959838928019634983972549856874861;
   q1 32984206701573382131835365655339304842 45224252656187859078097069463893518738;
   q1 135096386514715705294133627240300207476 42353470296163526127453764561403909863;
   q1 967007765463807133079478181745301156 38592844847698556566353807109165915297;
   q0 56329447317644258174491905851399919504;
   q1 159867856946689008566797351516898052027 88574221355721610823574120048168985402;
   q1 49697010917653410216039227455444826116 78146222030043465115986573016608167252;
   q1 16017374802074015625792324645309797693 14185677089746390774636156262567982233;
   q1 49480501687764738159717716228970107933 70069512515292719422159611552628870327]).
  - exact prime_7240687.
  - vm_compute; reflexivity.
Qed.

Lemma step_255515944373312847190720520512484175977_2 : pock_step 255515944373312847190720520512484175977 96557
  47418180093458530687350227428022525796.
Proof.
  apply (pock_check_ok _ _ _ 52333299885033245219942804006191421971 9711917762783113719871713016506270872
  [q1 0 0;
   q0 8799778850945584720834122568972933384;
   q1 200030063922900700251043135330701576056 35848103455239141244122328060868937153;
   q1 48998722116595960316754796821409838953 31196087296941265815387768785606024139;
   q1 184176188825162925133792746383946338753 6467323244126184528933784390557301101;
   q1 4461224180923505756054650532166996918 20448998771906876085041883393130085139;
   q0 101366209009788756351153499487738878661;
   q0 22697690169800891775223147860891336932;
   q1 8485851456113684945958823565161792136 37268361327617192561916520347716984623;
   q0 189101916454663840868517061170717037847;
   q0 213780883950335159677606523971750896614;
   q1 30967451124041103352808150686852618962 31600872615058403861091435211797028581;
   q0 7879174211176693672276177478038951205;
   q1 103237555708146545296847528750329861371 39368860505435842303990644029181008787;
   q1 16566281505222719911298930732883996755 20370150166559426532819314817730538285;
   q0 176173039626614086002339873235857627551;
   q1 250210208108572972047675677941142071 43871495955954127194447394286129823163]).
  - exact prime_96557.
  - vm_compute; reflexivity.
Qed.

Lemma step_255515944373312847190720520512484175977_3 : pock_step 255515944373312847190720520512484175977 41201
  59616289389101383442534369920580220360.
Proof.
  apply (pock_check_ok _ _ _ 142641450335848735580782997685613032775 33280717580891826875288249756448558512
  [q1 0 0;
   q0 13909511475857189054846323389897029854;
   q1 37774896891535801821085313191274787738 19762680779563679952428064060942050299;
   q0 63605119623287810677146225965023547700;
   q0 112521975189859896872000504982610594827;
   q0 245222882169151001547751093308691842540;
   q0 16497825520787680739688916093798432073;
   q0 40458662873196752225784565775197851354;
   q1 71825069380289205730953543425605337958 37351382389751369382621591892640325081;
   q1 224741801585030935943819917821252735806 58029274162559757728953223307704706373;
   q1 6729627134558048738153109477702691923 56515764641326970108015219659307511260;
   q1 101314008084818224608919880543054800460 50479977166380342488659999138470445093;
   q0 207859297680780777053314157645140706434;
   q0 229261037319736480381703684238386687805;
   q0 88357208905759341120414442180357377944;
   q1 21483730868406257788817190907200882520 54104830554385064451637500731600104807]).
  - exact prime_41201.
  - vm_compute; reflexivity.
Qed.

Lemma prime_255515944373312847190720520512484175977 : prime 255515944373312847190720520512484175977.
Proof.
  eapply (pocklington 255515944373312847190720520512484175977).
  - reflexivity.
  - eapply Forall_cons; [exact (step_255515944373312847190720520512484175977_0 : pock_step _ (fst (107590001, _)) (snd (107590001, _)))|]. eapply Forall_cons; [exact (step_255515944373312847190720520512484175977_1 : pock_step _ (fst (7240687, _)) (snd (7240687, _)))|]. eapply Forall_cons; [exact (step_255515944373312847190720520512484175977_2 : pock_step _ (fst (96557, _)) (snd (96557, _)))|]. eapply Forall_cons; [exact (step_255515944373312847190720520512484175977_3 : pock_step _ (fst (41201, _)) (snd (41201, _)))|]. apply Forall_nil.
  - cbn [map fst]. repeat constructor; cbn [In]; intuition discriminate.
  - reflexivity.
Qed.

Lemma step_205115282021455665897114700593932402728804164701536103180137503955397371_0 : pock_step 205115282021455665897114700593932402728804164701536103180137503955397371 255515944373312847190720520512484175977
  53072002638256206696760401718638995221936714922431175139555783581918754.
Proof.
  apply (pock_check_ok _ _ _ 81475874003799270243122483189086420723726815346591292526890606927317739 21081256147611433302736580915228063873871010806801427666805511047392446
  [q1 0 0;
   q1 13731972753451130689084485546961816963797067528361416817920574129386461 20873506084122833257277112375718626990343018797577645894463894891965700;
   q0 102700093476998505366523343555175703866106011377460119188076612620508966;
   q0 34410114242241173029478093430055333341740048939440107274578635944033272;
   q0 66113327932814606852753357903589934267059654541176262497073033772765875;
   q0 36658111321394129162618242482485363383190656708454801178965226851840660;
   q0 100565638058485406430073683228832857136571269329109300830048395122169976;
   q0 9890212190041092855239777434091228801505155414763588175983316544653948;
   q0 120938332983430051733939837133696578038868001406095646888584715469213154;
   q0 68946197095440121275790246479682934813809560737672454452751559941291110;
   q1 43651674789990128146018079283862418015719074341789095408099560255470757 2553695513968053233258717182199852015351266345660511126081142562310613;
   q1 29965496237481322014672146795328020511047555729706658480845706830138103 20191566321948304662747132146497258085963212003857823880260126724910166;
   q1 52530790005205149311961299495192105741228681278505011474496285757487785 47639790850787162715530251539811492215507679524645293978079323231470201;
   q0 7701013427677756812291131774399503648174356013343289498070731250621851;
   q1 97783519998704097673573625314064472155775188709904855443745564472424810 16173543911540654041953510490394623720331292314368490312576107015906419;
   q0 17537074503217114642982819660360834024927174850636745995250202903527035;
   q1 40771797233209779959724381829812950310965981316565442255112186526241423 37963573326914065399325452249852735865343144520781139376776229077758726;
   q0 151977823543756918751158612854380879668425188851260636308152277242607420;
   q0 46202565141756985146644336383882327164707489565907579647080143314256953;
   q1 4304324185569714498245969740913069124612501646330000197578669774266858 34468173157175843768700407701469350326878911366892587253822425465544468;
   q0 158845032713105370344780451061414041568820322667562312104079283889927668;
   q1 35735799252227019970479944586621599358267047892027981167193685979513476 9278176463993310130462745437992607095600706082342747206406718452863210;
   q0 20422399379053424661460247563448710465240469187371474012319857778021855;
   q0 435891603328038696103539955497146049319557226522246625955840155396;
   q1 22822192114579895576461737609626326447854079259436194499271060007562589 19817552922765294831741733484239411477716369893144888362996981345583415;
   q0 5164335208757897096609360642440575450627320198613850835791675841268139;
   q1 2267938430949885822248776430003246409046323001368802132730528547944443 15159596465846550173720101243097586095244517264607308807535927157870581;
   q1 195598620469330115797919040631139716654528019663993015042180840074166276 37151470880242583033532235131285379658499337255046217033072030731605187;
   q0 2123666334623542452718989442977220959412366034371533852411613858831624;
   q0 1566604836019924747649491598619203958314777488889109740306722973809477;
   q1 26310577308467785611504569515347799034042543291861122970878528310144899 37519693545116655547629584868661179946397248840992375456263262628329801;
   q0 120865268203942787599748022005780369975699784353432352536309175340751182;
   q1 28076638536881784697558557540367842703223679372918777432822607080619717 43857282018563927561849418358468115940448603029976472466793964518276921;
   q1 125952508575237720231349911806461541738259595215576109068110599154612270 42674440714082151083986650820324131159221705234137860114859956001716979;
   q0 64949229451740853203864394702998145054122741083442374773745279341278686;
   q1 183631325670984659439984645320728159473314766687687226519147737239712321 21016376278471240009806449588407463477475917038359132850646997930048474;
   q0 20037577640174819244062239023803146069498507775485422009957932589568475;
   q0 96930340315797928694002915676213215576721225899996290651873094732500741;
   q1 83341176303846212331683925564962201534653763541799881160457016166305167 21200079124123268231579219742496679526553379268297697508100995457022214;
   q1 55110584781449041322809599978874288648602857354731026095212853677222453 20248564380845452768256580241308456285942501488075602011376209326933677;
   q1 41131920822012897147272265467956232994151799138578800230036291634461445 44448355130830642660142459846656275055974250177390230892705811514779870;
   q1 142813657526681450206957547073199972709940044025962235409098853630501596 15459639047237218030154718236479930114461708533870691192764900527029059;
   q1 71715681108023020929416071124087904590470240747647787444101288798947792 9534709457724757276774515628380451037357703447740025492759538325802088;
   q0 161232291384467682452156407987873767807599809210966811765162400180494895;
   q0 37878077736054499160401313885532457167966319211649383221903671493518069;
   q1 23761246437371768555541114564277026092150705359194315416706163250668476 28669752954669462974278150622332001653414818422744423884942413452054910;
   q1 36782996511991203937274706985028253543150009935578379011995793549019510 46703600855917825003158277151588954711054135072345339397862660287949957;
   q0 75547780817864833764370997569925615525504513297997224509684369328887296;
   q0 1605372554794647914750371544097737213546638846210501006048075088076;
   q1 57516790367814580648324554436293206019448810440986028483262014231607326 1967222219416377732033331359572433126597227872529210005744604025807859;
   q0 21864880073351706163494293951327398221019521492950503037818569259206955;
   q0 52809230366474482850914145001704489158871028898777534617430712344722899;
   q0 5151983845125843388971619771268874992164161795334759892315987645276812;
   q1 1080526938321250697497287372591189484903970122771363052003156513131301 17391045324607140150144150874297364592663323251749603767227334135471747;
   q0 24382669979961074016865527872344096208438162406817509374332061874954075;
   q0 189132006210019078614051280322919438248280856883959665182620544717736299;
   q0 878410216243411999485153741617670444792635586017401226123327757528355;
   q0 79424161426991794677868074137691512131065993019583322790217195738822829;
   q0 15105161854996035837738573373819513305898384249189124233499319774546457;
   q1 129579843949899953708401428820318883700343238795022672185996926772409949 670971653370781002109166091130461915899417894896906993441515861582330;
   q1 3491871782073378715845213735743387396884009056198638172813788620746157 27782676948798778875657785573436477808010933882550718653719607989486191;
   q0 83372266514066345704564999367801571916360399909457921840877950239492686;
   q0 106587572103660012008420656338579901474180550759426143441683435231627357;
   q1 85612835373484447308473415195601593040610189296233968707792174582490386 33579831703185421425042827856755833535462665925368330510819059927566285;
   q1 126010089707086647897895647699446972893615259018763201424563171257158797 47886594747287494001385066187603606368807324697339789225790555481982993;
   q0 32318011782759007924702799298816676465210041367818802243626990069358268;
   q1 154118154151152469209553449130626575203020606656744825052161211643107957 6783033794850201480657689202017224606229108240028350126431799883432439;
   q0 57839493467735109883253827972554809700312639862167227649236347375126174;
   q0 229170923601019238695355269221618256686686826187450196496020032339631;
   q0 34562799503491148857199760509657166640359156457433060817216321391004459;
   q0 3203195685079576212351958246263155228214355386636965295880873992215586;
   q0 24839797419733401943494951850768444232772775423488533050945988496770847;
   q0 87790085802191614465461100470160147588243282630436798832785783763592662;
   q1 193559643090281455019682527100958650789460452786097998791897856201289964 10353539987911547147694359557636839649606409558708696402013716990035829;
   q0 125857456564141127493520322749965227160100545487546906578405476298838810;
   q1 16560480431056950747884406987417814890961510040478618195529799591057054 43751547676996549727052312685853529220575056864451290997308186308156370;
   q1 84553614188360081803702746725361338997968895977684534295519066815685217 40567894030761111441301087319498984978624419576212620430344920534923546;
   q1 48410752825215788400599181699256407728255885455558366968835182895347476 35243343096077005662366753277124246762738507648785144114766516632177663;
   q0 71739978578849649772920016973050236504825659012392263903624722431198244;
   q0 115204655745149837901372157429020837527794530112585649954043439279780689;
   q1 33725693993893883222281268137532559809652132969028851808706000622798620 32439444910485693507854482298574233649057513020275510676425265996497549;
   q1 2965187789640716478248762707881289686088915247673015832570410174926493 28718740713899079202973901722781385156029353376938845194436911844070294;
   q0 4230130085601377267410077228925425950558417620603427315735997677044084;
   q1 83070826899186749264304890147689762583659927449182245919811808668267043 17004094900284251055767406982268367534148691740304037623872770880741503;
   q1 51661334970446564442655533848370103137266066914179362208599673683585527 8185485131721759944882169851770212160521951996124081686531309331285084;
   q0 91288689892780031859141372730647368343170495622530785844216273973170996;
   q0 80651146383228695427977590515958500892442912753691298427361813554472741;
   q0 168745688570283447807346350846070161303148853345795307550395875881417893;
   q1 1951015012058276568110248849839320082043338282342604366535165827276712 18870137571643321956820736181166400255848012878870192057760162698111347;
   q1 13927966540233016760311223610433126663658682823559100936699178792675085 6803847248490291802186249753388117248631973612260737140747782284415723;
   q0 175423457210860789658370372385146839260125302034669453948320198014998480;
   q0 191242786861785401857352304444014219688610967124621505531554383348995762;
   q1 27677975697563983898908275189942724897271682242825263888294036438888730 22077389293311751429332591451952308692761595809034823878888882662861625;
   q1 127003959419308708499457491877775151873884360111734766427843521500562246 19092474744061055525232009675336051928131811920853450249662406602816047;
   q0 162547265181819358271968504120153432651241169873499491692605033810871;
   q0 2742117099147697005141637866838739091649495532016540426994215125862431;
   q1 122102796300563640142487240367517877813830953465827933745428049188450191 2454174380291079236046859558747390112840592346810124393478399949707066;
   q0 419681831321501553892768368144525091736646368154868367360239991239514;
   q1 189172226840317660917612928200166059490854955470673736809381270054715611 6381323101277550848245823035988315816800396475654800461896227112521444;
   q1 65698178296150379970105977808158390410405419021356088579048634857926250 41965686705364830905074872016206895945371981172874796811552477063720354;
   q1 74488267546281196678837544127927688647787098071103183715088508551393339 27577917972777017063823787585935721893467435860435993267819486773229101;
   q1 191566911951572483453712772801220125248706976127198393324691647794342430 45423934383677326148632034304606294618639798482098191280151729428416731;
   q1 8053871972825585510703856400475571356053319027010870577735544760981580 33720940917332235718320255533701296731017092748488375655783026853075718;
   q1 136845592379135703677989307675844099434335248394073284405311308496704902 52504145798378340113032109550403010643215775791784097207442684677168048;
   q1 143852790425558148924582186922145118358718014014534349868607816759368558 14455406049589009726321438298027335575854870632607436062360568749140420;
   q0 80789809232102211867659725015776748710255450768846334376574706655956766;
   q0 4451942022547861502241702609107282974013663102372353145095024040544873;
   q1 88230725624594106167854117890616686866714164758439086310763747324954135 40923795622778300243852066449911282274703986379231401524351836884144730;
   q1 1171068316208058505013530660803025049650004099851762084278946554372232 14143221307330354497628565968596020644527472158703110981467572765946362;
   q0 14583866041256901940192789019202032808905085102447944083433011970518213;
   q0 32426192512355099553336518091318820369440392568877294500142178105039721;
   q0 56202776363178619495653684207174502834810968275859541951500920805818496;
   q0 146396922553518467336236603112535603114765493830322992000819326327728411;
   q1 29132197585723527259006677661552624600290119143647249382324354603477819 45836683400287219596652114071149567202396139888024447335025381484903022;
   q1 184434917185882798990715271744467338569898429278916529428204366424860511 24310487586313805885742202290255005014424291736176345892640192106721727;
   q1 55867197327821926241286142708092849796967559850594431600996671783260619 18409737665718266500605835433625905439805515836683314569440095918284438;
   q0 96410357394151759971002274759179740086604338499355993502483920815520783;
   q0 57287181770478394562124311221718413781496954688901986473054552267155206;
   q0 159761888001208498873573299296090368504557720404855822105851370955790909;
   q0 42075562422642316843873253582186837264902486041898181830205393974034032;
   q0 1052719275053485764921975887111709791428604596936214757851772605702452;
   q1 75199332278059545959312464957594200229760729543393577960859758596539287 37681005147125960637249741250261576081247013672023659564603020364383165;
   q1 178210738551029256408239261206614341286635592314309407846035101570084808 51698999631779360054478117296070799386090584030194535233207954510611223;
   q0 13854623732802483172982486274789874961654812378840155540396750466179105;
   q1 46802936211020371262870633386836892416089808257557969215269068222655244 46968462276780361439531699811742170957450467269329482897174325184824213;
   q0 27129610175389827306414636173725409537296261842209172603014847834984499;
   q0 130665362354230236321271910263673504391725256660341319903789259723185372;
   q1 15967383744579554511577980441230891143974186971253352003847669958348926 22142416099290885312806694627091670971572972420609257867582938826804849]).
  - exact prime_255515944373312847190720520512484175977.
  - vm_compute; reflexivity.
Qed.

Lemma prime_205115282021455665897114700593932402728804164701536103180137503955397371 : prime 205115282021455665897114700593932402728804164701536103180137503955397371.
Proof.
  eapply (pocklington 205115282021455665897114700593932402728804164701536103180137503955397371).
  - reflexivity.
  - eapply Forall_cons; [exact (step_205115282021455665897114700593932402728804164701536103180137503955397371_0 : pock_step _ (fst (255515944373312847190720520512484175977, _)) (snd (255515944373312847190720520512484175977, _)))|]. apply Forall_nil.
  - cbn [map fst]. repeat constructor; cbn [In]; intuition discriminate.
  - reflexivity.
Qed.

Lemma step_field_p_0 : pock_step 115792089237316195423570985008687907853269984665640564039457584007908834671663 205115282021455665897114700593932402728804164701536103180137503955397371
  30133174243114333125352536507925183895021889065932097717961225114769139489296.
Proof.
  apply (pock_check_ok _ _ _ 38738227534097492269493948901333532538630784921480042032654553727346127695815 10081049300025779439656074993348321903608605725784878135637996734732791756248
  [q1 0 0;
   q1 7841711777951634142064008088551599073255233415134991689000679851486787541343 21819719875756551383037492277902399398198111485876501556029786847103327994274;
   q1 13737836099141238214269907860712961179658210510395124754943880903106252189833 14726439741115832411815197920644040192649659026776223638273068581991000999717;
   q0 13915143885842266495388834971367068752041102092412430747752838956715740054796;
   q1 68921080700778106825985166983016345413235989130475654432195592781756880040273 3686768140410391352243673071528200156640142783964815710639343556023374749182;
   q1 6891396220693271031883975146702347799579778970735969111077326983056389404 16301448454391888695220970072727499244222378606944441162134483149600715579237;
   q0 22325034787460661125588807994191842193180935728550809546939240675427576534295;
   q1 6177090186893982286686080978878490434279182090355677900283390447875379174655 28241032682044811093045018377040161883437839792287645376443960114322235775588;
   q1 100298159929694150961565628986199889418952506531971046253099502204478626391414 16252827867970979136858163059994088746069089629231657209731806480710630277528;
   q1 37119132362219096969580283302117222645802551142541416816498865532072264870418 28879890320970412317573302443606168319093901508717857565244767679396402715000;
   q0 10048076332343091487234362631703639574880481320870177247102209954752678864087;
   q0 44926167884541215890146432325255114308267667193063519865982200909373712677;
   q0 35215725929666229778524899852126877139546789423750563916940959213709471304098;
   q0 15501660043442765523599423775608718797182740590089370750833886745401017516173;
   q0 90666269085229773725458133353282810562993023680875111210521693160025562043457;
   q1 18419919106314219699784128389764586791432743713272199945282782913867493032375 19677945189636047183199865352623383740982375736663714664037401524573363080869;
   q0 3866994769534233372638670555239321945185260600619173823237181994646039924754;
   q0 45518848096716307495631950944202459063438652797476545758809969390392679569996;
   q1 16348780917989821589043700425045390526483778021645956393844182404619874796336 26492762127794216331894454240515835295367208784545083711218232867916793424833;
   q1 80795243509871488897865644746889750594624356972791993986723682522739945009588 26789609935462169904410128101464332175911849721782955517880761051435697907002;
   q0 29867853181755403817464863900141199534338941640996393112395039116616818171737;
   q0 100649564720526592085762791808297192191982600662260090463024755985070272193000;
   q0 9028225851913323898172062919452285441278239636438784997851656628630278143551;
   q0 71277267924324654076503884740629148849850058716496251561798377746156798697058;
   q0 50738799251057472765091736385550986305785995215559556300169475095421209977953;
   q1 1653827915635107757818828701126047862370982559609912760815926369710216543981 1760361121506237309283613963583592565778183533348196109402425240238307215104;
   q1 95658324393052626093260093112814897468167636336949406329298108112572892621417 24546901754625908794720355867269495661673865046446174742126825102640194658293;
   q1 8730547668659335990142583142462640227714399296283293104548918857807041035393 19979098462785589587333268981617907980994620739297545046261414047455956219300;
   q0 41384529105168484348013401648645059705043374150952470573682153740362733932070;
   q0 19799864368335421971006688218246380235578070453036209199023674975036290245538;
   q1 80563368498631812854929709123693816804465556663206974160288439315551552243949 28421169904033830398974405469690730850393904929353191094970612150321656347914;
   q0 25647359317016044130809090882322751019289058726196302759924095561225472365146;
   q1 19019557149692484551550510318327591381919707333086138990383629974674163853497 21507052141496626995250749570125728993038146238857966946679321097705113936489;
   q1 772027260679417380006769445395578148998138757212810505095751052445057571694 62022623738452166896067620380740998862886141054397042759975155846320964142;
   q1 67611093093251649602526392208256838281801167270023785880794615475487929116959 20530799774250118241714748943782963362460011150956346196433185658831106242577;
   q1 96359897033778402997091505401307530784796878721384624288806147846476271330568 23134480060381275943078028360286961224756795013412038511309475386101292357195;
   q0 4701191675299176271190907880878366532093928146850634616734852453465842982590;
   q0 152178922998833553339332654933557414879456148702018369409257739834753892501;
   q0 27811681992925147730919104564493799640231196085743033110127935692289235160236;
   q1 25284137054984044646462776804435608908031241552876057181831874984848974948262 8660893199759701276956888789588438474372963860337438057897282674212784124224;
   q1 81965724620069904433793332346585589302004303406374126891902496213220310020762 6205631502571333426102100363064898664034850931382330264106595288833075565597;
   q1 71827489975266976603699464962787033793637491033669502895320956230947562135633 27894900493668862825073813315692277409127304097420396567190476593459586303722;
   q0 88079002551293285753069894726985115103200081366231686804995880614469761926762;
   q1 1033939905538272879854338203297574751955189222382087130543164399078295800964 16628460109739895830056522143266286261242203902203052435542108823637555981556;
   q1 21768847397710403642058977410767026103287663420297412149647917360063342017936 22658467028634741437797380883352692778579753945067775754151473885440984084364;
   q0 1016973094139267852435672571839339961561826221853302982046819636645568272863;
   q1 16842831767204434854926668509916534839931972511347539909106874855637307617995 22960995488204542116331853446630900562988383019457058681065026586787577252432;
   q0 37362598693165573291869026071631536530303593006515462080559610136184194689409;
   q0 60058677792993503762055098457257627804107390444520644234003975289890487263768;
   q0 4771125299454890810998336670822532030328944227418673257038916454857074918529;
   q1 54557331710299531233937404496311632466639449853746414760881907064774503794261 2953015876010878650081319277331697845070924809785111774764885270774771610497;
   q1 109631233010132789647125497706084346009438859038410621510222155915693292467497 5484724645194745269111248886278488891236964432264657460840401056812300853528;
   q0 115324183828238568390614733403203866322411144482639915416957931059591132093421;
   q0 85322453440620364922036522200772375148037877727903382415333431580400462713527;
   q0 53652952627598895897405732092606303759012715637317612756758128222001599167924;
   q0 44816820765708020181735010021762923237865155765661513315772313336291159662343;
   q0 16426045650822900563393761039301891448745640613221587845660574429231748088576;
   q1 42449307769939877718700172880209386384043486577885707850221266163990319147805 13440632349110434120622750951306080759529718653985977583325532081370669216396;
   q0 296928906217241713287424010229799805633359930859418615989536282029489794628;
   q1 37319409677094666328576663143725437888646741968850240149711838080414583725641 10879651220551139153518754605875763358447845660917820014788928633988637937074;
   q0 57277738041490635305960609521996683020905135203413982249975127121866343928922;
   q0 18755329913215635048391715565832082012068728448406980292861481533209765733826;
   q1 22283514654501107536291153922827146818549979794653999077562998048286945132570 18103557023762722289223092397039880839431591518981453765273556929389076688143;
   q0 45889082587069284976588212280888275014323327420366015317664551347504335130100;
   q0 47190641108705439649863284566960579747281597433562979299573882379160521890;
   q0 18265280016155671910075090068934833535919252052330140773908243985437838067;
   q1 56183051431733745918739588288426538432314728800880309759017549235908403861981 28966428583487400935105950488991928814681014469623495097963963099284106669553;
   q1 41976955203308635370963835271059905515965941573718868763980317017416253329397 25345513505485900868932650404536263777049925462154750297262273751938921098191;
   q0 568417420192833069643984037633574133833268112618474294128360371609152799406;
   q1 1940275362694136328999093987968391771733946733815334537026233622070678777173 8098284805740272186458990141849911111514129512033316372641301478391860304108;
   q0 85563184866823273035737058774992407590650255080483571335565382022177806783068;
   q1 69179023672087861191409566142305752573350853961113177521828738977070754209854 11804876747346678237196950995563363123820736066014681504499877506933430476275;
   q0 13474113580393145364713623462162677379717207245563137920461784871514681615213;
   q0 52580227641700950643689204379089130422829915773510858803388519373715526361443;
   q0 11988826049579885864222854743155866343912250638456612684467139814529656354256;
   q0 33970294679156871896586297637567083811495133150697595787564811284181767967485;
   q0 80088977422214771197525964182984130563000265938258071355512327277838896551440;
   q0 96961591651449913264662199975237333976021876871557301574660222144424690935489;
   q0 15318098443572072158162833631941312108044032111481071637955266704343248156629;
   q0 568613025632758384116258540888894464619465661118656993877689262553856876508;
   q0 34163918605186279807777359261222354050518578186532103931612731203789739613206;
   q1 2567614171229721092865209295256186585259066104001428641488458640894690863327 28763687176448464622388208247982880224037691730825640970961193245940027849609;
   q0 111779422327034014071870695117063232180806088279524071739604193372133518025480;
   q0 94436357091906187025851747585312819314220935922248037069533559324251006555555;
   q0 2154314971573541503560456934736538789467524606904641940655092389341818904486;
   q1 655793444863219197896032761958835338797502123587824318871380993365498091276 14105970858617180688419274191547721370970947630305568436403349050008101677702;
   q0 65762245528712084770205577121123895219522102025731424675103073940306223331233;
   q0 23394386978815691146845267829379993745862060338091530451020769343302005897909;
   q0 10197725685166000306536484983426580695285010540179821004862136227927431919020;
   q1 8203686891074207767247745958735985785307184828067427504965090330500477935046 775704816206965249344968272061373660021089902128377785004971295461409313445;
   q1 548949497348636696661898019069008986704160267984982377110410098859532586328 27032857541374497745831236641513923239402606755017620711889300570068940158686;
   q1 103616383660913745107587947921022322572854582327564197156892320229276682383703 24565384619464647361986379523859722520968674739778155042391519901217897230650;
   q1 11589267977328171747352045354960236208341602688551040050919473307741976418830 4715465988825816454212416317859725483026246493454046477272395653657632904508;
   q1 56061083350356273588763843247963512641438476058928707898234624446202211648677 22215111030653020096451083701057656459433931847416072241819638490943844805179;
   q1 91532577655438970182397899995407865603217155256100385140633570052105527753650 5195276820321156450032411037785884153832320529270439654784791907438940277132;
   q0 73546822319201808514893761735096609207175355508725526102537708201118851694523;
   q0 102474443358848989289189858756327261350485827935834289844459622712766465430818;
   q1 38608636915638537520087919793672414664504990315652793512572307568638385560249 18971187084226055642056960698966465955452155355408834968415620396280698379152;
   q1 74347183900141369138706666619565992852306692747241917468950363693478178146888 41366430771039304169127293882469839588491827906424901093621862805584498397;
   q0 3593001699857988498595590108157946117525188687948321862246234499053919295244;
   q0 12521030669892843513118287725318484717630388976394782696925314920161969574945;
   q1 35106039948232077726976935931904597834772381624414466783991194762799975163675 10403127151024322236470781102772066363340573176189924623534007229029295774162;
   q1 96670535335302816057156494084246453889207864129831761967666461059417610856 12305044082527799636155529094638809596277042947359006359663616554730060880872;
   q1 76872088664935138019629642358934718208807683329366729082298496925501219010980 27686526471927205846738164719783937875478999445796570099308584826417566477014;
   q1 1885836646953865013665245614594344314582907508407858118147292608780791828251 18182823250558100785463128250509611726830281737600847261256480040358141086533;
   q0 2757147055488898338143682127059599139194508583000981685644789538073096422005;
   q1 28636603466392087497784179340842796893030158607633315698806893496764750799966 13599731724898142634938037983685583597272270993171846544110985580915645617974;
   q1 3687195430889496677980889331766957173094444054775117312928313668529342318253 19152006646568410753544251486201355580924473123987376922532892620410302757320;
   q0 6665577310127239396004133358866645006373619301323745406977525273903021780467;
   q1 106146401968646305830281412174621703480645419505090674595549802905909281799995 22754815676445958615759191302695022367448198542405941579592539695278493094059;
   q0 2773679938623355526357230645789138336997010736821633105329446362590496030876;
   q1 44191602089624273328291218512330681349848406203698210003240149669154681614272 13196630401927197107050817900182492240133483937652921450971957809140578674266;
   q0 24234686201910558742699453908059234688241718118344053825380440246209069912070;
   q0 1647860532960009726174555088981966159994901695138950986920638101931155674040;
   q0 139884059294694901829572421011887661728418743884610896375201011331996665644;
   q1 12514272244205263398224003057807112642535167716301084031455238800208623506102 16479037294193847027666666830410480177035867259700911139439517890443857851729;
   q1 9006411990544212560000788507830975591488120959228755936610077933333608442002 7851795788811879965773257550230938119528199931274130667403865883476048019444;
   q1 83269237482417300741223879694348997906031732303093426795916966208061844682006 26411925444660617247713017430242587268979770974061970286470267853000900515707;
   q0 20868868657487423853403384334429035533634628931073652129712613327243430808503;
   q1 544238718213289847902523439993737216111420639493519077494966469359726940030 11373534511141301299717708231439034250261579859796070587412793663274148154999;
   q0 1212006836549322965056117049161297502032936937477071066839488105081016067;
   q0 61542665774690871081019493135687171807052349517082402005547526284093709021421;
   q1 10529583418955758025700608460807173417974318430991837494521010700027421960982 23487818817189644583035848216342571578642493699624206201445583175352629664666;
   q0 25434231027957510411040236734180885146478591198363829821890060039273253168917;
   q1 14087336559826622562399790115119389083489869989171694757706286065212278118184 15954889532719393331021642059797381114648545403243797862823156093213142866250;
   q1 11894931960059216068506322347335105701500388905622870755571364452093401810252 29098181061980071269772865349009439313379082853050542813455627194499566148454;
   q0 82216419476220754695221783613059588085392743820877530442299434682865775494662;
   q0 41575234967684420066560200557203934141945604492002018255979813567734625473124;
   q1 26774993146272926269564387435156077508710458951068311438374214573071842349819 7629496237762805627383563749542763796254004560549712913433763071272791814507;
   q0 108328914473620002494725546163169048118326397322296412260257858208540935855659;
   q0 4247422255544920932820700369232498651855870635695518829098170860720498139173;
   q1 79253764858194936502247340322563768175037759091627104058001083748991044347227 7645431833324488511343679397238164182439261944621667221326101988529663821527;
   q1 42266205685510087691364526127172060664309757159651733923344706244314663673685 1994550963110333035460499785587064420003521646623507025262792936461151827772;
   q0 623477858907478786262236664603016513969192369984378463980637790007883920333;
   q1 108477284792968634968842966805991851535460277261436536510162587957927702594127 24960542385890732681666678105125290675055222071225091098007585924668584273714;
   q1 88216632859144578744469992270210103526371946624345684448376494349689867920484 21216845139387879397310977961878184324372846401368841312559532802402047547507;
   q0 15614206392390448468058810069138174303671541858007869723915280637019102090083;
   q1 10343202189863045746730722340091684805058277167782667845641001556605590476224 11276804666167402112567321440653742397141665117981785586585493150436237106767;
   q1 41292929179787192874830502799296861993314033721751288867841632739222314678 19847850095049208291503563707986318008139477517274780065910170781077870853105;
   q0 64787557950941204855188387598121729416852703466547429846527180794595605472797;
   q1 27703729667780156994978513464130975102987871916931977045134417840406385189047 13874507456510411094361763014631830717231940061412981901875958454758116871169;
   q0 65935686831087690696131083130251518644774268936458997897578295783104432181;
   q1 43605372052357391240662890359810303998822342914908818999699859167819671451012 28411022669343567884418658394694493520646923806860645665737114799506965779344;
   q1 95625459270087310502495880353160411770165006774459756575983736423601322207374 8502946427039664233219922342089120770632880949325078202867239022443516305270;
   q1 80980097088142196379603388676611826400986112539339441670059426104229071738158 10047998523943350150623226813245123862725110657147007385340968921041660136831;
   q0 68641055757348039365914244005557583565409707251155316990033424054974392964373;
   q1 93649908666624769085556949700892311297848064466524514149173605115374563993093 25104225402276460515546868049154341330624833591097334252652405206921108128230;
   q0 8850424217603840156509217069467972816188673033864808397439927223310812096874;
   q1 28538039276096592854705343719238696746457735140784801826133218960897658568314 16520829505328377331986118831025230370309234928734258578758516857544844576652;
   q1 80936139709901761136880393885846961375133962191335717627122207653113602075808 3720530925841705300639248466440521348712079431390155325469564479908353349593;
   q1 1814194488537192343696175296848919408023326079718927939753646741249993221287 19892345459101011605900239946434793163803168986339093689032400611847344786900;
   q0 13211533289553530757603132196192257704417267906550890709879740104641298408405;
   q1 5911724066303383021704913845095153295412698181175406722443016388973428241836 11177830572268706212075312492464574965842378682364338273407677524130996803210;
   q1 4361200194660460820066602398825772678944878643191807746304241364309383931209 4339906774788208153146888739503011176714416144155536294637233595552076671807;
   q0 54249658111731806753292004395501951088063263409402357647426649189943878247184;
   q0 95876776874794312523068880958398436307715355083609073829748641065555338013;
   q0 42872529609871124676163784760453512852079937587811962329721527259252365235114;
   q1 111234910864534831854731998615093651104562002027519216646759723600977504553904 23698905319850999926763274671575236873968796447441890888753150585246398525982;
   q0 42738896979015487978791957282609010765512600849628215571987464308972923206387;
   q0 23034301551754726463490165661214169459186232413562189052156609849893783107365;
   q1 4090037286168499018081498406186240467775724358227666008529174045256087810380 11262960006773623667702971284381007193647599849240824655056692141377818910579;
   q1 22979892475833097320048984723793532242144536310511469057361276116163871265208 21225623694842597956836441806490303717459016835046555999588992119827734019571;
   q0 4934547274411816817913032906297562483820942644148014877418920872498367520522;
   q1 56589190398568179476996277921599051798669856125839363926758106209582578535641 2369930573262514958147533062935022313509800602006822995856130471718635231666;
   q0 1895959898576673950452151432814758966230316110044528394964335810257298327073;
   q0 73825181222931157107881697766727301854951390391066542185169904385646200609298;
   q1 737687068104589715290904908186444738582914642209206486256687942809229793625 24981452058069140715960014904491534714787713123335190749112207342321633343695;
   q1 74658898033868706282190330096412759691627664663940120371076542095148884300040 1361900591773129382160879279693368599638161666604283955637018595477159534328;
   q1 14007129085730910494870466663304852949581863758852765568256056178581578233267 22111422141104337930892347642148780750547999250817235881873640759969695726800;
   q0 16810474103942019216915666730752793510292367063202818423537775792676842444106;
   q1 112586201727286835014620621176159882372271483501033033403079094936826176004149 23478301718509322312892659139976922887047580309017941003160339091778971091855;
   q1 11416627824115043961414518528898599429704361488421006619089975425080539303172 25576813156190475559795829290999166325431058721612032143570316838069059777351;
   q1 78434372390841169720071415367944880249342405645994147815846018023174895700107 7393101634857707641013427447027227283044983426840589336173586332058816097234;
   q0 2290800954082701872389755865515692066566947936612863420451082773438454229924;
   q1 5766791446274744871627686529288188692858528723408550652665368751557404713629 19817845386056404143144596967735847150321889270695833319445396933008446224320;
   q1 46756979087475935133679102268676162924777373467102823309592704871361562724511 9681545908731889515621580385720246205878929427318788099494516248206718163476;
   q0 5106186928857884602615284316371322446612968324286936715702564631130475054229;
   q1 16073334798369437478365437817039280798953677890905426999796752656693055644178 21168154877119387669622879121729226724490675762595870693174985178622246009171;
   q1 6321218024910635543075296015205054196743059115977620528767541540078538984264 7586854602950083807615649405181978628744736341122478890012975378704136209082;
   q0 42849054671190291781657925972316325642314504171711579160000694667187321204986;
   q1 12436926755894792592562216590714503313551399567344892354029967553929953173829 21441381311321868566149042502593478347488389433993915577567681648348910071939;
   q0 274157860024648278218221246840901120040468544557160879577394383910504611274;
   q1 95247317645314867006602807087217673101726874257421822053465679942265095388138 9000787790774632512279331457031087179143919671385628346178867088938808923875;
   q0 24516982555840395195588634105813440163374637199607787723843986868631380765932;
   q0 31593134011669370729096411352319802883067914726951543491258732403042420629255;
   q1 84951044476005868671578934544708288200834770077337777729764649179001102347452 22905230851556516760474294689445250653478227048113610181289039081004824287956;
   q1 87694638314743868398616687555405439327847210125978278199015165991772767523491 27714361048329168804461308366825111419176875139545956758177116465925976621574;
   q0 83612138175258194943011477061331358403607643131055959610877599161767534019063;
   q0 63396329755184658445027681651235251268054392946888260493320006880511487571919;
   q0 946687610524103349397142480211873980805505900219558876519271041774680617579;
   q0 22167226397378533969036752492018453600272885482902263506650654187737705142916;
   q0 694816424000970846857649790163034522571386131208280936814721053523954016307;
   q0 80627871622204756356622704979709805030544664604233785841863800672866124856225;
   q1 1383698488798079189298679365658789451616653882348179177113376862876468676285 19149012201052302326383539544075525710119256790008373157977343338163452923974;
   q1 15031420008483585811734936398635405748203468348500505194878636685896968507645 26346858516775342260461086920859755633983997877234486307231397698850371998603;
   q0 114322528745303052908631557346349955426700609088044528167695513594535883176457;
   q1 27119885664790281875084075836256436837190470700977999327636484779043481092108 4284100536781348081874284136319670039487246685760115137444536195344110379429;
   q1 8239406222727427606355176447424220872465356394667268769901585299885458553361 2019581003685480169968354022389589390222145952930834570525914674889923432696;
   q0 19200338474239694753218576213943479016388846741475310651666653018546960592285;
   q1 18407784242370586104836043485930585733827271813891746840910442152321324507213 15652767698716998416049941482241822098337184909079577387390792485047231466860;
   q0 105921815824257741612958280623155289604491353458927135242415900095797390562839;
   q0 77838874871179078714433369881051273970358096255393511882984143501199290098913;
   q1 3608310854345210177135305338053313966425928713715359244797573488861950788 16198840213753585451439673087344742539422510832591296825638379955255986004968;
   q0 49769979469830409292813389934990906944816214848828647680621971004875570732166;
   q0 9033525552545919093762280666579397142010706682981013252558117565445618523857;
   q1 4814798482637385117600813443798544795205481805803984208655937112768738777053 1593802213727847896143210927368320900614382019550133442770041339247234504256;
   q1 74679078302249742276972073512025205127969483448883585296790936692723671611155 3346638955560959133405122168233979345789312680968071136149027366940152001534;
   q1 5258420667428754150579350483683820329742645772990401394970396364792752705878 24407726564422032944962295621676475016851866376450323193978072680845014361367;
   q1 1025421013332093683615574541697461837519488239854385290172375163707898198901 21729873304689858632502233736991879109039198725278877153237466833874990813751;
   q0 91169024233237232550607785302756413835278329259012574295658169118054659879978;
   q0 35524708675127857955472972068971870665324702340654128151767990060768987547;
   q1 64958893824171788697222007542161014483346353514693003898842443654928644054079 26694176082271698119998879406850227191300792418383795694968932573515872133396;
   q1 12798527694504569757513344747100852327324971553074533063232529966876061750762 10405512409443291522075218659245242687580687160267327311109600760564819418941;
   q0 44207079998313827212131365718411036016958137130220513513773981821010899078425;
   q0 12172594832544417303259879883769958915089639848917414502981607565731207865158;
   q1 779664048345315101522661143353400088758544028187437919116048321372331256700 2665226758188940962840334687135460236963851691106880832389442880400126171574;
   q1 41505486285031138341308380196406213189675416782742463564613982556471491965391 13307161475524520322523843495961960852228932073307912737670773127102427169231;
   q1 12352560596815004175630702109864041619565379223222021137078156151570664340139 13181403766715722867373681731642697395549328457650978479225731506475653579570;
   q0 91657612563821383636968049147399977205931753670337544076828362422400148897143;
   q0 12907511660959201390842480939535501008019547464097163279979307399400797059006;
   q0 76265205431915505382932290028045928694257702437847737068170768623303900678979;
   q1 40968034592924007765660329779673752772488236928139928578247894680288637144897 29714774299795916434184066060706079728968741422054968680755307809115068628573;
   q0 106706225654137159909426831734396153680402469740463389982728070255991720104365;
   q1 96870495843588565171470014203436441415281471373031711020963603589078170479247 6542372458266330597212996784007415106659684304739171780941133872991784137738;
   q0 31476822064510812441620577973369483634758472926500316093948271065414258354602;
   q1 1431926928491939662575507973134111698223357971548118695609853809762927394641 6372471179309345083755113580763081885954747667768313779506956559372632651526;
   q0 18892398398807967080765499463708390759758200813311702267839252426464105797191;
   q1 44689402688311692006256187992394991729673758360532087748659794447035163167361 29291471750707030350485443300164014545875793102918038104503874339925111625070;
   q0 2711547553010705337512169578970046345713463394482892762931825592032751253004;
   q1 7878310852875450690100469996675963459611993582804248822523214005190388572104 22357356602593078093059252469182092169664531111754495275832081649682186837483;
   q1 794245776384128669274966279118186200814813738314022553036284864113425057728 19696694063721723256365280295384697084540774293851572324719870911131916399494;
   q1 59977976488081217094527368310384758714072070274956410092094280179272558387 19746711851805868051235215234944919137803003776060253850058880264655080863901;
   q1 4336717754844827402538751698698603262512275450392472281005645307510805664244 4321093180283850013940355568446127350425987377050001827836722299180073967944;
   q1 46934044451956251478035612092352085114295712320939386469542523369972425118 26350534374343751683926654704657641404577505701001786261760437578596093801790;
   q0 42825726274523823028670417297578348701772987717768008755720942392260968327769;
   q1 17765523772649467292526763865149612585642772974307296189146378193780566379645 12344388126145475136402012033818428004518464200853466919772442237005710125137;
   q1 54887795284067231890423507103386477778312385079272252593707784541138805747004 9978993874854662887218534745394477529678529570471778952908444001555677064289]).
  - exact prime_205115282021455665897114700593932402728804164701536103180137503955397371.
  - vm_compute; reflexivity.
Qed.

Lemma prime_field_p : prime 115792089237316195423570985008687907853269984665640564039457584007908834671663.
Proof.
  eapply (pocklington 115792089237316195423570985008687907853269984665640564039457584007908834671663).
  - reflexivity.
  - eapply Forall_cons; [exact (step_field_p_0 : pock_step _ (fst (205115282021455665897114700593932402728804164701536103180137503955397371, _)) (snd (205115282021455665897114700593932402728804164701536103180137503955397371, _)))|]. apply Forall_nil.
  - cbn [map fst]. repeat constructor; cbn [In]; intuition discriminate.
  - reflexivity.
Qed.

Lemma prime_1627771 : prime 1627771.
Proof. apply (prime_trial (Z.to_nat 1278)); vm_compute; reflexivity. Qed.

Lemma step_297159362677_0 : pock_step 297159362677 1627771
  114170894341.
Proof.
  apply (pock_check_ok _ _ _ 44169280672 16970174627
  [q1 0 0;
   q1 43865328681 61740930939;
   q0 43107778617;
   q0 37649768162;
   q0 956946952;
   q1 245513932625 67531153861;
   q1 288455642806 86194758783;
   q0 49194776400;
   q1 31166314865 19077328746;
   q0 11112452126;
   q1 78412204618 105326737745;
   q1 37194665835 70558650676;
   q0 44031095339;
   q0 909315067;
   q1 238313632048 16587238431;
   q1 24998791277 108700898074;
   q1 1653212746 65482724921;
   q1 25313009606 43819460993;
   q0 61650553337;
   q1 10452370376 26960915550;
   q1 9904918734 56272625790]).
  - exact prime_1627771.
  - vm_compute; reflexivity.
Qed.

Lemma prime_297159362677 : prime 297159362677.
Proof.
  eapply (pocklington 297159362677).
  - reflexivity.
  - eapply Forall_cons; [exact (step_297159362677_0 : pock_step _ (fst (1627771, _)) (snd (1627771, _)))|]. apply Forall_nil.
  - cbn [map fst]. repeat constructor; cbn [In]; intuition discriminate.
  - reflexivity.
Qed.

Lemma prime_28181 : prime 28181.
Proof. apply (prime_trial (Z.to_nat 170)); vm_compute; reflexivity. Qed.

Lemma step_545358713_0 : pock_step 545358713 28181
  420071726.
Proof.
  apply (pock_check_ok _ _ _ 160797069 123856648
  [q1 0 0;
   q1 323567315 390797556;
   q0 135733774;
   q1 96465018 10315605;
   q1 469309507 391082750;
   q1 5759410 408680953;
   q0 9778776;
   q0 34026545;
   q0 493731767;
   q0 51293211;
   q1 65868977 40112510;
   q0 3421830;
   q1 23029902 247905934;
   q0 14179838;
   q1 193752513 65246785]).
  - exact prime_28181.
  - vm_compute; reflexivity.
Qed.

Lemma prime_545358713 : prime 545358713.
Proof.
  eapply (pocklington 545358713).
  - reflexivity.
  - eapply Forall_cons; [exact (step_545358713_0 : pock_step _ (fst (28181, _)) (snd (28181, _)))|]. apply Forall_nil.
  - cbn [map fst]. repeat constructor; cbn [In]; intuition discriminate.
  - reflexivity.
Qed.

Lemma step_29047611873442575647497758179_0 : pock_step 29047611873442575647497758179 297159362677
  16062460713643416818883781819.
Proof.
  apply (pock_check_ok _ _ _ 7881196461825673388358983901 4358065960676078314225264123
  [q1 0 0;
   q0 8882060435860575211001860898;
   q0 6711367484984969150973037199;
   q0 16760076964605227903748362209;
   q1 686216984064496850599034270 1083754403533771261747240934;
   q0 721642104178783514616319177;
   q1 13821196400649632715561844308 4745190705376821116004160453;
   q0 5398320315380473924469402987;
   q0 2462193300673668519985543222;
   q1 23582982186622836134788237461 8967881195026042958860344952;
   q1 328439461157691725189351 7742524660845081944343161286;
   q0 15164084645309386128722764178;
   q0 9326050951819181165697077109;
   q0 10600099723913683339596083553;
   q0 223043639267519127203191653;
   q0 18364370328388745871850078021;
   q0 10285740659665786525326747414;
   q0 1894189607168221851461791992;
   q1 11169526817016351009953600105 3926811866404586398675002221;
   q0 8322302249574951499000144595;
   q1 5157159172166333835491767032 8036705370286793873184444110;
   q0 20512724209775729128514939304;
   q0 14479245574647727547658315758;
   q0 16540260105649878626986932323;
   q0 13001631102350075665283204677;
   q0 218398182140891837854133878;
   q0 24124879178467778554313965557;
   q1 15639225885825888467336959295 15772423401301081237290750030;
   q0 3746394990140354196678004244;
   q0 2998117378358065869155737897;
   q0 14633278367427527635191025491;
   q0 915131467745843036073612762;
   q1 23747620730926812398031589784 11656040611107119812100851929;
   q1 9637157412024741398762173049 3457118778837694071200298547;
   q1 3185062740477135003899008282 781259894466710495024708499;
   q0 8148008534001289933205034268;
   q1 6322990159344297969736391503 9822123750948807617189835286;
   q0 24587945653017704634392264435;
   q1 6398757116796039193398155901 11063449420923982193028682983]).
  - exact prime_297159362677.
  - vm_compute; reflexivity.
Qed.

Lemma step_29047611873442575647497758179_1 : pock_step 29047611873442575647497758179 545358713
  1548700731856248688196814844.
Proof.
  apply (pock_check_ok _ _ _ 9643653164146849936640551407 514160433503204154185887900
  [q1 0 0;
   q0 82570435301255811313557247;
   q0 457607887610411216878585865;
   q0 24381505122429910579871207872;
   q0 191439102421801386215994399;
   q0 9912711840409827524277178713;
   q1 4929260895150780119421441405 306780898330828737026650516;
   q0 25958482146244049668371207210;
   q0 27940993389114467191909349720;
   q0 83114876322951548446635357;
   q0 19626800152307548538858134323;
   q0 1514521839064817828891134463;
   q0 7772150860809428186089406596;
   q1 85975216406501482532370958 113105447700766350713579599;
   q1 1720472808410409033254529783 238694971687618851027515378;
   q0 2850816787196866617993442324;
   q0 4688505086006035635491685292;
   q0 2647159418644460201635405446;
   q0 18670618296205224707574859472;
   q0 9496745372881587714174325560;
   q1 15933276104398062496376430582 714089130771652161173454657;
   q1 2199129191102409748049516177 39416950790941847746840395;
   q0 17699952544419510277628796813;
   q1 25845326479115303847339501010 323572683679385606204716231;
   q1 92987321720959236834913423 721091684562914423262080453;
   q1 10101699074728848988784996168 952601456412705850929877109;
   q1 12549743815886990484758869845 1297737043349432533692244899;
   q0 4566163709179832468940826988;
   q0 23831163331328547682219763752;
   q1 20121176155182058056134661203 370737811734363120934090453]).
  - exact prime_545358713.
  - vm_compute; reflexivity.
Qed.

Lemma prime_29047611873442575647497758179 : prime 29047611873442575647497758179.
Proof.
  eapply (pocklington 29047611873442575647497758179).
  - reflexivity.
  - eapply Forall_cons; [exact (step_29047611873442575647497758179_0 : pock_step _ (fst (297159362677, _)) (snd (297159362677, _)))|]. eapply Forall_cons; [exact (step_29047611873442575647497758179_1 : pock_step _ (fst (545358713, _)) (snd (545358713, _)))|]. apply Forall_nil.
  - cbn [map fst]. repeat constructor; cbn [In]; intuition discriminate.
  - reflexivity.
Qed.

Lemma step_341948486974166000522343609283189_0 : pock_step 341948486974166000522343609283189 29047611873442575647497758179
  291782875431971620014836968593543.
Proof.
  apply (pock_check_ok _ _ _ 230912421032721991545077801069578 197036374624976603458235156404975
  [q1 0 0;
   q0 248976818551566027545203128589342;
   q1 187738142611350233561113280748449 194796137600984102414740661053978;
   q1 139264009988068033466020810946752 85948233965293588719927791720477;
   q1 83978260503270181012361342402480 86411798308412271872012150749231;
   q0 134501434176984797917632551678694;
   q1 227888350827166163347486753361034 284233588165899227085759536079610;
   q1 230272602671903888706985287951089 197031481045556614095342370498011;
   q1 7362803644767679536497885417027 98792013563348793208409699492793;
   q0 111702479759299557979361425553370;
   q1 3007096353964411281621135142 37822493468382537316624907371169;
   q1 208497163792813350224821001562535 31140982391936103527080385014212;
   q0 69750938948602057905085327361190;
   q1 75590103008432254244353157487409 186992702794148905602036308228768;
   q1 116192128680751089001001364518006 264317640593023350579508181149902;
   q1 65680065651151038079836376512731 71329411295956954355843082496601;
   q0 302920938809505320934575866575216;
   q0 259316576686955929724789472928981;
   q1 87658652114527705656992304119761 63808409138510830237723163753170;
   q1 73905360795569226792754316047212 126089503518397412985525579574156;
   q1 16156046429596775477326388144549 44716800293279288190495985068550;
   q1 270234677227542036286463561371621 13785956455794088666299684102128;
   q1 10376097090302957425872494488600 26502317089952087779307265436307;
   q0 300895276680337265577007318808329;
   q0 5304974825270822583781707514;
   q0 9530505300739386821783068019710;
   q1 127747364799012339186767344435945 241194853252662954694688261391647;
   q0 62738139033969792774482380156305;
   q0 162923847191310896276654669780428;
   q1 42751603547135363704190320847060 23697099664805861234676132101100;
   q0 123622756702052566354139219899861;
   q1 209755105518129652648547110390599 202167776742735771663731701862142;
   q1 160462330421438591713266931632315 237247573980623840158934810544591;
   q1 37714310864270665235077913812985 216871252978340923279848174761467;
   q0 32444713359183293337624000274986;
   q1 58513965061236225644432415543063 285286511990293193550522021586502;
   q1 149121886587279019787182192027222 230297198451358185561299273314487;
   q1 313922587698543146479415022280129 129295807731489033883796083431604;
   q1 116554107658868158260742692223570 30950251713304500647663821804215;
   q0 107999515000830085301073251538858;
   q1 146124339673347097266705442632943 217813106876656277691926722036125;
   q1 694739620637166651583446839134 82693585494839545550924112622097;
   q0 2052053827125126991584231355377;
   q0 270084699647022823487583724960151;
   q0 443261992491723990808735470972;
   q1 281319724718231057974258896918559 175027561876660890550488918783138;
   q1 150205292536801448175730585855568 38722073159196256401464107649246;
   q0 86668573598783800618038410164072;
   q1 238025922539719023881774902716272 104627425626460195048465560853683;
   q0 103965909738840391548276344415846;
   q0 33161649477969561513259216466277;
   q1 68626701495861181734122685143595 289397627748032678417780601475083;
   q0 100696374668604191521475117928230;
   q0 215311106587136663880692768864231;
   q0 4097570457618912373448723173597;
   q1 256000950624569612773810846274698 106166287360568306344690775476277;
   q0 39542727595567132825455179340721;
   q1 172480642494489190068002078286115 54774985350304025392094863988124;
   q0 13108262676750088967300352575508;
   q0 104004390238240989994927283278063;
   q0 218914843356573662466196713805172;
   q1 313155776076343322009559419984992 32831612657587596039185715462382;
   q1 137033263926389836228179297808478 231893264616626864774242897311611;
   q1 157104136985028085870368531311065 51218737123734718775904172020894;
   q1 39884297502105871080467473095385 141268775073151407381905394248391;
   q1 175124257365299004845184338606854 248183617969357653122684451953086;
   q0 6301936298123714149413337170240;
   q0 7965474415104893505056175658622;
   q0 51459128945702089614904433264131;
   q1 47143970967498481701351257664819 111931844651169754597677531403888;
   q0 233786446252639922344184203392758;
   q0 228841876860423245412948225129591;
   q0 228169981594869602391351971840495;
   q1 177291396468710710935472247814024 175490075801834131802312907183759;
   q1 44223852532739031643840062670119 212025092239390260906630118806076;
   q1 12424199811299761432370237993980 55437851345049060833155540119398;
   q0 241166033433375740169065498684043;
   q1 136763901360584915723899060689445 17716792172090910949444204018030;
   q1 83617303060016100713023394613628 34450035173996087488875868036821;
   q1 332787996044115322620291516795779 558450956143688820607294976211;
   q0 100149572768277585397707876666660;
   q1 333161952870641849144692328960043 101729586605170592184971724962342;
   q0 302238181970158002466011292714536;
   q0 7440402807317577191139742955298;
   q1 313131819596590620800599090865720 48555872618335373911897043910417;
   q0 247642320143359544784797570651708;
   q1 324324907771794752765151201402508 287977923107620396815612606831799;
   q1 35535567484675566792608471923855 133285651176788624101518475965975;
   q1 70258819116397767639086875917338 59749571266032681333499152322120;
   q1 257583402235335608346166024122241 30627251445073837309538336439901;
   q0 9100541390994751157079811302782;
   q0 29925140231470690976723348877720;
   q0 11321849461587289782942237842491;
   q1 135407754218391658663916803112283 180380164049316880673398410720085;
   q1 290766739244942023814087285046826 114542758533656536701623049998240]).
  - exact prime_29047611873442575647497758179.
  - vm_compute; reflexivity.
Qed.

Lemma prime_341948486974166000522343609283189 : prime 341948486974166000522343609283189.
Proof.
  eapply (pocklington 341948486974166000522343609283189).
  - reflexivity.
  - eapply Forall_cons; [exact (step_341948486974166000522343609283189_0 : pock_step _ (fst (29047611873442575647497758179, _)) (snd (29047611873442575647497758179, _)))|]. apply Forall_nil.
  - cbn [map fst]. repeat constructor; cbn [In]; intuition discriminate.
  - reflexivity.
Qed.

Lemma prime_9349 : prime 9349.
Proof. apply (prime_trial (Z.to_nat 99)); vm_compute; reflexivity. Qed.

Lemma step_44706919_0 : pock_step 44706919 9349
  24793509.
Proof.
  apply (pock_check_ok _ _ _ 35850462 19881905
  [q1 0 0;
   q0 13749954;
   q0 1732703;
   q1 30893663 15611796;
   q0 360489;
   q0 2362870;
   q1 19628819 16115082;
   q0 44330462;
   q0 31904832;
   q0 7951895;
   q0 72181;
   q1 641450 13804097;
   q0 23436898;
   q1 10413178 9919763]).
  - exact prime_9349.
  - vm_compute; reflexivity.
Qed.

Lemma prime_44706919 : prime 44706919.
Proof.
  eapply (pocklington 44706919).
  - reflexivity.
  - eapply Forall_cons; [exact (step_44706919_0 : pock_step _ (fst (9349, _)) (snd (9349, _)))|]. apply Forall_nil.
  - cbn [map fst]. repeat constructor; cbn [In]; intuition discriminate.
  - reflexivity.
Qed.

Lemma prime_120233 : prime 120233.
Proof. apply (prime_trial (Z.to_nat 349)); vm_compute; reflexivity. Qed.

Lemma step_174723607534414371449_0 : pock_step 174723607534414371449 44706919
  69188669156729060297.
Proof.
  apply (pock_check_ok _ _ _ 97513711501333925610 38614380841361856391
  [q1 0 0;
   q0 27397968753228880659;
   q1 137815802226554030727 35568152320393689175;
   q0 53951478651805097198;
   q1 21334943799539583918 47596153549124186395;
   q0 47743385548601314621;
   q1 168149345348767082635 28475269321645560919;
   q0 5976722401075888;
   q1 44049452157716959444 30700553087227566297;
   q0 59291809570197257867;
   q0 38502008550376900419;
   q0 104601839714191931636;
   q1 41231842017500598263 55619476969592027646;
   q0 45742286364340117482;
   q1 18547872060739332750 40063953736716548341;
   q1 151937813573791357571 49495993419135636268;
   q0 12958855557271749517;
   q0 7519124835352994999;
   q0 15778796185114887151;
   q1 10232272795919374960 33288162339658027674;
   q1 167681049938161476251 14732073486706375181;
   q0 42955775026563073109;
   q0 18518783961036543815;
   q1 22888389427829604933 4721240641902972295;
   q1 148161158020085998601 40538531438641748606;
   q1 41993027707132264393 59664803635195324298]).
  - exact prime_44706919.
  - vm_compute; reflexivity.
Qed.

Lemma step_174723607534414371449_1 : pock_step 174723607534414371449 120233
  97784642313376440036.
Proof.
  apply (pock_check_ok _ _ _ 14283963398578376782 7994067152443820081
  [q1 0 0;
   q1 54725497070976092996 36887611677069799395;
   q1 4250143882983611496 45140986089822196100;
   q0 2288951723268862803;
   q1 147789548678746185896 80100984058104338237;
   q0 155058540885781239757;
   q1 948544403830331715 23822385049468573040;
   q0 13520097421303321972;
   q1 115989934843340660387 47341217840817953477;
   q1 33261912805783821811 44550591153757038310;
   q0 166201182961316946860;
   q1 10020610205529034028 72152710491161832309;
   q0 6786583713185770383;
   q1 95145716553627680626 59297209547700763335;
   q0 71053580425068344732;
   q0 46520963691958540449;
   q1 16005798925838207000 2271303498094664407]).
  - exact prime_120233.
  - vm_compute; reflexivity.
Qed.

Lemma prime_174723607534414371449 : prime 174723607534414371449.
Proof.
  eapply (pocklington 174723607534414371449).
  - reflexivity.
  - eapply Forall_cons; [exact (step_174723607534414371449_0 : pock_step _ (fst (44706919, _)) (snd (44706919, _)))|]. eapply Forall_cons; [exact (step_174723607534414371449_1 : pock_step _ (fst (120233, _)) (snd (120233, _)))|]. apply Forall_nil.
  - cbn [map fst]. repeat constructor; cbn [In]; intuition discriminate.
  - reflexivity.
Qed.

Lemma step_order_n_0 : pock_step 115792089237316195423570985008687907852837564279074904382605163141518161494337 341948486974166000522343609283189
  86644313145397489891193855759928671818841495415153161568930588450251036589538.
Proof.
  apply (pock_check_ok _ _ _ 57112704531168816596589732607440886458891436705097388389849158079043094771009 42736002852813264955634017004243308499087223244295714589437664442505423119136
  [q1 0 0;
   q0 64833764118821606479233049918210874338912429109801366387343471965815698921023;
   q0 107141305931140694498554440685966027161509740866780788254252051043234415689340;
   q0 16066535098621399543956846658871141709631150931237932701309057021117623303236;
   q0 99744734855358903898386806169231386048779022025644036142544044143700396400812;
   q1 27767350760934367649284756192952830427899208259502751154670754585707114195380 55963353754612052349202325534645236813409120548280274383691959328638124404323;
   q1 3577476350555476198400872453120165229288753631167314189470035194375193125451 15289938413450188239698565037860473387314510699429749482385586865563194742952;
   q0 16006904073521141985825372364355947431387781585311797751372854567236171152512;
   q1 88509785327201651404060698470641659604970057877873282176855813791377123424499 17349889840553752077425442172860500175403877421110641805649470570634242052581;
   q1 31153423479239922916413576053971136659434920945535915300638595742615566779671 51573104580966258920228865449240453719613069157705044357440183914857288192379;
   q0 86325392906564389637412429218056339794660207554514582726853928169289623290;
   q1 11228012959395485707237614316173192419973869886178548318150563510303594559032 44262725082581523153425052488533908912085542296720395839705202213421673312089;
   q1 25365740751277474492152833835420235148245060104417281355406826173271307403617 77220405109617876636192561516489258950602338399713522994709778562885090690269;
   q1 101609016685204765211731297571359333771920320894595850521472624656146403615578 51768739739216829327987877145987070101735170048819293429210085728770449864829;
   q1 30188928285964039189898834179656760154897272780695294767921862231734725974646 49062399070310759417389338517583103332134856884871425914254391223917712789069;
   q1 2723888778030679128774034450719778338870872602299413250080814238841934100919 61775568123938424298486254380278323018975993004720407481741608277711093512619;
   q1 20204489491313402961845755551445134357725607447312912215785777674401761077989 34128023770711189645124379000211724560844610142338967082870640746086173632465;
   q1 14420599000122455163505131151006730686089500676056828200528191376460610268751 25374851580168614096205756397231278878360625862337297920265270541000334877778;
   q1 7184197810632809947805380894016187102348488578674672059004610121286405785713 22795051346365519754809594877420024767391454685556979436964764468900093060965;
   q1 10086129845790494549677239888422745819503210174428972245582857303728673921949 50282181332487739033593366453660505448397475727110140490837172816948540962697;
   q1 88048130525550304233579006912962797664095189237210338472336288813916640920553 1911510226339678925773535704126326037333744382209147429224907368316069744793;
   q0 56485537578476095763540377374380778842744410402705219428175877026386127603155;
   q0 90142131233300815659152293863904794045318825739002764566248835330360552111475;
   q1 972326757267082351393519997267414485269489853210059903062775219420831799405 61729102199774256442161447851856071851541183989411337647967277730850857478621;
   q0 12771539081153299821590976928406816932374793818185656612870319499594162385986;
   q0 3367306562580135502870280186337392881821419912340103694465657484503638607884;
   q1 11947338957644757850648872803444426926886708432239539244998739985384017011544 2915713087922933195014249363413237488346831600786440287611248854835589999099;
   q1 47445979630109974171847347099866438387166191684903419997926721349127758321110 55406349003741867082177347851378174305292875005308211001864729539195007696684;
   q0 10433299072182668472972111546224426252203701957204910522997257944950204955816;
   q1 23867014548600654856103429683176307002436783376053623555118197015035065995500 83791670832882116673719735347401202872276902874999199997370012775038587525290;
   q1 22414047111355456819870115405799163661969913565544045872046350545711217864521 53704953384356125981154954824572886178602229964096047191211725589126703084328;
   q1 36268766650492262362037568822003487400768521979906515592928470410131472027 61440316547223420475977695633280070857935699781865793084904218762510733703620;
   q0 33068240981979353404032728077175688104655959062034414411498203011207019415084;
   q1 6324970269255244879245262882179908323520741002107134067978918347865598225937 37148239466218201843463854317670967463041130990494068912271602660303902070666;
   q0 53613610688525819943302532467489698929851797295724373562921648255539466560895;
   q1 62305734775506918323315821458287744806795046121632381474682341282159718891772 1283921665534767825049835376640252532705251653919192804529399941164610394271;
   q0 9216358191399160790145082858299465197667089545186663136908591920918742869555;
   q1 47203175879409925931934270458004234295533298221340262939596188590147730187934 48665160224152414289711103597353414964685864666455983706432475901631594605251;
   q0 23878525685204792162356305692251186499538609082952400287321346076461334389674;
   q1 85158346432827381249734387349978455992235735504923595076709699697584103594331 43222157804930251447424800757425748907971189012954812115047905694637638264248;
   q1 4117279165613331802674843770343836163868616006405694429717068361916121458827 1279984277218938672203168809918975889664034497038911836869131961545776520171;
   q1 17436757502263996584618550404638363073183258397760785922859494473219874892802 72147132858766896455832394043791899370498838552989771488916934249121538776341;
   q0 90090506470133012001001718880658606235268144503419075290546888399468576050175;
   q0 41054559893083105258003473064443066642210190916717288926954593573588109537494;
   q0 36980711931258283323192077427205793840864291839480569206620803398773032870610;
   q0 886074374020813114075745720758071342536821907002748253892576809578996890195;
   q0 57940170199354846121650193122035508046852628302273874735006839872105081884348;
   q0 55424331457831947963096518065097533047680853996957483885097433912599428184709;
   q1 78482577111361419863086278440386022904102530632828493593988939017969040304081 76700976962993889587850397421054432048881186842551151046622143833453328441546;
   q1 71657233228098806416339699836260473075353401816358929340488179953808008400032 46539603018594640706575256027316875134068983172583687712120945657067546678195;
   q0 44028908027248889867370564254505835495081296172708278091715982837787288279801;
   q0 6207914827262995902172495851601485412153350383410681531821319826764309557081;
   q1 45348722057335811368239307908044386440953681132286159774694029868970290227830 73992449653198226269857204364787653078150680170837198396419795247421488657651;
   q1 6498235457691463834292847175215724929148867802623736150661498121634826736601 47837226795121022287977214801708097979979488195257708107906514662679781011054;
   q0 20727524059988069025133512153447864750121203714070203184462354695506055900040;
   q0 9236451444241965548760699297135798512321760872899926274478994816416819575724;
   q0 69773208421759065826279614157310682340881493233919581024830319477033116492840;
   q0 270093155221323361087156920620246727618669615234178239209621806562937677682;
   q0 4417306046106823191531424024664376557977245712723676666276725019871662630553;
   q0 74816302008469818144399804943172518774536891172535321971311637630000390686568;
   q0 67954110763684053282290740478617157212272303233675846158051737912195788659166;
   q0 8307610321567513231406567762490672249933490699722715833889623745993201780148;
   q1 53075686311907960830264982696922510420277997900007527140711898676163773784336 80386848208909759684803475372162360128152872651085078812887204503425307068080;
   q0 112998320372814965702635828742799250407670113466185262185983661776723759562844;
   q1 12880429559498357097027088394284294310658211009614784571986436197238930369724 84730987446541458116782313451763573020625584958543660383358903729454588979500;
   q0 96077943143291559173252752835276478798068465627025547026380482323692736181148;
   q0 21256708821865181117351074669329950516167673035108691997215688448362421069954;
   q0 83775740867667278830923796004297446921774322922573470584248859413700513810827;
   q0 44811741029712019762292287268847416815182100051651913233242350290273318852614;
   q0 84065696282499339880460140121761633265257915246575861392728373506317647801;
   q0 42280592258771026584373828653486837038200567922911117577714625536482386856154;
   q0 22578282619295162706852645564541641907603994246231085877852548811888927496685;
   q1 43590479776416658519054801040891446779871071677841183268670090350026261867755 24696893294455590188755390692600520024489167920115311315809527214593168648477;
   q0 87897136494020444683374930715083764461509422452200785236444050722069609064404;
   q1 6019486928503419960513676262410579812820916966459273044531972860332004767081 14352718086213399465388347299251497547396582876264715161175877301685737512813;
   q1 752407998664626383327052755322895506416546502508504120939760317799693379140 71428018035171063123993774929035756663676890020423140017717356719446095473724;
   q1 49319060243541056583853718630050057479972945041125854126504616169707291406156 901461575988289156921703171057892982881564883968356049129699674975245065209;
   q0 10619440020913651741819915945606239901290553037577083403601560255903216839718;
   q0 10629902036577641091554829763344221378108655713003530420517911342190637254067;
   q1 85076566871406095533388184065771670394063458217259392042235557672993843120332 68350002395333306660111830300276012805462259149365191505714799823953765696518;
   q0 42874597694316242534358987734426932990864397718189890418839933386731094023920;
   q1 98831763475548901083589875916759508308805996171180297116380824084192274706645 35660101754752938942286612572404099704650024197153846126260398490764000618595;
   q1 17614252066248714132174108324881287869220374423578285648720515861888819868340 59686428462822218291743849778642347404435567432386335045176099803105776964098;
   q1 26888399128614179870323320424335447273148997141402908663783725330909566502379 57467269557217508339171018424947125243556073670340642720160571462570907501000;
   q0 45020854546826137653032326437852268816012060499947703464438043176459809454712;
   q1 86480372762535862204365990376220635093148412522177899624381219872103234097755 12919017335640063050491651362427604599960938490044165336483733321640432469397;
   q1 75068755504288705823153201444121299970752147598150725816493821121631600817570 52676409765852425024426460040571642234918210851936084911738486498091399358973;
   q1 104458957261518255901260100242383198621690569286401408832500150466955588353635 79502783193102497045738811147495683336710124017679249337308532404739680916267;
   q0 19652704257969554014598290764801306183287491697515926193361478010736205910710;
   q0 3844806967647894065906594327782380010918477773551139083189733948754512612132;
   q0 57467122276999148554846406031450368489486943409955924019479518926843285635978;
   q0 168985729522310101752643163578525910706464318453694718730656187027447549622;
   q0 13356425926537694621327933853073691299772079363728368860371991489663432230847;
   q0 10990588592510475588701782848689029591029161283518602562475997769825298038967;
   q0 104796588226811443267515167804997405782256900275760247623653961373813309767917;
   q1 97776765076862063372038549430514205656132530193290294276820778772471603633112 13933330754921309590092751097688756285000567252892550309488558976676946237298;
   q1 112357406013846480816309734373001942672388046058992220587094020792957249758073 68148889084588683004500137676206234543187000184045652198941175307856376016603;
   q0 289497012342132163133865492548445363989940490254967300271894429198509001899;
   q0 27223026547071685757843473472811692155175178869828903425499954881937583569289;
   q1 86613889223301193414177285803564697274916167095070724664304793703876460601495 2330795502444378693843533294137927773180103997762387712223521737446556949206;
   q0 791819051562198625201271288308691525078813682123254599743518753512051789798;
   q0 5956958417320686155847195216244770717150890346446045569674054399782693557271;
   q1 88530246451479778421758444864271111838248918701964539762685671614809964815608 48769116511488419311058283199589939516657140339970587086999714983950734383656;
   q1 3328018112474526588296578319976636960334957332619568892246592026079638731977 52506751225090747796868999221553780737784182184570032680086256410252160257195;
   q1 109703525762932322799879131893975023670461333562814920384377160712907890128161 72593367269202780341799704364054106871295146639997518216603635231720052219614;
   q0 62850818936694122413562979734452849225782853968275768622734667455999807702457;
   q1 97191085119553765328392355279854036314420417406211145681667689756907282140264 12015248520858937460379457643917561412693984770718680050019619029537353944513;
   q0 24278666260974668812112624549227085744194565090982529713151777717260510951178;
   q1 66200249953119252767125860175185315581817373121627982308403260935799802558470 4836864366248943734735323680031591128339688332173132486869454330700312149493]).
  - exact prime_341948486974166000522343609283189.
  - vm_compute; reflexivity.
Qed.

Lemma step_order_n_1 : pock_step 115792089237316195423570985008687907852837564279074904382605163141518161494337 174723607534414371449
  58138579787377535003503259606714116115479494849592057519620557805018937774448.
Proof.
  apply (pock_check_ok _ _ _ 82825258999207434266669200773575514537865192807825383256844795767869923999078 41586113183143042338973722588230040174089929639821822444504645032576233713145
  [q1 0 0;
   q0 29191065486051910348608603142179065541115710005729910647823269696245902411111;
   q0 11846151923138387883734949355053960423112041215345939149709219456763485964106;
   q1 17259083415467393726949741696151686070728243627475641453387236337076586308991 10012300933421565217768091890933032111749803881628214185068181968675650541503;
   q0 25470365394813367946192621877923892076272594489545243223401865314104423055797;
   q1 26434612013785973883955057338062144347424138783623953878770833961347942349873 4117355767753261831064319837372726431090336483244622083481498918594488278997;
   q1 39152948599039162198459370888415623601573247788987433314850317309110469201 19646802844769002901887599530091127600186740926683746714446735753298826487394;
   q1 6902989144287607408547197998073039793970200512494401849886152667838798153147 30122010906751253530797973297504617791569367393810497099656648247904580024428;
   q1 1354751106620540562761107988179919263014904059336017406858371095659715395928 22338667034724281329549146829029143492422792041783038386815980356037426593947;
   q0 51253055527742091676920479545099712934249653839527278596865560692629867579426;
   q0 5766796032328484518089422247508328166071821017115146757472473736452174597428;
   q0 41467654394438208555943587372195172631470828065909992878994886430681623711662;
   q1 103112081568618880403632463820813932132400167127100729697848768141824931535517 13048338302177399740579448710390486986773241558687900447850402886419236767464;
   q1 2142868768880917175103835709395000433332718128215456332959492123838561195884 32007616746025237207754678471729244617858281609534170043250778289693749516338;
   q0 104330062142719695569534023286142489266183457783631025282741741557367364695664;
   q0 77681570691165254018878326259548005866959067475401476625815273118653041139519;
   q0 53717122111923330392039837372936386294405471971245459748996536845754068947679;
   q1 2795008895408321654674502803413057694257605913948323656922052610603024414040 45937383421368922551918550124367845269270593656605953458038530668471183759336;
   q1 74866389926933405329203943695219974196461012258660810570102257779537817848802 7948626392599649807408779502804086073552306955499316823578863531053653232854;
   q0 56695958169729628066217561104600244567135158930583563600130474548378137350050;
   q1 14467401492402527690017652158528441864578545509197567449799991247440526529574 32492357645358947148129198829417059316304694431069925323319113065650833799936;
   q1 6962659456246155053930033193704566197527057905332623881433667448911723271243 55312907809245794975997188092748957575968701667575944840098470965709237277672;
   q1 29582862014143040214403880433838299889251342119000189027983673490783191131761 14137239065973987768560462258068040570929977720851902250693295983591056369019;
   q1 68437627175581976993678987516624486079765647115318148445925012750548506508696 10653370583415386288695433116952869454274755240782550816845563429337751679125;
   q0 6664864719133105511086769436040790297138052782995424463834561785665646183935;
   q0 70424782480926254597269461241989485344968286944169875936011857647451993873969;
   q1 59142468991662575604616646253909286714223430555888635377676764758854037234750 32509941813847889004270773063198696649085185381646042451971156874424584031328;
   q1 8862970255191854776933432580280907827978234655365176222659711735152845807685 16417243868085768546130907555585980743489732716868116634751536333241152160113;
   q0 110454547159659143381744170256384938286535172866479150877254059816671289382060;
   q1 25693008703575288738266667032201000289003938283048482707449777466927486521823 14844537169039678051715469611055531147081752656075782074345825815428357662362;
   q0 5995940824899361687674591840251673760629049419459051813796488487611343351047;
   q1 60425893072963753917550614588803766016808951745321171669617185440599997986197 3712406130938111630943942362923686346904068730994000966827657605410257638564;
   q0 8665442417591089124708848063458748636759616915211085880207226759405939185744;
   q0 1531057657100351013402643200428909353334853300838570914950822882802813647031;
   q1 30134289983622790857638179837251888585572537073643638120578019623329898691391 30477185096113131336032040461358650194509452602694454425756136099128399913714;
   q1 63424248202252199635031531960982270285787388929298090421892744111914445987541 14777822043490286601064477975564824376980540233829810417302718329418112826236;
   q1 20298951999628372112585571907213018562575612794567841471110298100908558468507 50412336318630961528062587489277459625397460487568813464855857418262684915524;
   q1 7064733878209738288625559473229469142567402967499406848270936940109640196694 18651205655664760336629048469460291165193368323808701713661151919681698981587;
   q0 66950264300534865683952647676769506894884550962508230797889935807639170626612;
   q0 30206431813012575367407006332517614195586080853054861274464293976045719784282;
   q0 40011334616213012476465651746539325904339763061173278696406518585587396815088;
   q0 22801457395636783742632663278046176632289660055843441701910342945968737546939;
   q1 110797316424199313120761582606359890010729411969967582538099306550557960154868 15372444295215748928105643241450129621571703890419999203798921395585070909233;
   q1 93834256854937597912711691519184790064168621211236735192283538189281251062813 5048260736334879898339470381377370704535388918753556179361751428891131114410;
   q1 6488763823229075037990058027462082271201896840721467200171601869690756534509 2919601730061125651848734178336801086692311075609295300569090324984988544622;
   q0 76528561702106609006608747993227625800371495339211621073846314753168524529842;
   q0 5296876297404380864079825370135059033376010122263015102586294271292768414644;
   q0 77390675668560589344344630504201588194294769497388056744126589240006097195070;
   q1 64255882118634397994063071766012000706732409588031406421545084578661161234126 14110944278034830838130510292684308536390840202522046164745810205821951762379;
   q0 30891267125374040511772362198187949280883464120311156778903555639506364051419;
   q0 7274177822241597380303801041577775542471562616632264763782597690280419006602;
   q0 80116144627970399979272192814190854241451008764352618287060215339662019705112;
   q1 40818556770635597990458469436494283315674288970985129705741377783504239390946 35937304972105842830296691133045608818675524085871777400277828185991880318846;
   q0 93073391776515609299937879987650044910326803624883549091908840781648563158325;
   q0 18991929517737961548954711164761225406225313215398688769584547957498459043401;
   q1 3205218718146887233596338319537622131388927286380615420489307705985669243742 10105441637456415613082146013162100613632787394344259107876660073411690477340;
   q1 10301324924527405475023028846988676988297332217476344895331814077553573337717 14309544405577890177034908907772811904718825874617793303033394544351837288265;
   q0 107838686412866104083864659329558744062588870484029777336369303882918079393365;
   q1 2635940345263696248221764421080527362742928418826087923354692899462303767320 29875586146697827339629592665939780866084987894383574089822399388137518181383;
   q0 68404354707525209523067537861801840887746458107770871743712185146955482934187;
   q0 115294190531395207889118351078241735698587689831677242023849497754632512308476;
   q1 9034452874944322520076401283130689183347068602890844270170215083766815623081 30231404951899264846700071708522547154583425168076140862784028064366095063081;
   q1 13074162176814109550415065278144149433752523528308759472290358384898092300415 50607873712441515157294824951061455815836668188532042658007247548542207238547;
   q1 11979978047764802170862722804509027713680626399820056217190378194637065007686 23520911153208236925355823219096784499101194938033051046049863636343046087401;
   q1 18159861157186249916962487040846826834577219128255203776412367427001035501901 41954356781058879813637706992968602297756058638714841751676520094154555769035;
   q0 89039606305551246877392728050060502682471051152072743801061451757698096869;
   q0 3613910929165750849515451430665834309764367153762261665638668846334766608716;
   q1 714083048676287200410605722405148997664460385989615853230983077842957201793 49384520120442983229263462206238272074470125590890661178375324784405270032079]).
  - exact prime_174723607534414371449.
  - vm_compute; reflexivity.
Qed.

Lemma prime_order_n : prime 115792089237316195423570985008687907852837564279074904382605163141518161494337.
Proof.
  eapply (pocklington 115792089237316195423570985008687907852837564279074904382605163141518161494337).
  - reflexivity.
  - eapply Forall_cons; [exact (step_order_n_0 : pock_step _ (fst (341948486974166000522343609283189, _)) (snd (341948486974166000522343609283189, _)))|]. eapply Forall_cons; [exact (step_order_n_1 : pock_step _ (fst (174723607534414371449, _)) (snd (174723607534414371449, _)))|]. apply Forall_nil.
  - cbn [map fst]. repeat constructor; cbn [In]; intuition discriminate.
  - reflexivity.
Qed.
