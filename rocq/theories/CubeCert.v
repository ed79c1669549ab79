(** -7 is not a cube modulo p: (-7)^((p-1)/3) is not 1.  Generated by tools/gen_order.py. *)
From Coq Require Import ZArith List.
From Verif Require Import Fermat.
Import ListNotations.
Open Scope Z_scope.

Definition cube_chain : list (Z * option Z) :=
  [(0, Some (-1));
   (115792089237316195423570985008687907853269984665640564039457584007908834671649, None);
   (0, Some (-1));
   (115792089237316195423570985008687907853269984665640564039457584007908834638049, None);
   (0, Some (-1));
   (115792089237316195423570985008687907853269984665640564039456466916180668103649, None);
   (0, Some (-1));
   (115790726656973668618246776240861346526973158951810757726436585396823088396116, None);
   (65589924249766962844401629219710146759796441441570562685625339364176552705483, Some (-2));
   (1176205588940149357812275151209381462649705096200160391155953360775017390918, None);
   (341704680418049580209232345630502330830618463297085180969282344142715405553, Some (-5));
   (3086274612150390552710996875796093980391295824124405257167220795028583195283, None);
   (35060005153140678100623096153953521171847375145621293029161829226752510890050, Some (-6));
   (22751399531390149101625705450183048231314095231271245105419609412520171676453, None);
   (17970672061402563147651335302394087038851332035513150787077291321705449700639, Some (-1));
   (28333703214587471155997110366251565774092852475362676877495981673576405652740, None);
   (97520640521344532318479477006907113620150536519102395931596219494228403399946, Some (-3));
   (58719837215168005834372625268023659606740335930345264917335532252245715727469, None);
   (691275800445726610880549093416420249082655085048337646277098020564510500346, Some (-4));
   (58614515580376091504560090786379848155991963478479813693629205609562732594334, None);
   (30822483434546328304969393734369359063821832820481633239724176061856659755050, Some (-6));
   (43725506595951944778788098268137691678333141827025457839078022627814539448291, None);
   (11404409968337373210734336613493887445952225967051419170914275254471963071875, Some (-2));
   (105366194563520661437442887934798085978037533100481873271856296026342721049120, None);
   (38820298350651029647890734971681966699840983552666229179131509756880815879428, Some (-2));
   (84258038384521844402570689825782887594242657959368775201647273019798866133960, None);
   (103106177082242556043363745301136297817405757972889315734420528535310433742808, Some (-7));
   (5734448706625933237271537943929006702952030066587491338167677950427275948750, None);
   (2997564045882710513216636692967478375975049892597818600749342686643569150642, Some (-7));
   (1439312713565848814270733684091948081412161691829625810195533976066695315309, None);
   (4710046547358701766560481490346010011347419676701959899605290617332900121380, Some (-3));
   (28322182617512459074585926670054368363445776263815976038796990942656244055150, None);
   (84417025529752760185471648326552196790955686440859304375255385467449081936, Some (-3));
   (1671008311193053484658764277533716875156028802279415722690424168297946726804, None);
   (66833136854994425141921018184656477366043739335322952525884800714799266414673, Some (-3));
   (64633205424302263719017280013639119586569133608863745510977108148472824572368, None);
   (12754316182626357112343186852390796269257318580575890292826131243472019744795, Some (-5));
   (52741340443978243732030163866515214373832889097248338942824560643770340788368, None);
   (27503371955457071565625623636392606814699780741944955739406859354671512253567, Some (-7));
   (124162544557432836995506776295387376269284803288572620817007960816035157488, None);
   (3676602424216563039767651936861845953489190502693010289193298882499667500455, Some (-2));
   (68533747749432708008411741504074827782554087923871975099994776633958322030392, None);
   (100224255750417943457935215371597381144214178678196908021840627908270542472142, Some (-4));
   (24764936560062119818551163384342519404667110144719140816672122503377676171821, None);
   (108088135360774443872989802307367093740581309989294403276330177260966133339250, Some (-4));
   (58665240530443965076056175282060135695717944609249105729475386627784850645918, None);
   (112542295235195568411038759670031898236350208934833128583722909798407707867425, Some (-4));
   (2717913523864989280646500788232932345422904318408443357507390873766562052837, None);
   (12997528318417650650187794097748853327421862927067118586813631385208294392268, Some (-4));
   (4291692166285727286829569404525597483606750928094582750426595759720099537102, None);
   (65759620167931002002033012647166458157137321794260887219866831353876869509559, Some (-6));
   (21766192305074270666018322329037717794086497071098836030137766549345141, None);
   (536393217542217915482178575161061197910442889933440975864987450292076290842, Some (-7));
   (27479779027466971045220737198348065427689232333356792840396236717775897334258, None);
   (93823507504732699179611815328999662040281603279743750719615333177068922051275, Some (-2));
   (13092392825283986140672375024668979564867106992389208210069873020787131602031, None);
   (8627626118699911904415798154096712032303225262847924605144413764442025187193, Some (-5));
   (12004349058252827402149580991319235819195874904294905324105018808838232345128, None);
   (66662757350184663779769520078217663736380897729507342238681493725498211209539, Some (-3));
   (2290668983929555175565084368822225101748097460976577725133184448588442360638, None);
   (65842458118638298945988858079413552107606701420877838490222936321090785975, Some (-5));
   (2844978361916295942366893560664316476531168358908251103937993067771607489450, None);
   (54660233287271862164339465883156942275575727343206736240336845949004844453, Some (-4));
   (94789514945834112905475175414589001338349267568496765827350556763534568235670, None);
   (85834976176275659410274590321036857283842716469262535465354964048283590374814, Some (-7));
   (40697835497344778967518879379764305962551535428909433159368815005476692034823, None);
   (107941145193923695165654599424334178552498245878995137917609327968534396326739, Some (-7));
   (1059958440202361040033240896578000475916248230408544094876820821640477929964, None);
   (38621789972912047561421493552058507069744237283830894158079118143924029703446, Some (-4));
   (1824333438223134604186513859693455488583755605102651623683846055679915306445, None);
   (449749342722927474667238573021888055482550851437976609248218398056258012480, Some (-1));
   (3990578092883901104671556095141989856002284565200229679569614770183752913417, None);
   (11949427341460699160566477939220364012048723770087784511271555256462868086768, Some (-6));
   (6418204059269120698649903613107569652485088868757853171369771586325724431521, None);
   (23632588199834818509652898130822146663416907939372757989357013212298052141655, Some (-5));
   (105320426946021394016373924784442284766618153622521938359327293303323186928927, None);
   (53989805194709917824664300327860922682960111362916485218141773868977973157793, Some (-1));
   (106909354396486399973006648458717633277419589629171343058374577716050073079205, None);
   (45123507151538486899841857659159270403005600106014306153819339026361929831066, Some (-7));
   (26127931401765209067770597000859962065656527054834727066500140655234304372895, None);
   (8599279240712877419544722388070211375374827314889259029811836193147769926808, Some (-2));
   (24432552784711174397934317146206815924009404031094575161400796128849240563498, None);
   (11410636107955339682498813450010391554141564936672871448133114465872690391842, Some (-6));
   (86060145445300510112865276048503224760763001803784050844412810628089844079648, None);
   (96225830489878158861225250227901384677555478301762361872836525112744054761793, Some (-2));
   (5343570330356112819836786295937965672601521036859534353615156833096148095586, None);
   (8249260010763036643640909200969958542220447265827029358962582773911896574080, Some (-2));
   (70023991100220410124512436434452628405908887941897908889816922146557762947715, None);
   (16698644612908656800585813979958696311881378472410540409678920425514086245918, Some (-4));
   (43987118501911097022969440355964335627783216294909253862272162202877085371485, None);
   (2613042686983558352554374687895959128918641616381287524667874888400628238, Some (-3));
   (1761352785300639452048956987573553922370804212611795330484309091624005694039, None);
   (1941502300695656229477660630182917629031788521418905297322879121998030387203, Some (-3));
   (729752149312795151108601847801939202854090804056657062179828710978692240, None);
   (20636555410191196641708475749287752372978568844032234581356636938600666396115, Some (-6));
   (114224534034736227324985585166982405080365990138409445180977349550174320852210, None);
   (61868912795391878869466099959008643121721259351039398817076010011088848065529, Some (-6));
   (1082812606824086473093332293182431444942715649580314123605023560272589623309, None);
   (15176377272661402288747345106064829703829286781495068778468600340424562925677, Some (-2));
   (6117267617493109454852906780373050456877230936624221752699538854651909543517, None);
   (100885407043232053251413735880377134195825152995631367605914461649307160357482, Some (-4));
   (9716543756932142487652032014413017578378742648970094672607603834376457810002, None);
   (3786984426888448757379303722911590167695386356520589837296828796728989269688, Some (-4));
   (14551556634049446765109893564384279248878168678078729020215418543033169511038, None);
   (93711730549585047269166357565499627068241857294024691763293198586644061424897, Some (-3));
   (33158724152220077989641786514302164779185902477312967381059986204187160981873, None);
   (9158426106714564362728145086910644047477122928309423106879189768068402388002, Some (-5));
   (783082288859700567194664773315008173293888607744764363594417908131655397329, None);
   (58828503876595018246749799588131831726804056643221480669190667629945078303209, Some (-1));
   (5235399078257367560211128811771144599149648520284247121830196346809710007786, None);
   (6334497437640979469301496575063425545240054414723937497131403169531461985443, Some (-7));
   (17926823185549057090483842053567669707324962601711861255129904991480043362357, None);
   (43045415046549946709720729080383897679432977942042588031368371681381146125579, Some (-4));
   (6492428669810622959948009656591849870219313641833783622600295595126508600265, None);
   (7167956150402224490196259865825730947808513620850632346677096602076741284528, Some (-5));
   (79407686203920367568622675707357984527839814523027550002443904365810530075147, None);
   (25886440930751861899686128375904607100251871080201220286120655597328954550548, Some (-6));
   (24295799066376437328915901108580776063399662975620959062478348980945264717955, None);
   (12018932615443922305216314348732523801725930191631497122562913950680877592439, Some (-6));
   (11496677879115712906231812294070904335212492873437344166884079582587842744519, None);
   (43552040532048009671657268179449699914700441325181721914244191247419337973348, Some (-4));
   (14767132456232340029830593657229719841740657703780441951274227385140439911995, None);
   (44580859707941097954561196160460905663788687022096319283016670333248895020, Some (-2));
   (24945748328379696531651629893230638208057364202846983038607145823180747589291, None);
   (11163084508695248992345918841570744156480023447054312275604230891442252640228, Some (-3));
   (33829340262082656851713050887998562248635500169802464825469089430359102694666, None);
   (99228843175137120083987589527846006145101645908586752476839133337738689635818, Some (-3));
   (407505419982865896757619607548409772843274401189715045744402046674450412045, None);
   (25635915317921926324001178014902262647370209920843615738492011987402285692738, Some (-4));
   (50060499598844874001520124739708608540783612987190840282532602686846503805216, None);
   (50944196523095884263954518435623049467928431864107614653345879343787161105979, Some (-3));
   (20641221857960174593019348152900365544153019980824186891036130220224022056246, None);
   (3840263998256252918160246963118723526019613248264152790134582832046902319750, Some (-3));
   (102230026427595800451314260549542612600116773684688159806075052134804383738310, None);
   (11438718082478587958824542557756818794481113148682930111490963446311822891693, Some (-2));
   (77675969455916423308875714230971867582462238716009585023788331604679310870609, None);
   (40803773210908687214113432970163227311572368290636301909909485151663559079529, Some (-5));
   (87703489201830468772551624194477144261381159848947122432316264558678179992969, None);
   (34058679448082968367940905659647246102856925280092635123015226153539188051752, Some (-2));
   (430118246249449980200939608044798613894930513365255643612699831797594729731, None);
   (10349870459043332028744643073221956387075380430651837425101745841470444322066, Some (-3));
   (17429364472492155595783258603998457696547779436317869885369798460753511793797, None);
   (42834418103405097377341549678665304999512426778821887295814190703623923638786, Some (-3));
   (66321352166201073228667997421991560830466381331010510468444510916504000705539, None);
   (2324137952511140593923190451711108596442159383948715303512613777629160101171, Some (-7));
   (17063123883828792173030103999092589765399351064654762785091492088877776503273, None);
   (8067396098302048581248890652582448550957048703617031915161177809765641434118, Some (-1));
   (49046375357205285332381795241857125959335671596854980464448134116693448799008, None);
   (111336078844560727727943964894326915213764126424608687669862682513305496033443, Some (-2));
   (32029692186608704216921317299636150693506306490766323292013140749750175960682, None);
   (37985394156135208235853945235559434976603520080644221578122244252777677162228, Some (-7));
   (97459852759138963252421057023272441233285547930106742636281121623480950737169, None);
   (191871947773683815960464351860486561830515671680024439402237619100927687016, Some (-4));
   (61829358758777345687435497244522610600899865344144465306671276037461941838220, None);
   (114431794358242831103679102076453247377404077181138105380826701165659168422037, Some (-3));
   (17432654200457738510789844986717529622192164757110059782935791159978164030878, None);
   (2822090201542227477388632611839822567260970558318219658537520993775249175706, Some (-4));
   (9158411202594706613460291518649597598202729304305824578834571608684450209881, None);
   (9151372990893037468814622994148845470883623327787096317464124289157393557027, Some (-5));
   (91495214917995251420677471878591944209817313009506010363290174126177454962351, None);
   (64657567953313032353227915797878416730543061813455751789348509590599450776147, Some (-4));
   (67428679327329600669985755534799541549724491403225715147560647752631053263778, None);
   (81752805824501646110950717898107540419266147102088343797271962262192299913137, Some (-6));
   (11608576549157766051774593943056183198667092124552627139573199496182616261826, None);
   (8408403522431349925442800648885689429697190130177057325759319531591861733433, Some (-2));
   (96021652808968221196448712981059066873093696522239794297621808782845285742905, None);
   (1219767076205601814740039878903610390800358934028881662415441677435090290580, Some (-4));
   (86618888191506687749777090752158357125874279905342263487411796160265173865360, None);
   (87325067681191862566201221088461432936931466930573608309771246639025667932563, Some (-5));
   (61913563750551857222702189010273264906019656669456293512792604786039285656428, None);
   (1256762401070860847932628269346775417120061369645236531476446748150144530248, Some (-7));
   (101863791362406220307539442651089588198379170157760095414663692246645554381225, None);
   (15701869133614705427917987181674333013129392813450120228479298944573246257499, Some (-5));
   (21190093569846588798457676386304060284633481908665308906741324061988427104642, None);
   (104585764876112242367578440162103354488763048629630167827452989324830486285082, Some (-7));
   (83160877951884239819099518876492268152046299092528420106536438473475711295269, None);
   (37764544898727321580724080105905562258029384762398698577113632210051817667945, Some (-4));
   (36634292408280971361429841848915690856748346381214487549981895071459430247413, None);
   (65789336569952920926506478859356584478893819587060124070208013496227640201818, Some (-4));
   (26162428150534265945963208760176220331327721533270680804315270869939162096766, None);
   (60946509808753547643121234824854859949553759462992253124662645722899410810182, Some (-4));
   (57126330850039812913623004760732368782156362685026967246793428608720902619132, None);
   (31470938099760539627921846480175059709560529089564760370405165210667369265784, Some (-7));
   (63214638076322323425824335389005746511524788360916159078853541632780214243012, None);
   (82000377192199589075231095678238133630800808172540719992010963212303841598939, Some (-7));
   (491663376236223731171492937609004356335595310794430075725402459700825747346, None);
   (22069220833756147992760203357554839752925205063973790903567956917713372016729, Some (-4));
   (56980952428809231210119210755442298201438416547876882958083277738998109017236, None);
   (5240181218451663471560314085171418231836173359661282358932062533700402986698, Some (-3));
   (57979422672002364413727496343732828895557349046663686637218711196970294002948, None);
   (81145223273300794519174983074943597763475695215040962347291202477311921739236, Some (-1));
   (2348783331355923974291053371333456875955715075346719358102954274884973903099, None);
   (56855525944055946759461345813131946173429107828587109612668414037767476235583, Some (-5));
   (16792439665739612175914696885740563954528792555234266462344360910229154149949, None);
   (38514448990494550241607132364210476842693363277802464210096127229992983750796, Some (-2));
   (22080163455368783796612395975992879873814636356718236695308335143975816173209, None);
   (1932178130736389941517070227576991392752726323645981679719804495577769544197, Some (-7));
   (52011744936217402658550409848068488519533683304296892819323434831926655272244, None);
   (44222376845481832032382572180125869714868654231820204214161576369273162761676, Some (-6));
   (6093317152661610413438191971989174670338675441603889930598820593557987201860, None);
   (9065094595841423919878061438321553506914126019706979057247285938965240490390, Some (-4));
   (925853822617987824170282904700244567130478678058130775340623576840236176654, None);
   (6431970716255128104039462580667064949411009679019719017776917186248377203017, Some (-5));
   (50856387040486500958774142693941234106559324076332900125361894652024308701684, None);
   (33973223707642085244409132241211302599255413489164596755709070159259403332342, Some (-5));
   (10022931931262796733360810191345969451853509167354323339794317705143620088067, None);
   (26834186724433084332002736789102239273614265762062223213718367562599388005682, Some (-4));
   (53591292017694032414337453504409398064431551108562901545923144846429790235, None);
   (97564674123382874351060363565785981135094523652911249087451907923485330023860, Some (-2));
   (93139963541962443759622687184290157268181535963306822294660913614652571879961, None);
   (82004350814784037854847967107134755256317723065393247200047728520658791721501, Some (-6));
   (2540986430429559176887566971637057050682580539119596349945790861102392801406, None);
   (112150138027119744555621287648469102190323058974170612161227719506321742624897, Some (-6));
   (11233144028988983793045941069798074743568454523626331983027980101249715454749, None);
   (44991583958336293680786882602655234289100996279882839659754662934745875576865, Some (-3));
   (14807929257201783884412563416665129725356969079836352424913111979059849838651, None);
   (100236284521260475200785080349476391312194382409202676581645320893262783078242, Some (-7));
   (17875033852143868962117213622391541936545557961976137335526667042434210747169, None);
   (5492485409166907075125511017821878467384905914851999054545664351037372821337, Some (-5));
   (157957368474632498414760147636686364086898723197855238434579985784839871564, None);
   (37475194734473425719518112407983574170108173488971761762755033943607389170519, Some (-5));
   (3364606390278721403497820490605963799992100536455962679363019558372108900090, None);
   (23068176971462603817465128372187359990301664033112719046169943287261661665474, None);
   (242708376102592556474847461338993085854723211662581652115369328057094299121, Some (-2));
   (27686191280970957520633788784918488966832176759096648853928405914643743301719, Some (-1));
   (106563291569287597618616459569058506912926888147014627257608970381161855927284, Some (-4));
   (75032908009148233328030851657690585132866666437632265584947865544120369097837, Some (-4));
   (58360236344864506675414967131131272191879324427430090345145351010725776202733, Some (-1));
   (5459678191534235827927607181874234963448589328371376957929354123252864744553, Some (-6));
   (54612804994578635506154018730670487407665142746303230807691298982041111082036, Some (-2));
   (107221737914953469715349376628845166648255653674227037956722501882232373636536, Some (-1));
   (44949723823530885457488044025721794726652703984046589972690526330580546552553, Some (-4));
   (1008994214133929474976274391638425034389945643135690260047571889588263844565, Some (-7));
   (6056149043816385683739201587280815626637748486009322684333499420408235012218, Some (-3));
   (57594896715406538250136331132176361987262361036142309227827743087680372749911, Some (-5));
   (106912453121871694050530960441578527135870933506838790345657699702832267885194, Some (-2));
   (11113721376432409917529289584638402538833681884486084738778092249069362402564, Some (-6));
   (2679929493942151878395462426957143263335944906756699151996563490203841577259, Some (-1));
   (60318606777425008421830471028705106425179364973211438572531674606262080948, Some (-5));
   (102065291022373184698001985311346245840084786316381652967039253941790390822664, Some (-7));
   (32714889677616581953028796775706675996445888880398891893749427274246173377170, Some (-1));
   (1041547183116452673727793090513363365680428394718782902980073237782467902425, Some (-3));
   (57622193087153335250841922752810419772416791181526114711836505700671307176507, Some (-7));
   (5925775048989437387009187430736544525879903755066208655724343191464655938051, Some (-3));
   (886722030942373587518429464163643064539775368380784166909418093492916367739, Some (-7));
   (79831920601252706196429613128173562941330712927596065497409797796944069186180, Some (-7));
   (15077021030098616149685635827744827800269885933761043376868065131048857156520, None);
   (20049621742762010950902249209981290630194846029909897864009906788922934864400, Some (-5));
   (112068332100209732301448378059510855016606894312813681841222810530639645871874, None);
   (2471743904130533808642049393130538818250093211639837150580473489581963826356, Some (-4));
   (240349958574297436158718463015166879758217002967147568895057546261430894209, Some (-1));
   (19104195406932784983960756065703046847434201256813528132262036119004070993483, Some (-5));
   (65693885597132798929091236250262074039905790892468210746146044390129717021590, None);
   (74564008780776677743465221644549899226843788775427399560025213107788627803959, Some (-3));
   (31295234986816106708621480549220651862101030545536853469444158949967814038670, None)].
Lemma cube_cert : ((-7) ^ 38597363079105398474523661669562635951089994888546854679819194669302944890554) mod 115792089237316195423570985008687907853269984665640564039457584007908834671663 = 55594575648329892869085402983802832744385952214688224221778511981742606582254.
Proof.
  refine (eq_trans (powc_pow 115792089237316195423570985008687907853269984665640564039457584007908834671663 (-7) 38597363079105398474523661669562635951089994888546854679819194669302944890554 cube_chain (55594575648329892869085402983802832744385952214688224221778511981742606582254) _ _ _) _).
  - vm_compute; reflexivity.
  - vm_compute; reflexivity.
  - vm_compute; reflexivity.
  - vm_compute; reflexivity.
Qed.
