(** * Certificate data (generated): quotients in the computation of xi^((P-1)/6).
    Hints only; checked by the kernel. *)
From Coq Require Import ZArith List.
Local Open Scope Z_scope.
Definition xi_exp : positive := 3648040478639879203707734290876212514782718526216303943781506315774204368097.
Definition xi_hints : list (Z * Z) :=
  (0, 0) ::
  (0, 0) ::
  (0, 0) ::
  (0, (-1)) ::
  (4007016174551039, 21888242871839275222246405745257275088696311157297823662689037083554123448134) ::
  (43776485743678550444492811490514550177392622303646437234514275442489437190798, (-4449099755272690697298876694528)) ::
  (124927269706565752102284264793224199694530625766, (-17301168384660326188651675639101959915379721084)) ::
  (546764220241045485076064093176973943142001933796021097192315761275307224278, 136793425027505822968456148853810355250711942367620594530106796743218606104) ::
  (24903397418145687359399831902344657190149247600407772320210698667149283856467, (-2327159590284810863807517359938459071014851329805288523337297357064231543809)) ::
  (100242638646967722352558291205918314073432974278126102911176441446008779130, 690980808142754486078041439448058191563000901857411591416395188199982844986) ::
  (22584356699325400727928918721860084892329172909180162652915187692231812514010, (-5609305668237878475945882722846673652268348703514425510155103805031405627353)) ::
  (367178958980934907191099393483441259337953074399561939728691094507372584722116, (-22508944262970197778874193922764155783756734920282570070387750218788074508665)) ::
  (7427498484211450854659385857616136175413249494172547746174980339073424508217, 3340122500627828810987425195340172990816629244892594153012755131571170248482) ::
  (129421291536763399800101519890008249337776765766306707645777879573120085944023, (-85837471980313914112691885308316721413278277264146730488382024830267252003676)) ::
  (150092853183371779454375511820170401894262980830277392100739152102612568904988, 91949266564711353503208066603974657399059393771806198535176399059213085017105) ::
  (14237061611512764344154770266616353760546288352791078919039927648606508762917, 7974754064101837882235012137477731564390026581293639920273942515621056904780) ::
  (90694300203944083598191461344250106679550413073299846570071683634772482209428, 5816515990960095535533319119536820506807785763671997093034230103827212344507) ::
  (99748551586551080625790662088465317201255623064044792644293376841208939255666, 81466451288302267726768224646056189077431785490527736203050862540393973885986) ::
  (142088915387175995878222803347870420905835215442435746130200491400981798660376, 139160093259477559322168707248195089741394374321737773640031018289388549581822) ::
  (41505851105721009080042171179788416681787897630008946641566334349626247945655, (-185833745512534751771207254654499166035574958399771423504865906407319733390795)) ::
  (2970535647319963681717200182283788928166189524224160090043399976391958825799, 6533572628467360869291538922787642343887389497101215293171370345600965361334) ::
  (49261162112872029129919957855597034854006342773827277497297153615408100173227, (-25359051816642080032668033397198718015730517557968185953608774566014555577814)) ::
  (137852616617175787287287888497152420510650487284159716502170894585695995261203, (-22381109208439015347244305052311282666656199428434197361662580952660164501651)) ::
  (166876984492969703491654838318272350149391796541423111815546667197422350778851, (-143882558609878809196682718892534093162599220413140235090890184989988943129143)) ::
  (236947087975127922724416884316801636512933508229182504416536537601449982683164, (-135789647887151052020798251294143965460353366226986773372410024816355048940077)) ::
  (15576839184852664220680548611487883426341883936721812610776992122638044425479, (-10290098971095128412000395368235834068616879013038396378966586802483148168880)) ::
  (28639131804141140328444170433740735472542934142876142623133769075690370324098, 1372681049138512608356919260253236198851792260132652523113197202411764044224) ::
  (97809127150635515625000233271239690385851265683266385729210031896872252108138, 102449754444259741747257392077482123642337953853848743601203540598658211997623) ::
  (54872471031691137456968719454799944156979415933795197676897235040771908088844, (-123973223392298039553918274557713902401727500951231179661898294266918819711715)) ::
  (2134475565029587920559783190229551563131239319994414886002117447644509802741, (-5769044502386417714338627359107337682157155475039519533218316377965602078068)) ::
  (68661330048196806064136715605851025883202494113405775803553520213902999602573, (-41978841608478144045802203233940266650831113140176024796780684284316190619067)) ::
  (8553295009529139562027596827935496877933879817639197297119042035012509261111, 12691842104269783338092905873406202023386059880194303312878442323591285156131) ::
  (4407226711006760581479764555278488990364812924371756759609265633821971726777, 16730417494725922137559381559910996537821014895259976592440511708897796933763) ::
  (1739171919753297252092243714162331541004687107566308279490947320332215820832, 3185959159352794928208969206779568984333385721813475400611929571870709890469) ::
  (14423820262474758875881502278054483295110459924860568946135737805367709716046, 1718405259052826441796032148838221279415649689720940150531701787070968991329) ::
  (6907864207916142312543858904392167078132665180224910986816164331778636955666, 6721723525112743862062441370244051340754498249006072488048312736632275337589) ::
  (3373667606851632654444995165868547368969248736123867305916571659823514074212, (-9417286470593272712158807756400352386503616635363111454445934944354216980617)) ::
  (30017463303863827243874065083237780581960570454963231122984931921952718255007, (-14319889503688628621219636705426751063831484250143296920520406895424521953648)) ::
  (25364120863796889019571808642237856637263107018073364585664697367048941660324, 2836990766332547827217626122128163816757585051837735900439499537675615266633) ::
  (18072645858598206730229099251568613862411184191985085646760968360036514718911, 3331370963497040656469535156978168044670632959612768336059925798244720722286) ::
  (17235566987229622199497684598960172586969239859689689754306865591044282218132, 132115893657891999524520855803919297528323113974105024681546277278745369929) ::
  (245184150610993871211954510139641517363897766068512991660383419469952730314559, (-74216224919336000284921003364514502977534954636847212473588734354581584211134)) ::
  (27006735408811812597624564669372663593796264367117621314871938301596005217289, (-6913691113900108118472589957489981672537953085523386924447568061188272054193)) ::
  (98891809423373999537821754663502406698484097207241129425951847899694443504391, (-129766169346984981560794632882010650414348456431705445430692735069013846809044)) ::
  (140255830202625212602283071283054847950425573117517201785124742970829041825168, (-69411755321814267714731351186351915792395062655311778668215102191459124583868)) ::
  (76558704779182605359405313224276963015300713837208651097301751222200617974066, 17938905547780037441703056528028153986261409952024184206966804992216902239176) ::
  (8056893441805492911850653247236142079981043316086709685253272160850099802476, (-39010193774225255524032269655219346713507520177752686579877073730669385109390)) ::
  (21255196353021780947100338294697075992783763294857392308959385472485986869751, 10623833661317733576022021123544283924030114263113637386896593021227508026487) ::
  (7783220431596188563087994572168143775099975389488034629201296376628443824289, (-1165824843854262054358110914073652626606936922180612324280080635325330779528)) ::
  (12558424985543851618074938138933049021238530777857971931970856474780885470012, (-2554173492383967054970030155548249428895738361873750637824415050091412076630)) ::
  (23875167459859210318127163416165149217952767472101001438693821255004785296289, (-13142064757916557512773193809800615013086646001489593047823063953297800361814)) ::
  (9437591755744866302222819072096258910774859708367092032000127500979664029773, 7357036097129640135452184889666834463031870577085380047360870753782486666066) ::
  (9267258146026261461102609887765233262692687272651000125163548703356406010093, (-10602746024712131128845203831248013311240308576386485930736929838458983778917)) ::
  (11102586839300051111596857302492578160989226922124560730903676158881905036114, (-8490575231325892741104137288264540374392994175360960761301175011238281487619)) ::
  (2936468855798272875586527044312098789056766575496573223663374262551109144987, (-5148323347370326356128302634816488231172275364089318133709400060757694830807)) ::
  (7574448205836516547149532161175672860601713519306226184169680352258458103503, 13984016957318698497684781997584194684697107749688012926196852558252842268561) ::
  (36930911508916820602062302216129529191258114280849527738914958519928552852870, 67056261657059642419294304083990719188420062255150833514108233832068225412496) ::
  (267748243182963908681871774808745446794460204772125156214106250639430024917194, (-46288025532462182247578505613388125542709547510984975122188381295935800478359)) ::
  (101424727321902860065332022602231731769418389946569761455248329987255360281, 650449767282236886510161731838402278311573381874324364231747939662876594008) ::
  (108281650522530358270120727067346423676588612575660354036412097084204863510756, 71551795474964971510176176059045060167811834573226007412710254821507546207727) ::
  (9209402893705173913899937507761532990812570250267038144157931761617453965484, (-7657939163735283356244771244434067383464970881772574169085100671475384846564)) ::
  (186959011781638751616088761626485461325351677780246445626795757600399559213561, (-24438827929589307539681188362594314831097784546984317855060310619551679744805)) ::
  (273794862434908475556781872750644773339782328852018007468369334946747433781902, (-36985378870828727924917466385456051553186922211860604829788152602149196156005)) ::
  (17516943017050393606062677979477478954284759610330171132103355435896254088508, 8055673122052589323613848475290062550173889362684085559520114284359987640026) ::
  (94972449896478479149788681299696506778805589298848798201364260152551062804587, 3607849948174114620863968989665699330599021160564326457704471149591713154178) ::
  (1183208519206594736653874463751289724491326485559434178590431994125620882717, (-4163504080060765150761184559432290359573759193133782677743473894814132509307)) ::
  (22586206440192746807281609544852457411854162655236556380440038649292252708263, 7189035922166587102492420372386805177358740812606561228247342827813803143039) ::
  (28578404309172499718088814295362902746249880743158384754182964560972694818942, 5352307208981510815794486173395306181700019737114685280974674976866222745440) ::
  (18877393921766416416724781480203829332998330063066099477425180464133092852684, (-9596771179051023666766102459660216597401129326809789823552077946308477917554)) ::
  (31076577846551573056983910247581400284772711105122245509393035076646346200711, (-3927898966690227464415805624037224599909657731459400726546254618918966684865)) ::
  (6831049767877183621403303836658971668720002558079262201107744820186345545130, 2531816376978666122366458028880980176500437354797424992231343073276840361811) ::
  (121515215878100901047363760809285765683030769242111673803217897204401302233557, (-27394634295800578695474389333026649355627482997813314531274145059140944164929)) ::
  (104871643400016857084712115394874461768163253687016494582023587947408433773106, 80447816246644512333474192867268147928020514514486097365728662519263484965705) ::
  (14840853175095828352348782344130314873829172711746192327933871178340359913199, (-14172714967063946986012575960074906187636173064481185769940677978641967544335)) ::
  (45768903264951337856248487094434142604739150936356142351321629106236600614399, (-97360864355025139142807862751937491622404886514015369162819779406170855044704)) ::
  (1512517421078945187530520826841756287788693504717964031502809206117019357959, 10083559248315192852288338819518055509447822894826496747304357145681534470648) ::
  (33574516979443343726421760115936388127503008338876658073023859984509851417114, (-279389019329104687107221612142163993836441042817572953550678551326763300606)) ::
  (229434164661982141165312877334587356320283792514087773438929170041691834591, (-528529847305355034588412835563450134380599300963656367833165798498041472044)) ::
  (4803539940848778514538428422933906474744926247538845438943541341634853802511, 8727484000223437904654789320446959973177335297658287646533227079216368987524) ::
  (3548201177158950140195342916426426017791202175755949994351669217307998298115, 2373300501752604704085094797127489545779348845761020541275384816498496940902) ::
  (26263508076892792366686268377228163174908337343324207163666515259300904264539, 98614417986264942250866747532649750947317385786611700412175965432376103146) ::
  (1135701146249024301212418384955819476258744215142372002618655722177261058129, 5691732402236255897258076660047709217867202094896546299516153565073488275574) ::
  (8700051435031346492734354104100322432396958985001872545579495048875780353320, 7846090424847695321408147568674811208814288823335837533140325696506838709106) ::
  (193119331623871680243994859991787530569065110447194725617150611426068290435369, 137252223458156445746136661394229493488671648166488742427714417581194768801361) ::
  (161981742645437896002976245863562872104740859520159136434428459341016596507654, (-98362991134818797153230979879700735771050825962979821923309490544172582548481)) ::
  (17008555902914806323802228375617099096535733197438222261954359949164819270646, 12889063819287484691816942477093649399131471775279013107136254955339979007362) ::
  (55342349894197837742923144572115902023610972323158606577555050679267315067288, (-12641272847658344685383892225651369523552899734365876919065762560192529401701)) ::
  (4553745103734983257221169490272332070649891408092257129747744561176741103231, (-289225002479192139240485479164524299004845517156010435964785548472923281683)) ::
  (15571265966431601433664570055599952661264164361713424093179706195386908698063, 5406366209566935681089829017015423189757902432300077484712262004667135538008) ::
  (6184400235309765692707212528479373922280784136225195852637866802715659142098, 445814484712815272202270618806598960964948380151647148742373012997912359678) ::
  (17410449382666441046836535779225712583056229490373527214947805676418917433785, (-44725291328141692216891845332180176350102377970358882013327950537373659067157)) ::
  (66045401901655275075048217793089531889484402664108333610227394399504312725138, 171396812002762406467612076064985195948424410000692189925506600807813898020613) ::
  (11367249548603707952112186622607732958002402366568554972908289985549405772899, 23167661026340292239823698066548963232579240794297916200130217873398897427920) ::
  (24140835324940169505721894064799038626027407058049044750450145712651786762299, (-15118455302340173727160444450726451709165325276314779499209853535597220346639)) ::
  (14811816824587275289553096391454952865753355198068905830263989026055885829655, 7342921911102816927525862744196896194049349479632882472483016976670335964132) ::
  (2219649265575751201405820483103097459578307863308335499596010467675665469214, (-14700710129420422280961906151127608289768064186040562606959926437460167286410)) ::
  (2846438368833516362020723313648989874094787511965496306245666908367991243794, 433296796147987283202532482603456250504925628667903174941347268118444701951) ::
  (2068831364847590752224933447225856285543800777924960276069084630075553943531, (-3621580530700884921168165859587297331293048913900214012706329211335620507829)) ::
  (38622410724185290281632932708639318464260656851594604039998797362412940032342, (-1157082401515299619641620368590279085168344338449832528692690632167478906586)) ::
  (5575905836273846423092335185334320053294171241228684383846889166238093882253, 1095033871031244828641362132073797595041760091693745357992709671384120432261) ::
  (12980649281862431514793447145029451461333046733335766255006619486840244218314, 9691399262580452421095622624880504967767441450519438541029969875502988538164) ::
  (29961787837554761370215782188056225100721578163145253065978081974373748545461, 10186819386823960617451076640938659772608411062035464659029824447124688328178) ::
  (23899937556525810664342977709242738641382488697077283672849619031609943093091, (-13698311594271341401356667901146411853745709453738256842250677232651942843730)) ::
  (18324858292296670078744979206249963226595234696126603532935293170735866442186, (-9295656891279032468140430165795199687186193701209416534299780026659484809543)) ::
  (9197790201071830028446643279696689835804102102354096909164336448222802675061, 3468972772084786808800112184779296091566803587894006321754969714962866430189) ::
  (16540406120921639425102256426981238049524290876712041884419071200856159002872, 3179929535282120306234664064683223585001146217119615202308147123380813493028) ::
  (20029372550813646005892039919445960161706009156186421349606093214055352470287, 7111624759410655801892804798122708836418644384686861338704129510959758521879) ::
  (5050433964912187850411485241336681806493508925978721269416473476501446526570, (-4517199413659108935781399774104594564954544623809666558179437730928696509996)) ::
  (27513706948634179209594087154329739851095865678405429384497857163765825727776, (-7863070102025030912425210714816369871152821999798633048860709459718947649936)) ::
  (24510127883213067861789075712501273608601349332656415682814381315571143099586, 33721582547232360151441820688780242900512353269593824820908247079908760712333) ::
  (164474472009221040948855059785737598274769247813127809104130067924458033376580, 18358881291990311312485918399674181613517472288361627360031055116922342831296) ::
  (91908632274216383829942632882532628771023901745896574470258011685477624566482, 76488258297589638105756919398721192029928593252486798506530910714904671360193) ::
  (3572280144030173564309989232183301003957662455893680002072180234332050510579, (-5988027802073794751763163334019065091379016189563924443986943677537503226662)) ::
  (3198239809708729854778306486022868730457734777351903215908401674959280166577, (-16214118436774768380126670630112557403282214044767203890411791882314354397872)) ::
  (3942740996278291014633762435996480927186775438127206229494523214671734136344, (-106935668236766342105690529236771288471915583406087459422383994288737675923280)) ::
  (2637046912188156437069811634263395703599595334398694072679682420276285020472, 3659094102028872391245717420926905050658713799240520349238094651488472285550) ::
  (74647156265944812667073603503719301645820861732044463015819129598758701033422, 84647065212091231604383917030449182057705153127802666380455794421639094444056) ::
  (79284649231736184896618621078577030945273621171603870522310108848145056866232, (-131104239104904644943389661070699982536707564650059389691626568024335299275657)) ::
  (18817927829017738219267566212052784905407872538399310287713538305722043894337, 16060850110472532137816709518828465171811318555074759180894832125849969350122) ::
  (230498442441757293136874942696947251182328730540189928111122266940264960881, 250740698906280811529089234507572319140177953268231810379994028301963101553) ::
  (28788857961673860520041390858462755950803799904624873909915711054368910778333, 112527791164462583022494223299889020924090364572845298227109549555018029500086) ::
  (22994898407741050440651382227870720250993741054037468643326033181406158174259, 11534556069528151779550712281876112476602913437500426301534747097952066456470) ::
  (3056488674429000546573574409501210057450108174985958557385671669669103471074, (-10609179308376766249049956558518274651098260652215597752327760404654560793064)) ::
  (101807261697866604940757945077762968058598233110506017077725289101941224554814, 105109912592633770614738293287091393489346768669570597392900979906626598590101) ::
  (58847260207412351731638183973799078128829998304857161096690298640346946107582, (-118442077136776756824655302508435674347483971264807512588067250501016926521372)) ::
  (40178868505394011115707486794138220451105961620380403384868839439265955975623, (-53564710531595700271500780661955432654467882236763842416716768742570989784437)) ::
  (8662957965052522813003669755885942060990068320974287387820910157656721817959, (-5664932305794693570580317488074862412563099180808141833117678668466556477280)) ::
  (13729620355002024734780371323986090866547442148451448841044483975793882228820, 22943837018729904160953536454250176918811540118908731463916488491663094921434) ::
  (78517289617588502059775845089868412128563171132993480736136368850535020951142, (-74924560522139613416327473188878195246378933904328889973768139862519926034130)) ::
  (75461182618478306198661108355859122987418828240346928732454961540866900991008, (-30008557248295312328456192124082080961841582637859165762799374976184917757724)) ::
  (889600827035076274712622513604356988725048532740700892320120158312568682895, 154526016637776808525870823531380623969014677274354356321755542662644988412) ::
  (215630282157437332379096605258750344245996417994960931773574765271100797704466, 88069007412133382976952455810271500111236695499193622257102442268550926111791) ::
  (24931386490623412053413218673562633208299841343262484884721603428428244424725, (-7344765585676207319037386961597241049119945853666184138380582945201481041436)) ::
  (2393575923457156491216647516993704362299612105099229373111976848402558709667, 1426230121010877116802322839647070211499790921342405409907896487410066349748) ::
  (1034138287040421712145477430854572290470719702297122711244066301547058986916, (-10388814121924341076257509549647869555958552381204498009249451213575150117992)) ::
  (1280607651839391751528405498934841876497534028257978911887513836781079496416, 2183694894700311327470522933530970893835167646641555515050044668632951141755) ::
  (13651918985416527476996443504856870317335224559000164447580862699786179912098, (-5405545196795399783705285391315080462129573538147857786308996155118406420195)) ::
  (17896273464806662469898567969569605494375055094282946783796002229782122207326, (-14081273057719524594462829679462220159443299461122532889091545761464305746371)) ::
  (90994748867851197184774003472750814107690513833952217530158035564002837600926, (-113219686751450628127249878678107083348528226258335287648427195682504880876739)) ::
  (297820925295366583160377386714618231053511270825841932227508247282445173857541, 36997767588633367084235915201635828924969290083064391343773594356364682844538) ::
  (12922755123324886272765766060980708173354404982474402306530084752427093004925, 16228722732505642432812910917491429238252085541915929716487057257469864597030) ::
  (4103132457378438765872056601554286171034499567464376195797489938585313436358, (-2712607973466421415592092728668856624942176346625896059470582015673439576982)) ::
  (81137036007655397556477638586046993585297125693501551219372114756881395614996, (-14693975267263647927769344863169255523906378547296023815224921133595271880995)) ::
  (30145138776342627167773015109135709473351422564969282461799018263031683908009, (-3834795193089887324054463109222948718073812600321340958638298154349231647962)) ::
  (15308707402580562801407281438699232032730142157722428303494378319220075558175, 14847284987969161036787191696431326659484027405211976304239215018092934047843) ::
  (16772845464554731257956144481750551115546354935465245455922418855547271615868, (-8488053112224643138803780550953168327119315566602448922294437632043417091531)) ::
  (9086847668072028421178809388117883678201337460231308311757623667889532129724, 2613462617709421741120548035744924605820101448660333674041631182878322371248) ::
  (252959555616090408045106862048854463841141377273487411733625563318194158325608, (-67524406819527660241490418741634257127116856875243752713658458204685766246712)) ::
  (186368319481182639188926669981345029351537151467788802778274320832654623963687, (-37023658995964837559424318088531316933678312019050788639089024931228483084324)) ::
  (3725935998394515271338584157308064691248642272049297958801445796374569437112, (-5609601959346815021531613031256456933332330028966071521090440221784480113459)) ::
  (4050721078334554958571452829365867974438716825920038323955406404571804808475, (-7909069810687345163087254847344233351683985971234079396999998449708483642672)) ::
  (12288581679713557249058114761981858681531493775304925496930033156375933209067, 9863223800562647588106063525272704354556565046982492038119217969288209814083) ::
  (33757098742200082836259568196552516869407393816987932655050086955230122011260, (-1786775821151207514836949947785845816668097844054710382641896144931949117775)) ::
  (44948424567172391705049458604564118967499553378946274342561792361426000063459, (-54348854641862458437233207123619495072017988151677442539113732287013724439020)) ::
  (11339912878541350016848634915913699766536766234580208750191237560827420750466, 16373598334725525640475738213016967118606487391740995135265352012578858125478) ::
  (53450920129316787951291871051913374327247499541933418974976033758323021629871, 29479619064205218109601705805534347826909332300219525955774129498269011203605) ::
  (219277738396451544761106907904284229711141513586739955563349292925835617513502, (-65895195618730626140147525683323770326431158169877494068369716490371060038515)) ::
  (352779939432175091090861397759989776724408862263969698903107890629078328807744, (-49856896725214522778174053936976631524776592501761305389042191518616389216678)) ::
  (22143032755667743378231841402498448326867529821143623953321496454259064814183, 11702257895825287288952078016116349377896986448588516841823274776807744114153) ::
  (13764500158635534566651036410400405319197775326767892333972572498798398378620, (-917647002577683975112048835324404500976007321888079431030839119270224463571)) ::
  (24060078442932198168136154119532981714750189054064091472138322747571844584870, (-67229033723295639058920733582099582514090716700625598412130579741136708748738)) ::
  (87220038482868477168224814099365699451040150175169880323349522258770419890490, (-111780466075136214945863975072015716038913760525195036578033468364596259260316)) ::
  (8125742508419426456858515930385881713401841390348762218500576887439982129742, 2874826990149038710115268683709689259810754572738960031762522422621070677472) ::
  (19529469771404960660361995252677063328171724147179586001399893001947040204677, (-47993421967787212856503638217633154131830633276064660170598655267318796795397)) ::
  (37683994069981959679896769989836219904183201797286807762627277388225000298877, (-1165796223530679028676050259216198557377461668394543775160229950588463182434)) ::
  (15362101339944906616854328549883053835393079048127455041020820638252409526259, 82826393430288350238133281869836101755718328378050000449992102441826445408654) ::
  (26562357867531360164625412154152579101573166911291973402496413445918932555104, 31421452022320135234646228602693724671416817003089652786434411811109749138442) ::
  (4749026217959501920394110710457837901420416875227691258911185567329418639743, (-5923268855156655347995349597027832206313802143884010800063070648621153346029)) ::
  (90640985694027722079044423615129174348078242089417109628236459780620908830990, (-30243194031480806745838178680924288724953308618004501254871687686842453821460)) ::
  (8986769468959871718250894708798137096025670905606101459521652564013215056305, (-6331681386977266655826380867948744802580203846953750434144043024880019412529)) ::
  (57661367706958928128246602364191478758569587570111443040855430365627975525708, (-9386015984799813738184919621439471100020213573906110394710108168045080541891)) ::
  (2645950795093612742202761145376104070080909696486162486739828221569631366349, (-104868718679747034070728637311612048601150907146955006142481973025423514755132)) ::
  (21900544336065713736265129762935232511990435978113896258633351861515887070965, (-6572467906633095701720722692638546184549358404230691881796407278488393610084)) ::
  (2230332853158371395935760983328396755104354747128981216508216311847348953563, (-5527297085501024434707724634180837713595717738791578318253541266115243109360)) ::
  (4452969761793678529506053791542451316986724234548529432119808201481614952056, 70967770114638895501660285496966000955977845419831577720546105119555792727) ::
  (8646936194836854003328453209944601360559126878909378643699827539897460453859, (-2697340957012540815676515362090722831649325815961705286562781422842163258027)) ::
  (378038801559865951225632248535451088400447674711901617528441267906475203331, 14771127580697563293096866226084408158260108962319309518672353348785778230206) ::
  (7855510322833181605837374095475103640687921524358881537540129397401889011132, 5156816321405186626886957128955358136289487755348895504938072631212193439957) ::
  (180297091773522826126783397334153720438010575220431473492046292448633152951771, 139064511499120575630015860599625883987131641040488904863903290173575525259582) ::
  (160848756896435953073228683735947741826923337596138240315775310025183315778426, 106862351329920477325647707638442145071294466668516406071083515712835682539418) ::
  (74169444187888275919207580742369802914238707795623788881882090993787944194862, 86909935199913820094909442349021789029351865599027722949221842351200759148339) ::
  (1507088840079732258123316869494764348289118844919376504594136526076870173720, 1831722797451000036176463564477227782095508013859656814243445398531064174881) ::
  (5640769258926421304863285429023186333433930097776793667136184105176798816944, (-7586065233125558219961257724952188807916092181224754483513414064634227166159)) ::
  (2554885739561281058272080249209603812749648549842351990998193077824612701841, 3204636644785071277481472703731098313629216342543766170094155866981712853642) ::
  (6767746771393161277112620833374550731100058870677975070141311602836845037385, 17793373796627107352924099819815160197401868206104391359251433099964474574220) ::
  (87360538988440520116095312817753686134217619467304102752294127811102885145267, 143676515215000683599802613215695556876941147620288897204667377207714794946733) ::
  (17778920542267083136887671759376298525984481711844083087618029810085546395017, (-569143336901132835725041629800057488781752880896455042346886336705811718853)) ::
  (4207085602249650895297622779118671009052343957529263606019558839308232477136, (-2332934895989512107800532802786988625827893723281969941908854030920724160149)) ::
  (13591424330471588519829328340985927936054050112979650961123281996266463224380, (-17356921051847221014830507423516836351296176827808690070462042887955222085684)) ::
  (250986372242628565638803305583886238866316124841182240241711549737006035564986, (-98206117954399031068827460456033252133697155983774482066523753132489219307669)) ::
  (1357391818146883704170703999531108103770029385045267717974835192005473158857, (-35859681432855284690637840863555332023335168797835314960309985132011626305480)) ::
  (14376240608459868655445724531451785469608679256930511025164286797139365359251, 16305622606084203361887020926068998881043140836897960580766489775681259245206) ::
  (40558180218148059026343819401035845963374856482687580167728062667614612966045, 76701336236192642946507845208462096974846075209814880358034992606633469792187) ::
  (12108150638206702356935117888897752790772108904043194594493369605794714277716, (-3627085600708570881676003799799189403003270263077881862844881330817473035617)) ::
  (338550051883012521106457993729201542371900565345019182338362445299370894230, (-6349738178216173830462985373108897836718737382178877369756366029112670380144)) ::
  ((-2752775200279575699054757989246773897595401311187008303676130847889533745511), (-137191611744498868480016321203619373554803382594945207517696116924172317311724)) ::
  (5704794979094748020535131475076241523872451513936566626716603696852748589051, 10782006376836873083777494589540582959064543150194628150181230767783229270122) ::
  (42106823558232524894619792426535951745923857920294862787536492343742417823973, 104606480834663430320009493189325338375852395058941586180682718511849412535639) ::
  (106348602348675941583516586060605355007676600966943853261706187784259611939516, 42707270320083931076226928245924946442643499386380835133457028476519357272848) ::
  (3375943204418570744953284833602311658885553780443757757340424429566952225439, (-9949135977531688539481226803624284822691567491137384677211417676956491964779)) ::
  (4846523682425043922072558706314662531528698258869396581609545816851439542436, 2740357027096335347257099794574702164834366838705212872993068930300300251554) ::
  (5322437789211662739791649990333883668465871841232649720047896166906476475191, (-1168193617042196642820847985406785674449290716550583323154038725901552797092)) ::
  (6478379717516735760838635934767806553835993093754867852020793074139593184090, 11798409878566820132932616636132895201386236353540813126504656180448704398646) ::
  (15248772550805188776711101410880957754605611578512314614120531539041734743057, 4496994212116721556000855127456242830131965927377725812663606710788768299394) ::
  (8172697290948993946048762822031064584726733485708242934181095658103156591550, 2276601561301719987638826972987434279266658125523975580528069064055778227065) ::
  (4718081781865915903370154525184318852978136213911378524355152629325457805665, 165071969657922441299160714318515815955825903404733093342021865894006349367) ::
  (14061920255792886719112919119754037912543053327832310636270283310138961100, 4635238837709363348530037048493638869143873009655071735413651853193793576) ::
  (1485971928417087628849848299846043467174409159939714099296870276900207585956, (-1554695719507801575294214899513056150044709718829081648885705941488364158721)) ::
  (95309555018241956522358989410093561861100328338575837037971146289483944771896, 27507164310674371405092804495496502865137769304075824292557407388585349853568) ::
  (106041168325452073144503910037864480107808996247336700374288248262942248924774, 77064193817273527429507597569052429217568006655838221666530089084077162160533) ::
  (55698155502621353575095355094263839433651428649152781891128566379741240408069, (-43311702980674674092657822006053846659139956010728206475894170638482603070351)) ::
  (2696005560010338460025145871702570057254451162033490945263496032205967359615, (-4765652352069080061513757606101955547793955166985776320911241612390291000410)) ::
  (12200856417160416845112387872647490662994211887296693502538324212975427564694, (-134102350866856477107871898335987976071427942080666211388391932396649520502114)) ::
  (21143634101558594138256242070407146772712626401228144241841099947896765296464, (-16141415992692897944503206546822759558305026703104465229476828883945089201929)) ::
  (45578784591056739020888785166919786070603596296812059390205319894978089060724, 164393226944270187616130944943700325271251380975118297002454433200761821552) ::
  (67582135259829925943465546103701225228587050735394237877873080143586568158626, (-86445613406547030330102895887756435027297833751882126315656323774971808013413)) ::
  (26874872506311002526145311290604847043159341324754074484037413984084847260550, (-7793555510902346808817542409471819104855097239621428229539322786611715258125)) ::
  (17448357996879238870961336059148231281405977474040218134393572516901632112944, 2215289282259696267386116112136196884074396407899953582881114202656368466372) ::
  (342893315549631878556299056939648980275812337166870091500150897709637909800313, (-10983625196269953512651994075044969996654934158787790249687325443899708003568)) ::
  (13009537336124774768249328127665792757152386381200187279321044963454635304018, 4123123235946348865698875965514389700532890403502559156280384612199625246316) ::
  (288645878214948557230071713845559117543013636481880863450384580444166753804, (-39511495813867899079426171840856968242762271159906029600609386769233531842)) ::
  (254848474451046345505100580073490611669700523694928101639384871002634821029647, 16780550373742191508896251529413449662603895502439435997101111968829070658234) ::
  (1408247549857539677188462535282031933756579840359656558430463887206675781631, (-14586519921538988968092850926594425613402208096235456847343996649614997421718)) ::
  (10607396159615268603533104321293129788915102538697270979572465395241869083241, (-8861240892069881203524086708961167340940656415003023342764558653548705754158)) ::
  (13406266845560339646618262163776285570422731312101173790128789176761722722326, (-107437056518886711854087771617514031489691798311640776513108296102691113907603)) ::
  (14305958660111192331607135846340846550479305079699520844867234209722877974634, 5811526103742000497776963895817565420058762248035783349292333696800181657131) ::
  (3932300918623484250927978747656326688669741785384350997076267530029972046419, 5699319539254154637461654187323409983626638839401080465609288677830349116739) ::
  (33972324620429267188398290942480587817583812486448732731907669804026508950573, (-2228413716393184441329632806073521979912549493620536221184829209181288200144)) ::
  (6268345448766853150987113483404274387374171496901825938611422042158088392322, (-1890595286797034564588981802932811884054737447949568533167043770187059022420)) ::
  (707823433517797307611339408046091111141074854454808320590543531733037378922, 1283852707110692156552589311851088831245882718983651431082902943083037907309) ::
  (180706141300972496803590660525324784366241433171552762427782198381559540730216, (-56972419060599521594935398843466106725204250738667330638956154579292684914055)) ::
  (31652261372741762252061306720670294878361034516520169014060613419794705463357, 4750489423731712367256643762438135445653475936994292522080628878216846603092) ::
  (93825121647310738340181587826619395742693376065153991231808734224989633091285, (-169368735292663960105118980218110746248069907660705046747872084436183677782712)) ::
  (1679768343588413826131402285137869584016546230450826120739528140468838486426, (-1698420895220387204883629445509499457125157747648665571780823471208073278962)) ::
  (18812172231876238205928622403940822174437038507343889051869601337191450456532, 9841672272292515578499274566091119610538649014117503280447430554497970182673) ::
  (93088506166745371859288449325239638720172614916944282909090301278570972102858, 22618461334494915299069274770384086553778143648699224443443708788112099300794) ::
  (8046595248190609801200169974393095228772265359829927865224421527803718443662, (-17253347421928148319757894764776239133724083312343982452768256290768973020689)) ::
  (22846155539413970872955018195144241164097188089671763950428049353201194958169, (-10000393910674810748544623957053470769039851588697253063065285157613151925443)) ::
  (236353056604939487650298834319615180642809972801635607483572791515946635259745, 9216956374369316660257443336159915756465387266568973079999698876946302126210) ::
  (31846615365258954615276825497796486041595663560534218910395112889791798211309, (-9479426372986541679697510723607670938818288735885359307531406298288377004282)) ::
  (178308642002367478114122322950016698837103977456143289386797283437939878243552, (-24457920055643754475153376876032829125265284759197430266344971353157174775139)) ::
  (7259596402221573433279098975699045833150548964060233173332717165326349900064, (-6152294467716178276143249152753667269397968235368896625686906078320300474889)) ::
  (17596841616908095935189533846758239405796386773731476814416253538232045587082, (-17657815610152914355549864094664222220776614056340325913762575043152143808310)) ::
  (125971337447049997280269795031960047955861097526436696071746271812467136080583, (-14210552111312774695702376983922902274856550380196774646416941952175980018777)) ::
  (7668870061128921608462488987739499647444497034292895702455607987930124082962, 2264929157744329424969182287039429332908770601487129611449770522729710597283) ::
  (6741584106816145809826841262169149699255514728756080343793060370274772292571, (-329084556095589900436591662273282552825807539554542787785197393413409507986)) ::
  (15162234515715450963127172002404238775860967579807030229751844882169507162283, (-3693548700965258866914812356814381307090077774100870609882457384215203454271)) ::
  (17905722810271752212903244541219498771015981459476178971564016102551389714290, 9326042837581036428705791978695481475452774699640122651871999607812035114924) ::
  (10946061747742686271123186658204121890618029903569404312097070999851916615404, 4877634734177814255195533824294198114848632497315549722986108683898039596531) ::
  (35421932409607183918494403440319880590020959111687631270740627130750457223888, 2391935062349170877888681731367688292096116479667615430404792200847860228976) ::
  (35255422105580115958601332400089778045334710311040705370882972810181544846348, (-91050869264962340757979247240845519177208406595693946005888315856016929657360)) ::
  nil.
