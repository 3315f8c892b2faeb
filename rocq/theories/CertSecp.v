(** * Certificate data (generated): the chain computing (N-1)*G and the
    quotients of a modular power.  Hints only; checked by the kernel. *)
From Coq Require Import ZArith List.
From Verif Require Import ZOrder.
Local Open Scope Z_scope.

Definition secp_chain : list cop :=
  Dbl 91914383230618135761690975197207778399550061809281766160147273830617914855857 (-26695264186874777965980934654044500003328157133904440633869073048304924260528) 72960544198751070137407653953064356484142421793117212772781213583140490307444 (-27385395093115163030257761037380459032295473848319340750848160802454523403281) ::
  Dbl 48317604920791681227269902149572831041666497563152549156566744096979700087652 (-197692412952446247857518688960289742997490540207296704180625957077762604609589) 20161920910650140572019660575841911928780211645271432676508983164359375156029 (-5767914678446550851565314800732940608554994883195120850202271426178737036540) ::
  Dbl 68106669326848163986215483068199883287802374334073516115086955097631971335277 (-233348538403350286473646450762715633753833738340724427851800467232277513205865) 40059026807003928466602810320518046080237302829608196449418334782284102379358 48305230106634599541402499614981165001919832355857218853751380507980351041212 ::
  Dbl 85133781845643327656982715620325597370400605720630428769419861955027426167303 49679079442257807544460762331161742191506749814628776355817113708303576632027 62592884013754034112825206027597928554311984942241711318728885464757042234347 (-60875420154389695306957371077483671839376110677960154609584236780746737602524) ::
  Dbl 82569378594810154217025225069474391492135485767273845887727222209646907018229 (-120643312969896878683616349036641442837639621944003900156175897218509453633950) 58878826061771752691852286988475417560995720098032826365926856916465662115328 6146094330671766549285932848160789856273537286188792933824796515510264274721 ::
  Dbl 39652784492614148245445807815675849953445574802016701539438166329387790442180 (-189836763952130467909093328761169988575516447872683273573259703859288073232429) 13579021920877334325267268641566465146793957563046999199116845853208378301493 3077208641444209588408134848261726710674920027917994367788213825847051768432 ::
  Dbl 61220314857801869579268608616601817644882554966512523803381782535747617375238 (-149314441498199839795241996248388319614561944985926153209398707520783494433209) 32367728883507836822497284596998425688289878801862375140240975144956800650560 33035692219165814281270021810714938123166927047825445983336721588473737875035 ::
  Dbl 108928781821380198430407140056434028761844131133074767379283294215857709074832 64778160899186043726121394835969646882557203458968860428449478036078324923468 102472281027519222923461716708437292403089644450909034017312779582501219629924 (-32981332189342101083372283530432872834252646994587664129231090944879202033895) ::
  Dbl 107410325459694771408524752147101816535969584232060448477618009148269124154556 (-75200651084644105090954748175838680551581004492505744458498174193860521213384) 99635286757046827471789774618653887809906754976739962432273295093901861405117 25250848778171246061632260540552955310621524508669007074772607670697126441247 ::
  Dbl 44754414336792999199446601134110616704793476196700928937392248573690748541513 (-7370928719385185012222861048174596452301590544847243026146269323682113960221) 17297879465014883761567512178105294161238225258008883680510854412860140307048 5979128181402922268724975358777062031702530683072596001911355122411564750291 ::
  Dbl 98856278838371374844268626728528094178903210161041361192514408500190731901187 55795602117527275403289068855302835507782816195803103372878757516872918113189 84397508760213630987861459934106158460197807234371100119944338464098384925126 (-22004837904384006825028924001448188685116832285793158932073434948840916260218) ::
  Dbl 48978776411861785873361483009247102882705448448054533538359248834946429607901 (-30544949606074596304102910280857615372048806592190278037550437880896215686299) 20717482123381973356193174743450517873130588026002841694390423446771352081586 13343138380498922572150527472921181242688831311064340192890766636864965444160 ::
  Dbl 91486814191729514014954200420253291920311311676860777346508408511600615200379 148140539866129119728953519677276207207455255368792586485666962226393711011029 72283324587036660399059017604369273288666230782221871267086096837423866145535 (-15316559498406771035104255908561118216723713761724629890990949662705849181000) ::
  Dbl 12377846393236864844025531765714404553885523904609533023369117992911278516668 (-5347954162012487121946673434618239127556984267172277665605476139115441792372) 1323156722913603746526927462011222576842849599467542349408836191096774125830 2374596932889425673243996210781263015583502956034466514430901823914241340148 ::
  Dbl 3164197147782078312847850654792817808685387175134852278514282125034953859390 (-1389772969195486459825522797107858068079145636266896179270018306230578931796) 86466559641326831720379076747695948058959826562055595540163138105019075317 (-706701615851062005034049260319810908792221286859790079830947325795030372873) ::
  Dbl 73939015941066865043242457747525936000198000990912239747920666650062410465338 18458283686118849058896296871438430968153383513208103323154643485341155175767 47213744171493044295943871264221913056230489639772894992932902982879335458598 5790998043676961506205946766365294324877292877791161417122226391393944527380 ::
  Dbl 5381930073291264631522279806210223788674275009368156021179807193642282869705 (-15388977329481297300379412539255426797416549240112308000876097074857253298754) 250148101693136577767615626308937342585439832859275258396384562079040834288 (-459719905936159697264760114724981099374639056765421768175564684659272336846) ::
  Dbl 66454134667443660750649533358810611539282931627684183989730310634244445796987 69999623399912090462858397037393950762183181518137198811628590055042174678099 38138633161267364845125462865005567666018042341512127821175123655327948956698 (-22823962615429536754242761155716346825903261214958850705609724663232197700935) ::
  Dbl 70135914722438173449087309128031904912816369280149780455501651306783399371384 (-107050467098611120721709273940466565091654945293302484787033799285014057638653) 42481714997572249951455265454234569839565982330398697978188882654555632528348 (-1092185651280972180986439812750592231131430761027478643646602094661741235845) ::
  Dbl 91078211961057148209470410355693943091519935139889907355231292074658678158592 (-43085434687286017401234715182482698449697135804797955143300765434041353554004) 71639096838663438170282079844939775215390120442565831646576301802855685478016 10219342005781971559738740293462170304402298943924311178908342156436292374192 ::
  Dbl 106969149730546052974587590016372645810539701729745400459054814143812624967300 (-40439637349313888693237753459855041872953185452472625830265382682161317512704) 98818486387483289041492017465437525145143914364198480401422566520367570060262 (-40846283806400295899809597300314134472103731157925217209870301283609847270755) ::
  Dbl 33739667353762947183769655216109060444506856540393724379335654693999236277940 (-288857930623489472577867770404105542344459553755291430823941948328389407812940) 9831113339785197073441133752066700019959488682067024706083457533858272154343 (-1828830896180289799317618070846405613034720979081434241845860678283921305389) ::
  Dbl 87168095265319071420436514955703183410120784711312827459601158712119851108457 (-194788710842866221325796592498488797094347497216934756699912618978628128802853) 65619999451007853418733980362625273196983041989213275996017268333108493680508 82125961028339393198968188167202089162157560609154575012615244477033300344412 ::
  Dbl 84116571768693350239259387616313139131139433474611004982228490252426025112949 96993094784583927268907000365202876309124737806883148086345653477233027134595 61106053899902288724353628005747057932142712618648552032983506326220725883679 (-34338174529799178312876775624773424235042435120671388033830138709337281451970) ::
  Dbl 91151098117450264544098268442969298955681037934283898495446418666292696218835 38291355610623912109890665357129455702291487446511928161048431486340222265266 71753802377541576035921320912583431635555594590227170791549336534575962002080 9364733186873158210156017526627413123790072887162934162219378457414009240190 ::
  Dbl 75451977846535106163417330022814014018009731788237110873376298876100431868974 85791314046897331397884323084599866018683292509892608738424501417917650874483 49165715883113601982207745982059915088074616272451918909132531381290106325323 14630696522262121936276362903494657751148505279883704477764930614248264985727 ::
  Dbl 30972561931425742076809678458949342090182427941776201436575575108458439418251 44610187590517302861623252417988661102850037006460278706888338584580790871589 8284672976492513433562348798187606311081774401809628544178595612151944279241 (-15849550600871954858737136144236487980410267528779594886924428157074608090762) ::
  Dbl 86099671276214120017689501890627295302932920740099760864461736823539346528621 (-30089145235040185249494110567792357686229278976450890085599421365215341958280) 64021242234250158153086899031076253868582709778070782641139544475672401193105 (-23357963183936691127953037064253240596684265749042807492551626457547917044345) ::
  Dbl 75378935341499056276876303685987642591771770232299503207839120709718961567285 (-247012578815581866369065487650435936524570765229039529525220640487212346644366) 49070570629161499270968107772509594554851690768039153096902461691021015738232 53777597332133255801072701142331691900879163674944948238358426218823248563309 ::
  Dbl 64197055975615300735194405360929000206032590563426258031366600816494679590266 57247680377001997452661656022880488316233131659426632543898346160680197228967 35591913256610706368707392383164014206741298950050595378326604217038843795330 (-42587201439920069481880993252549030779689444982938066599634460145773201038238) ::
  Dbl 99167043739754721824728209977095675501782603311963005335592139540170528871759 (-259116596883899426216046838609065822405441698758151548187459378680600000994274) 84928967331502299402888348527722189619691890041090379347474209742969268733419 55331673250015071042852400800928720490823905191306425965535533853698345551916 ::
  Dbl 6828828356235034177755096779567809585922363632294488457925470635156043028645 (-23567859154191453707990757408664411113231992683713776511448777245909336486450) 402729556276901030528644024095907585266717786613502740178618313985839927151 1788243825796588175230483596355968258240170862984334666474720044146346927698 ::
  Dbl 59163772085326842407343125828235374157236350352420030293055353995619949575274 93780793975587182509370160726851783948695592004617470948591814411886519478732 30229629246869525816089597580997164597284519793854575583618316479216730855650 (-28652279158830586260088474160404915024773089232886987873456757464017281538387) ::
  Dbl 89408782477363458141508933543250290384511326216672505622116645189037024976697 71591230539448439744579425675783465718296811838680559462837500110845095715836 69036930214644571556995076036305996093768962101295745023011198933840901614552 (-38949279441485886818643820329706384075317295024498398665855495324264502491284) ::
  Dbl 100445279342650627735153883749840525970618083648508424830827738559089257656842 (-250179501301832768866849063972122328854221900999008837889089169426519441589817) 87132499367423655985264287225418248678508065710228146260975181990065296560944 7957460237001604817511879387459187507590295827812235367042296101214216226557 ::
  Dbl 106151261722819299084914819603367917313491327771008337274150484831078748976333 (-82261324621455441053980222976204904151248060399034081937358183975216254118864) 97313127689167957238477214183797800548121442770893630472346666972272983021752 2598210330265083929163766416547421912870448190157617130163957303426597804410 ::
  Dbl 17898587470596434144828533400110305159547776222552007480798372287453328636089 (-246353744498218126054434456995236767484275111653607672133144865965101092020959) 2766678065424781703994624659072973928649974110225921745950336839978081047247 (-1378154554816539404537349130971334485946693049864208728476853636630999906127) ::
  Dbl 97939938825604610569644888684228615649257286083964802459921580754979783687629 (-190065338804421550137011230453241004890522954518265517030642767524597254613410) 82840129065327331358986358552432203440139327618551094437196421408827925283453 89869297323650414894596166892062388065107592710261636220561238205139476128459 ::
  Dbl 60819651409156981648487538606901603098387526447873901796516170786671116802807 7720797682145577989163377466549205818223694661089060398565831249196138163636 31945446549031505834868105906401514097603709050651705983827906016382574003317 (-44807976522169113260359294978568175907236778598191883530775750592398718428414) ::
  Dbl 110920658985596613163735171846770308266658337990253254866242372551913981161688 (-20344683724271584897481808198079031770583660690289811556786152613269338635220) 106254172205004253660317537393779341777095585431219122638438056349777573763297 (-24477275877030387677004106816813487425289338362384178188180511155692924053690) ::
  Dbl 23053010647416858154505348969298564575133866763988071752414600221742658157452 (-303109090159650919349042322944499547740363599319855492638955413593723856891253) 4589616643160524285470124753926180846173863250067390011184705508498109227698 16021441416493647200407618321549725742344589949170257427783554821440645205846 ::
  Dbl 20069363705561817377190029422544547640879751731316920506351593223555305740247 (-14798927566818933444304331274654725939902736237701048560825418488170045011596) 3478470439553297902539801947862667652405713730909859730166130207611545236238 (-2897402952030407990662639226245869833205548418456206247438985233275001227095) ::
  Dbl 100747100239129529302471020065821051590720258949167133294572741672181402489895 116333091538716048467417128789213851821050474768178565125227778982463121137135 87656922622674212924939060402348324186245963620025811451395880169982351602278 (-19188713279374064055273228788711663427889240659864261333991605043310758053098) ::
  Dbl 58555267561751838418282732531574186227985695656758961197418658542946330242592 (-92222701131463132644802579213480838399341895189993026930830263636514253007645) 29610998314411424303278970403251995906858096157471093269754891225008330723571 (-12737450337896982820523136400710254492280272825827183123576648024501643158353) ::
  Dbl 106036887369702160966951144305897600363453902684059545994706564135441003749457 (-123876798377205339198386601177616715050037440538835089219306401545557975815303) 97103537531054125639419164417598339114318444201322161239303090102459822677354 58268607685395288202470687731731008228677929154261687359847213069538657747288 ::
  Dbl 104042927789582597965820538741634283199198944373281534398399433916919984790053 (-13522795214508796229420724566034696686075839520996415767353087472787543923131) 93485927184909620721406708143831883100731940342769347994232329436607176480163 23535398223152749345935777760890770325904454002064907662070428967381625935841 ::
  Dbl 52669244075871766760289402009559798681671776232081313243626820128301120466862 37432861184892224251049149210410797798571227676864994482855598508586992175600 23957157089016088349903921625021415994924844228485757212016184518536314520744 (-2836398157980907061256911732919019321679569561316976863974669872291531640444) ::
  Dbl 90596047335685125853044970906225896494444123025644095129831209336696989410884 20095752572688860935132863562548354220420160765784305869372559351603498565768 70882595235224680743766496739566619094600576426364934254270883720824140801824 (-17679334526017598310501459125699903116527181702476967636817402118274757532801) ::
  Dbl 101172566463276147644869597514112964771530969995729332965378724361544785352249 35508697227562178380615235484510747351736287620412863762094613860416927154672 88398855847462509401319491068405359468946916128963600685059509465367615443448 32374189222700720797840810413670898820098969216684821095789684112815479177056 ::
  Dbl 37058914632651976285559164555141586524330956343313512712745692641463084734251 13947127740119115119368312015474211655410999102104301680263679955264260636905 11860595683142700011751413649956261463118712399489917457635817029611478501428 (-35364423988678285341767812988358257005707884149225023070953994897224200435217) ::
  Dbl 43500834660097305928123035569620321227222687354915511264679388999044297248193 (-284038037528459663171038800903744377249602411356627191712336227635043175882409) 16342417073473843708609694218059204146134362711069186226465357843756431993320 17438860579340428672195911822704956792911536985209598393714492008503380138825 ::
  Dbl 20210674680614773339994517544171232717946176741958774863410310548590048903247 (-97716453922524568379797804371324432356667289733612190576702967328192042892471) 3527627610280698079560094546542938842109794778122370539065760902715801783436 65573920828480086568894446949709815716450802254185123719882569145625064325 ::
  Dbl 115467724647237522381928273385631541122959086870131430129825317486035612686188 (-92529378820560691798558953621581008525628571483142684807200655326406820933325) 115144268689069629294602582705667707391955510526923696591583600177096407070751 40947281817034929676924493897506601081420496485315031784598591813059537396314 ::
  Dbl 59270167150984927621273434084917459206546438911072792756680241794197325876737 62484470542035699097697234458930463338822646128441415040531907619660113495875 30338451765093268367017461648875754180017119533071852399156402000789594063143 (-834367855916360180227793710364114562717809713455650956885909789176508787305) ::
  Dbl 88484645535138862033007336145487321150580695749024052023218376903575198904048 (-265561838872425672746017675591418320813694302837994475278100885842967622740) 67617162338547342731167422334766538777013968813635164106207311157897475014114 6844247308621804941245267986656566388372913637705818801663652083991576877092 ::
  Dbl 69705126651491372411420734111824713177136567996212028558705903413400349529634 54069482552692207937618035698511320498667754886794237910252782186225513678724 41961456205719888920639336035698459850833732282832043712305207645124464647146 (-5682021012681821896448861959949699681787652116328738648643666613155103872907) ::
  Dbl 52270125654386624337125474888224829469646028017380703301716789392499393940918 (-413361854864835173370930954152767739072118098711163676702244166839247716856) 23595446406755690904833802602537430165477512964766030612103012970582398114588 (-38914832868156993511060499380415185003846923568804652524397665696037195099647) ::
  Dbl 16449296287778545631031969082872098572483232158303992587705294836370540295200 (-319706965583872431910672350707873296323203234552331138922525953009257486904144) 2336768859991565973455414200617853571935310729253188950941096035686910751822 (-269259330049806730598845655063119148699228213100894003416667220716447970267) ::
  Dbl 81917161406346799372976715817602479772355581367092592105690672827195358343759 (-178266305809448798486770083103753491027813436222870119612041053430847181585006) 57952329706396843185071955619058351631244281205215064118124512577642177856985 36345941458396619729790325877535354700068207312343130964602763231765271331900 ::
  Dbl 21070957485196013370228508739362092999304079980133334996993851566166723944660 (-64334890473578141599417776061068914126007327058215479370367538607385331379676) 3834331449301246758447138195290091354986811523809783084326297366511305665251 10748735926452541180839451796014292646056502474945769976896402597671051717557 ::
  Dbl 44324968500286522124650182592515942811229781202537432319383767760784934255018 42856059812669281323978621288280117919714297221203938203003753489447552606179 16967504822585321247398738066341475237361619130387151335692620341215321540839 (-29010536862494774044191409045176003260838397527851235797514843309421316312168) ::
  Dbl 22366098986799206641381351786872854337428441366764884297715560689091532246497 (-156925099987855659195228135443963416365030777470526255072684375242805889449261) 4320177545652988428343655707919751974160299025086860784461565467999858578905 12252668965744051060736109013809321466021406302701940343707452545330162411062 ::
  Dbl 88555638729008545933499006633578755653892511899050723267515824866590931383469 166744973325520777858777746374458568107758104440441687188017362620781758490442 67725707363568430937867387667462592661173805672504045160035074001871696176122 (-66008166008574358969819050444856073993111696757732267961413033694402239702954) ::
  Dbl 90239308462958633440933099558675730984523101574577902061793707634320728691169 (-172822542106684256355604447202651155474199179094348963850985438290854932812965) 70325467357132016924079467861413109088744555742414865457403890693628946208546 61322966261436732915269842954267075871409240231907363609110254421259996030818 ::
  Dbl 42567666157971865917387699729666590874687867077379884470567978571379523597860 15039912067136528833585109641448797724553102757469158405860913343146174291371 15648790984527723107790203864071959905458622971458624492524042773943316520716 (-14967336567942151987818953524488632603670235577850373856351269901254469133088) ::
  Dbl 41101682381519147259939891618967667488744547380596937692942793493329656837692 (-29845097177766969079400086109346392072264872666913460579259569700224741725396) 14589496620351651567909792943634003511054564705258323400961708047718351982391 19736391955123126092193331969585544451295331151608879185270393005445535536509 ::
  Dbl 4649553590253542680231773217390391562732593140151532990112979557899341425841 3275236841556218810563426719566779044066115904477344863486350622450130488257 186699702294279755355758299450746636350654057650981978792767807557193789307 (-379465025109770721992078252547105856475928506666898685583626037349413750209) ::
  Dbl 7376880776539338145207087764466518401331852385219747935427977687192231343524 (-2736635688310862867942228145518893690997867709281486470656200282071756000332) 469966215738149730332469836590993185764655004754736607082218277289381606927 (-2717007554440699235643951305231783337540342403967783559745849209595282429551) ::
  Dbl 78519886447493925455464412946363852511185639429843214940756733307282125385665 (-18091445963692692067048543900893797254485801997042568849791552281899477099361) 53245196699848749768856472560600813643237146930844646594855687493559650043274 15367501977778908742144790967243324307272791896410133099830333131978389605342 ::
  Dbl 6437594034031790917098755303863564885358362810612037292072831489695881156336 (-26045077678427920861630995355563187068150876517403105199011315400088641814565) 357905425318520277619790012348551897405136534981447402737968408582212599808 (-2157944886189123074214161399153672481507710118902634070848327856042873259145) ::
  Dbl 49444249301283100941237112625957847485520610299853545129739033247843015773035 (-106575257540662583503744851150836728402607614608914158736232817795059641365770) 21113133073857454986181443533571726280495905929457372307300914531225955286135 (-4683249889829189900214361511435050140280062111837908918944423644886956376261) ::
  Dbl 4983438185956002518083369988568251911484326831267708224428143207168456753741 (-196480335147014488893158009354273858011801252618228592891563277002857296230736) 214476276547232507172892396327021714025938391722349352283228545292180172921 3583351764331529961482225041387903942642324575901344747921948648933114229495 ::
  Dbl 104417088105958326351770150856075338284455688975818428656651895823028427055381 67778079094847062898365025018720104818108858025354229485973424543810337700370 94159526443830572973799413465246255964602854812266170852221076094421964416085 (-11950265768704771932184506999592348259078673580963938564966374143048072192653) ::
  Dbl 97934057700234120175369957224126468918837872198046730101000968639885476056396 179620907227876109182958094465520691525816494888985021443967624058934907930364 82830180548654257835116730885691135527770907444600762415208300842050513737722 (-61055126692854655818103292898118789396372259562360585611023204599442732200216) ::
  Dbl 71050668154072022549348522323324372091852683529310321885789946595801809900878 (-170663502966735551197638807827932561328344714164571842496684534249091396268636) 43597084035626735720486896944088156585277478557988902029400359466684443135411 50436662673778350622641451158570306224606824369355055462025440498272171980904 ::
  Dbl 347213208866432350664100463218873894639191018881217345814835927834672475659 (-968850615574334092011944073379267001801334233202187528947259267285217109693) 1041150679682813724552815899832107776261414821419592906344089154635497941 (-111113050065256899668960086583866916651050613336185172525650702382880557814) ::
  Dbl 112960352047459620327746883866322506906591278012778879839584447969563141707470 114767890205029610760023343927730918348736156267286808779597320511234256131324 110197866009086998449408074425800331431352291517473610947455419766293285042153 (-15650714036576606893731751916985868757980328013924259310815197242497120264579) ::
  Dbl 67707820783977568557590319739062694960642116721033768394146020642907526401242 (-48103352239587490245729024899613261493055134956101743682282162627027106553077) 39591210638920153910074634580380526733299032902434945031860964313677611128159 (-2200163576568548393889492602593750576503054577040995599801513365124079912520) ::
  Dbl 92992081493555882531337864844290570862398619903319191722901659924080202210287 63492941599819678350077469983372926726330155591485499371630418952457412719875 74681502661041104253030217541276481511456721375702558965590136030949329462303 8557190318924345479842804506199392160390404466528144012191351137609309486426 ::
  Dbl 103687218325252986705048279720259641959576099677390017144774315225875516900869 (-13028642441066557987555677756018167996734387738184162658557807011357810949770) 92847787053866825081140276664698096364067910772191151077937615086878864383120 (-44717190284779730550541541431702084023122152928684002086332433504474405445852) ::
  Dbl 11183790594795429710546500915665302773964808707612385541372617123300346879902 (-271931353322337637116262098600708795269598718496563376901517616422478614784973) 1080187540375825796187967203006466505360428179235454175560465573492486177205 2758308572066811850945846877142513597967268946238834456337166526850638605634 ::
  Dbl 85363691186614604410019696225060096616665294817022243226496125834925630275249 (-139465186595318835036888196187115428906916829167032203304323089972125366973605) 62931412853852739608204012101451598564993041540339661645053409801428361688991 (-1234856461404881999087765017289200591574970996312137451860049749784064680269) ::
  Dbl 92584130893276361188072922143799621845836625768631807192944097036510859253781 (-57805897957191633032514975046887173673936733117910938118449868471766129350364) 74027693512769768907416159290682636472495763538399681277575340622424318970978 (-4287923122495917576551458667664279031518949396378080460808252573656244941926) ::
  Dbl 101286139800165043269035864288202323519608450765084814127864996327863426342848 (-134201532398495058767743018150137065605884153575179960678575148620593282809021) 88597435137325927336577060472366105511535940510477139376110836406492836144099 (-16994577993785414739553197860081193789012699385467186239713106973777322915222) ::
  Dbl 16296402479854815673734520635818003257267968571392240786476747240212141972644 (-251278838667466766891646094368328532426791798647395177752142110122361008787341) 2293530892608096572561369544582896658891049601177226681076798843986935952120 13350082891474274350133341704046104040549859218364934773926986462279594051609 ::
  Dbl 25572112609171072984383640004450035382730120921195394468729369549195878838650 13520335807253120194891692887407233122985269446335596289231752417685522060204 5647475122034363439220784386859688420611339451703333805814990286668018840308 (-19958096767843138687388513827910185092392964080924647591219665669024983264326) ::
  Dbl 30706203434680587106942470418158514944989411823883316724883273578145958064757 (-233997221091635883581597463555448200804983030324135697846031477568064896284812) 8142792271755054031538918704079129375817109385387233811415359334450293494098 13107642301489878049962048133443560936321959241257613595203977993132761973223 ::
  Dbl 81946400085699663238875019786486729858356300026344742914109607533855198300161 22661237631592673849801657283850210680184312537936654591065295573548660717999 57993706921054959891140301389845878391696387088407361262562353410779281443433 23033056886759374145579385168792482535026284093244032747981786044102449948689 ::
  Dbl 73417088688628223610686518831003064427500982616183562466440539753181191177700 37408324123600169921343185139154194173550087664211513870708379425747789235616 46549543643408503168731598621355035623342179065962160285602200343330622876676 1396004831167587286338403754501946477137495084032989806560568293797057402225 ::
  Dbl 51626318904183985636471327089952438009976052405547371972831394064877603898726 27995942512442555904578734901199828189806460804310142721223506384887813367164 23017779721842766415717180802953239731181289012328468665475357746459732589936 (-8426691862630933282415144551913424189880831689072583704330510763571987184031) ::
  Dbl 72837939688827215205468114901081670282918772802655835049817424218937785717281 (-18085966468049893237015490214003066332570728832269676820649277961388658357204) 45818030342641717061663717477356531695316119547451708248860972139953081849620 (-48301129984479844469549616804873373001855271226587955315803603457504669770760) ::
  Dbl 77154115932210250925037158101849427203860937948457963558465685165618865128629 (-202192430056129999729529989905512548944775121888813102259157265722776613986087) 51409018046826559142392873036502589611295607315171360826055284898207611327981 48652508751286596093942168749220912322786012973245844978270570082581592888070 ::
  Dbl 10047900596446414247522525713535834565616594863935626363528898198579943835983 (-30809516105613788116757704583286458707665079938929614867579244323687266008196) 871910223410424784831461461260278897994317883206320869707622711330472506916 (-2318784196793501103029436957154365096241253423162471378285811689692463313584) ::
  Dbl 44256827641910968071669404821995291303468124630503881993859331666711255779075 (-76904081611637204463023329537517599841395218583051786596016246241379848018391) 16915376566973603246067034246576523449346768427889056686505390600484719219136 5808859309672097119578003426065195383797006478794985052730751499156251155414 ::
  Dbl 16405706356882989845708916488309988491394962953239924632524897763023835047701 (-33679598253495346065747408729622483864861446442879822476593096611029650948991) 2324400594557483432604552162377530629275926920316745881766649000382150735447 3426218322536009197600758931854267346911081967041962259476452641548135643141 ::
  Dbl 51318435772661653919079206476752948381819607359528588981968016402794865369193 58180025841715552685304040844033944349348277623855652074231206449849981403802 22744056761557055120864857611727124986671198372863354098188631605277663423513 (-40925525881652601156378028148901327777774588754152908743355557352892559454812) ::
  Dbl 29749740582023707613911064758687148366686450195333307517598422889452636984715 (-318160649331621989548746528132141150691338972282016650363711503526039563697150) 7643415629920986848397212242440380581749233756969705818808597775632490887207 1984215758771473946698630022080610759172644127789231953907802560817005761639 ::
  Dbl 92272789713229394244375141268233146408391176836851826762869537145330150552951 (-254672386773107459891899597395103744786899870723112416960498629987976030563924) 73530651165744474429872399588535948367498669092024028228476230510055721942160 70548985858116614590938267389233071348457964052072883290874389641320683296362 ::
  Dbl 66300452820967161934288442070127603929350533464819023512575695453426568524600 56920521405675129138847666856223771953483579321559489791532422841060421259251 37962438308338932139406323832787450057596307418971780185261670524144546267667 6068034539722376038991636436332198934696924315924214032984654443447817096557 ::
  Dbl 17957287246948141119436350228002905171707371823148196714460592011692421980815 25369891889133259574770840757873197356177466645179549755691707919597265878011 2784854884244425225320771871019336792252237021554273167783867440820939670618 (-7048243790279369813537687079514919198977911438640809057519394918185717140787) ::
  Dbl 109345517757555365290893221028760603693068626510648812027523089948405143376314 96818781713942658140769144207670826158998063074545777523765464598853773676399 103257850621928890706788296828055575609579626426126104580539236900532996146563 2716168571006265019164406392247928004439042790046843987643172814974727184873 ::
  Dbl 38182977552867277256940882700349548675584812500700278163785070687664740298590 (-20737079672553963545340782782878782452317686067521116149584783866504562593509) 12591013638373126816858925440273213261104323013901780309694658206174456736580 12936226575151397156580537088250150108213569946876061119546807858599763288800 ::
  Dbl 44808293420248850093840764990712157154768009415723339063102262571802233506788 10782613618538228736081727535970868546261481365381100445819462416658540137276 17339553785234494368528541950567740226897741544352054462219957693753519910932 (-26187345559291629174725831007441791269512899911694123731808446035834847342076) ::
  Dbl 54807629837202959726730427814087496258987821882324045004964312286617443643052 (-159896486265030782978642851393932102965388921437754227623909075090415983729840) 25941981945030870569890702203072969204682669172760888175752298576076263721217 (-5095148531633548262359533294415982609839490558603271640415576086608963934487) ::
  Dbl 4556407853897540635493988414548293874044031321828405938552538863563940353202 (-205489186764938952800068570550072775805879886843974129914830554071594905703289) 179294221805686305817948273548446976091440743801040925050375589615060907049 2024593421248698482884814445785327987218738791027938045315285177659273913160 ::
  Dbl 19080555115189438164833348440142002845741004121621237808725058775246506526964 (-4419515550409029772620902045487539023298010091223925063422128460007075517517) 3144149016584581624176372735941118710185182063594790029744122728404588186527 1007743483510174645962978361129442072303694683841522517994350403831529632194 ::
  Dbl 18613007565623327513031335382346769459475134010427157688677997423541513525956 (-16855012831269159010779341735091784220138728629480767299933873947311909898885) 2991949216219021869126178966191476080078776366417515009352418278757200114573 (-8783041995179263982774454114981569893350751326114817535297998082176590008122) ::
  Dbl 77051668121992685773912572284751425129919926810402994481043232953618036573484 (-189995387207762236521803054089199748440660191652821116191631317738962339864605) 51272583468235808596757248254173726879048029295229149037251937480926134559137 (-7173346713596031219736150658486964928521768829362231396657238186808120857212) ::
  Dbl 68816758066034674146029144768976097261987361494960744256712600662446801165753 (-111679273836553330744659342544282693778810485377344097395376935499273810410099) 40898702337197007893761743164710275602959935135078275111474565295395494151609 (-9809715649601298500913607660164022750462381099463305247242072855505776313839) ::
  Dbl 9074783056684161746901634586916315899809926225499433320299672664562437356988 (-337107149016994765197867263210631371049919903053381020479798356041826078569032) 711203054269985015817310114276660599825386880654204640752262608187929262900 1256876873305557273767568318288377505038354590760836317221401444640901445048 ::
  Dbl 97794763103561139718897079165052038315662410776710533758312912709519520519325 (-209109977335818967407220861363636956152712355772041340943397906526535295317446) 82594724332856431147309486343284752340081907979972487210937944275172181656273 81607972262646562879265298640989250530171169890102559581585365678195253408777 ::
  Dbl 1404279729673623950669810727084933667478292107740281870556971178188205946902 623714652334330904749761959210752337350091483446490366083928057939367889948 17030537855920398061552052954389578232138822358137774251395382516048125587 (-992111871209620584812878860815955351840514799031610082444997019980180427487) ::
  Dbl 71499451209715074942306074631130059831265535232684719230676775737286963327639 (-158770236677970832114584846499910517126860529696195212966034369144972312341175) 44149574957690048540804263550561404217552350290126859751111531352696766850607 21125768024191852628336415902469546347003114628553570621789234118769917164053 ::
  Dbl 112161851083736433013876870985933164377011640109687400066914420252954144378588 137202790519619174695412459117427902408918539814860377414603785959999687206036 108645425791972269831274022911557988388590112018339063424659006543145315849677 22125805640222638027854728788524984217947706091616611240877323538535021045828 ::
  Dbl 53972935614007033946788808820891449808712378940234107349262663600031920793805 60490139710757055614261877365123449533281002994798410303091442506951160653109 25157830711762944123794490259590175893737920106415931329876562466615326246259 (-13216076494798330576348365960700341092799662142165479325523976543695404829983) ::
  Dbl 36202752639066116840756088785904289260044310946323391871040361876485616846299 (-56182110549993915409284057901866620409517810420362244742483654078906722558122) 11318901898032515440408204974800109520545581580630631154632596476068251447864 (-15649618571215082859619377980098175883057362581857541910348977008247865493398) ::
  Dbl 53201988091824387304797023874332497206164346142151041855932591889883145542584 (-186186053518001105854945328501917017082261333971195627369607437363414516786453) 24444256559889907027027598868707430539381922374162705044582263809384137107762 34085187775558567030304436710907067268999852565180389549813530874641696378939 ::
  Dbl 70192474170986981470991128253306901621707390581618949336420363020842899727422 66915477769555754282470934558213703054226340527208059546160725744912841587372 42550259371750421251391752206560283280280646141174189404429806667528718964220 (-48951542441265463844850554660149598082996415989454424708506065516688440781716) ::
  Dbl 114621218397826565615096768069463036229698855116881010563598716986242160426525 (-264392991477571099848607203872727744962315990680750857728021444684920602753594) 113462187214498225100705625772374642498653397873063652524660798739208799962772 47975023608406295071585358670196181456949983290976825975348248279861984486503 ::
  Dbl 49483984892412489841565366822638415338717225896370709245036195943794013168714 (-12444014497316808566165631860990356666112733826714134418888652366963691464089) 21147081609469560411586806126717376419264233246897048545319864214774550950438 (-4556736829851511810720379736807683796335748667930190920185506941601767457780) ::
  Dbl 43865607645176538148983342399402776561350578815209420543014955446705316307229 (-101277869532244242798359410495534044128680523790089092629748331864947299698778) 16617642420605562062300595676309558119236619165400306061816426771223503040309 21097147879049032014336500978195512017352244759828443795988813818606326918458 ::
  Dbl 36187719780450133766296232373528204721275445589953115508156316653700741705213 5434350297005425816801423553122777766483774319289943474661151989657845897886 11309503710779874476793080669517705761995626568979228786242540274490816248881 (-22503027830193536622559567979074121456927749525804920351225832263950084787561) ::
  Dbl 91773650532247574131528436313877209748720685059160715301006782640941974067421 (-157442107420182499660786590759963778446317781671994276676146087212150681408508) 72737291359804107133388678471174866679686122849826005176494836173512895272374 67069831290009116806877598864221158386040552199616281593416316204606718389639 ::
  Dbl 18090343146320569124206264345544080651700914153169975726033026193154740155766 2819047127510712706715098249703629538034226299108552390521311324767644144851 2826276970276495231333428416751944011617039080247194362702491865266326787734 (-9376830441076675157355795577277178890408246300216186930800554652038470303384) ::
  Dbl 96315879351526400466528349740135290116708872015025565184046496820820207152491 (-100178090988735871722370063166279297663629813686290826229059186177174005158704) 80115564684605255059252480854571763610880852021360750334997177738726604595264 6961347043874516229935205663496754023420360972506992768211759727662762103158 ::
  Dbl 40255010015665744944126439063238962619045993313228963472967664064844356669235 (-38986216293388499872289965647327264391134151928508123045813817176848538708151) 13994616057407863155956061045394389245910339439951660302898885316240449435408 (-5519664315126526191122211555886973462576138630477902202667556643523297354413) ::
  Dbl 33592237668889643310595709442671517242371126048006173513092989149933280443224 (-94392449923938050794678867077078203581851728636709530760808036735216743864093) 9745384499371375232315650855915994049512695546118738914378338725295666562194 (-6432584416967892243830409838632918786716143079564243266622921156710230339191) ::
  Dbl 60374619108284621171895181172720824922976066024565892971030808977812495378803 (-192443494250378845829124715441884571517516855528068540271225174548436181955290) 31479651645284811673379699299467103395842809092557017177669875473474796298089 15775129628300615694912609471598550055960718931252137548487408752320286402891 ::
  SubG 114229150601249099498495428575327053155638123111605469503072631766185401900990 (-9667237104097089088957938277364718356981051010896978257250286713061407254751) 112687308200651982837579677823195928493777695505967345283477957830855829042998 15794031088736245415652527157450418378257358061115558806114607774004559269771 ::
  Dbl 69965134169704497074743639836054521320304024742016545693693813249123163785622 (-22527188460969636817162043352035672316972920153396126556826088793915641213212) 42275081412100530489024057185492911319893391625404253438743534863369478395467 (-11991180864687083695078400252487011292612730166364993143515138730589483771849) ::
  Dbl 76477198441180435582324069726677312125267369491331609085513251239817278269141 (-63851563140144649527658558578627932554487831644984713753953783651090039127549) 50510893446482671074245932106319116724787634903721013248095757080836202382772 (-11271093264527706692987424871937220307062888162215756670802700327570020231392) ::
  SubG 87702310692320613072806681605670783473808076066471054843124092904011731168586 (-23252551850493778375687574499276739046598752097677804636492010963281446978971) 66426777091897741993511549336077943237293034959875325308483757942851645403803 29107546682125947929588411556402992237354135183816090675953018323159267019748 ::
  Dbl 60247669185824953594940746023333443384566253296531249717626377521249357417525 (-8213912093201855650186478927124352769856747087775729974512182017759443655764) 31347406081302795039608638787284043529452270482674766871667360799191243898983 (-28879904409280798880030945839945740877673623736750645316523797951731189882720) ::
  Dbl 56846073310741035621614197961992622425854659001749077073837897871290547211142 (-178192968691383151720262926299185793751644572195625111160459163512268059537096) 27907571856892792650593198937567414101329934579372154715224551768513682021413 8584107658002592869729467244251492253189251397345412095187531001102608939971 ::
  Dbl 31794797242398299539642836779202081203446220766981388825468727986566098489602 (-163841633633730535945045267558862009126750039869750101900480116831457468078393) 8730381655117713212557519207057186609101949511112257071018698833549409032587 5535614926915128271114398897487822688042191612785885535596578564800525171824 ::
  Dbl 65510359302458191533304849288942969500231875347139258288723651133104705386207 (-72657217454691312714696121162487644173905090613719753429337096748194614789235) 37063042943646263856156179382408922189496933902061149322728401156318891579544 16494624938816157017717870300719072031531182819842365110848420225103365003919 ::
  SubG 7042101000714436500638312922022361318540688861334576198559584847671514397161 1157044792657666930953991127684995393974650542701938930212909977027964639318 428277845497942429503088946540437361768429023453466017826815006832213290325 1572791876518308866321217069488209839016083393325657454354505393154973089437 ::
  Dbl 25200161565149083318459496874733730937880080683042373830827031660137989642289 7827037392336671033378512736497586564056028784862377121987369717901775629561 5484382802767158261127067728377904816937193405329582849836063596103742050128 (-17682948401441876462723325173033107096422551481310250253651067686548808671874) ::
  Dbl 14436852853269864053505711413708460879608361418836723066584969626432239946945 (-202697444746905672832595128757935812415014993250562565940274048487830504761039) 1799973743282265978054460622394291633622585379097290029015853328020030698183 4591106198352754540098043099935838374024772267507991749122051583969212615585 ::
  SubG 102063581265331565654900921283216294528679428854597962772309081199198705628811 404003592946624119125600860731707436913365993752304176817771252370946431712 89962748658548886833353961490768239139640846493229422525468021318661394502452 (-50036517880930378226610455277239829461716343802618498966972444224429254914715) ::
  Dbl 94873016224577908439925917729833947013451312116789341527056827710872663453228 (-204332024381160577075554519323102550727624618759678814240776089302857070159245) 77733196342123827110021469699462122757123132572166003663754712022125618351325 43556815804134086639727858276935246114378569509810425395969013154335880329541 ::
  Dbl 109861795637147840030779695793838398304701351806460203599491084881878052943299 19540946222483359693443468743094092378645803039737757688414744247272175179331 104235222113332196962083686543062195483034661757410482942606902172869282352014 13774100266815701684704750377551094206631263715830112752957493880842929749563 ::
  SubG 5227838913614224837866803410274466817909633930348703689772926547095766666552 513336866931587464583720197059494382580876983626124209233747453962379445242 236029074928302196150118778418448107206725984368894958460038909112517284619 (-643764496944089365622113630672028968300522026973867725630088281454253678415) ::
  Dbl 51243439699107111398945833227586524769395161725413065119952203311739657412388 (-17377284901003615911501620568283262099486268866280956328380559212885973922932) 22677629616080749194478597078022953574328573279161420917347098202494976778521 (-24635751088945340270848096551916070472299022572091918733043692354625071151084) ::
  Dbl 108539266827167491735723087575221654312873665074688848554043180882077903220013 (-175404178429566062402056138238098717820859449023327818570394423219814169787053) 101740736530233399583731858874727551905308313062784745123730614155787645522968 97616879150383384278360817756049742483117829646201268878034607301453156529683 ::
  SubG 111464936995516522164700144166717002547862590442260014760223614794592458393142 43879449696512696128603646356912122740822067823014608400840239546024493643036 107299490502762766410679959016247888405078158076358426657388395818339692461973 (-50116849911712141745588352350734672450800753867260426857703626040419045074506) ::
  Dbl 113607511288626367550362714623679011653469035374128092782481823114091938205785 (-36000375692454913486489056936860211966502456796138869404103867294270683046626) 111464148425054494920449840168209714786220192078245994856181348122915674266991 (-6002773976811121922624810547815610991739812693369644038810642311395172472373) ::
  Dbl 74730842515886198974455312749416712004415256015431720183932592772342886069184 (-22308387975417684103666750383875380910774236188167941277299564050419119783120) 48230400366024393934193722703642738167774987196535977861515711471674427579052 37206658077424260135473624486866183060557249442931341275453303386030120193056 ::
  Dbl 68852199595092401441703890162256206980977968536101052513001549201058901056394 30578482095506727494194370246510141945928516020406078644249772309426047204792 40940839916676154642724155231997443345774837207676476269368670439543522470085 (-45014687159129706376189594275203914279209298688343361679040838892714395458330) ::
  Dbl 17039999602768816496309471200054473828263568665600742884343159004309484313526 (-182490203533953004986483182305650832028980096099747588620086198570401181922485) 2507611602613582512140194245935170418936925350336676998878908728829730755243 (-152640170830345948910013825040098507695375796052419028638795096237377770406) ::
  SubG 110052712110649324718419266839398952602108508202184630857130203584860957937492 (-30117648252626025067522514731836748549386339202553602016298870355683558927593) 104597814260754076340406398178627531565223171470698724577793275773160474072719 (-3987900688410677701398498694041258956108288931537825581850219440148073500379) ::
  Dbl 95148117840585579846391078170146688297993287147283788959953856626108285803082 (-165064845978817313506658842038604524960719635572497103442445743477216232959320) 78184653098809500639870634559003153267260561480406031241034082732333594320832 46195775532827385216926499176536873616249672773130207926886610627702230302553 ::
  Dbl 108164095784084492583907559104279089066423741070406360232805332679626780149630 23202594363363517077293230074174260036539676372695186892517067825528405430464 101038608888129710228411979944489319804182424791371419170092283107579216683255 (-39945855570045532980243541515692632477826499084790813994434516610890504561494) ::
  Dbl 108125417567326921853983178447398778343087662941822485501498044834828335662652 (-128617644438982884258692734706455253902689688846286697758665421247861182312325) 100966361356066877596907955709953879298444564128347847492331299265608708325853 52787585801494786363181745966922085996719824326765632792402423999510307206611 ::
  SubG 75675287401595183104416505711854922831279304452644929140221352657051215481109 22287242051075402537859209772187542361315713048656752263194178925212150864031 49457170701679309477097306898470788417355236035001343939821337342935407189536 646438096252388677273675627217384535744767856439605264673899670849457606322 ::
  Dbl 84348278196429389118648628226827538015461899889977249308888358333595183690489 17828328936720316738863969193949417975327991875342591784896016472677561375660 61443161459163139960274999310057991926243237104764316270151397119057821129079 (-22481630232890348881059635130283146594717836636792158727476781709202474935648) ::
  Dbl 82478997308498830295480409561824843739994280792313532700854889848278907912855 (-39769386943099632725173123675503160131749657613462961056901435666110779098340) 58749997878292283978409021700218120871453548461229992638347846806105165419247 11434223804520016691355005249420613703808796033289009472144599796568717248523 ::
  Dbl 2921228532988166215988845736917848511117819782294044161387630690881056324442 (-30827301907468001463522166920229009400275240167519765315160105017077300173332) 73697401939562612719492034074223406664922162585142612191878311849658032101 95075971584877391567666260598470551457692507164936760521505311628172882435 ::
  SubG 43285238672796637739655123363918775392069900008234782239703241939077518228446 8990296882591107907260750397590911872551718438686656868801789736340627935109 16180828062623493029407781866239309065036039919332669467351430141376303694487 (-9916368679846203342049805895934631899512131853058322613632152473697869907055) ::
  Dbl 61578912555628069854729977349749938300475327707525752910089087530621943964204 (-81733928602752455381533114169140719764951467964175752825871116346340907354012) 32748027058757452386394186409879761513957028911727628628828802262639863212496 (-17795956221117444017872978230587486563094369040765597559962987039328889784887) ::
  Dbl 65356422651886831998359129899583509616993069735777048787381858305092694472436 (-152696549916032983181364466828026696477280772813241836250446948104035551623552) 36889065651952211418869348884341455213038061226045104420414972648241408093792 5554850117540753343924278180198954269432244724618632950958993852928755770827 ::
  AddG 45984882473816906209430762764049106839972979410481840884792425699209107842171 (-10364798382082719646281011270853080116829609590848578951890554331758348061157) 18262123345895034633930461112395874085848594872828425723571148842335926862212 (-5307521263699221791292757767822479093709142386385320418364745774222886097021) ::
  Dbl 115445103494186813860705747231799089945444028312358898351611862409008067857078 (-100624043292080592022964234318940512406699345518373339437928026758802630421065) 115099157538030170054355449040855359050053643091620283231855067121745084375692 (-14372491018252501737301253858855128910470504437405925348862622031706496410082) ::
  Dbl 1153931529731054559393010627465118952596455331478818850894203353888486152177 (-305721937353058822483527212912766212174205539949272631077387637810937218814758) 11499559115635438913007173983814383973447881102093198836276622782503431250 468152738192193499696206826439135581964040906465872872895475526477574599591 ::
  Dbl 80599627465665376769671404438220312041230004369758521992094764985284084860925 (-10675452437626855612650153787411419079721479787466517356497012315750635016175) 56103141331959703339773339926787435620563170533782767976247601446858229355150 (-13308399221277856090762911487429517774760605319176852332824579554735144225849) ::
  SubG 25647716186479025053093964770354147268672953559260297833242758903410527211135 (-5763707530398472651824386406213612198972219598470937053479227865059144201162) 5680917840889841578882302235416654961145866515249127278729720625656667110906 (-4269988325724363988162810427626414774434539163614529620556533150146708979850) ::
  Dbl 83154668184003123543242979687566769257817982455016455369323775846019267657106 (-100161540851726887788307954535669930964492744926289021408865504936919174143696) 59716504696792953045549991561949807592382755500860546677672949491244403992140 36638980158200413635910841480632642572375451234992732717943983509426494550424 ::
  Dbl 53216178729565942571131366360291178924148638259267331416449670899335960075321 (-46900977592282738731047841388419510118379951568305981113620366541593106709210) 24457298397760089217988377408616517269015649891776590117943892566610334104778 (-11186752990896874594899469605608603067837701346838711732209639793678553417097) ::
  AddG 54680507957370586109097855187802876408277865758709339203615812614653312991378 (-8793337377509431513272830981672071968300787744769120848345584134335216009613) 25821780832956051089857075006883222429988130795572203458755861369198091151409 (-6906022130119269079222878895600348805417850901214337165215343504771093750654) ::
  Dbl 18187172292968635287523776403024636435029921436225520293608770161521074803020 (-174510315893362071098736650462966533602436197329900168799461404278129250952556) 2856613419732028311734047519765299190338445716607580173702542021118765530632 851415743013855195997215432111340175175712537729288806949665581112532014848 ::
  Dbl 82116444642364952719775626381855741416346901274173792773187993840093836076793 (-18150985983443514804701371313960225556008130962611036982775651301920486651774) 58234638696971473157837294113563263099999129600803399517640935271278058350276 9454542776467784028283189760360812132657270275642470927523073538339195626472 ::
  Dbl 14105256354330590164740578435972797566464116414672488768739599832694226580688 (-108979870350909603480952476144686906539606426793334709904942186008228468322613) 1718237041337236897709454597478291951841771988076928992374099019649814427403 (-3406439197884348838200902807791564994875726507242993344654836635525886676172) ::
  SubG 69704402615210071208130315561662971577463113045484590014728574069891761782893 (-25557971751958867966301833019112309954594990621416784171879760053319850992864) 41960584491962817468314299577460331336857625865234624014381485054401352844203 (-601337039028039222249933998983431050191767019214652240535946037026572589991) ::
  Dbl 13387994592691222601121801352301304262799113849418447104430697469462694973932 (-237282640065959166354203332510033169358682188875329873520046888050259399800653) 1547933027156802038354347703402547114671120754249837449859867135637624856053 4294963079452386057415975052354751250062239132654603951651427094191078175380 ::
  Dbl 71181017338615379610165602366708511120390803794183969854023222874387287643126 (-51305829583598847445626514594601741965779671668895402307020635578399165723897) 43757196737127454774478555422024883171899131653031529872876140343315019503521 (-21667681069422523659747258629951259311267572175127448852375346796716379641146) ::
  SubG 60938669952994889915899872844222822079776530180983828160203822534034915708413 (-21869953724051346832999164470840524276329553907090729741034529024521411218851) 32070597569313824354979902154946310294741819472285737201093477701893162753613 7303290595074742396867726671796872348536371350832247913667917378467195395006 ::
  Dbl 103506243763008494671476577674320832688447416935377777741055453293584890053050 (-85123615609198774128607023865293820046910121838061524262926042692584415731825) 92523958834268038874110748618722160571155978533123600857027325062485155669080 34211556447083435604525786329841011381882881603639056106370369616125665982555 ::
  Dbl 80672951792229906039884353367276685416413692669457503922764689262796744644847 76802332071537969055107294942146313827260998461164672706068133449864007460692 56205265780575308311363621092766639130923486168041885646359396116403354191855 15704203040474190790172453716301204769456361374108587696424834173468551662899 ::
  SubG 93924363685947323908136279424374733537623097452322683458285251092719465450818 26876780496141773038360371796976388075496211825816912564119549684713956689850 76186431663132239237725865705779106269416281640946369107470396765780477176372 (-75302339104863714602752043172884407647700448742169691374142219023805945726213) ::
  Dbl 68320920732294999899236701701500128033021464829454696681870294933088464084835 (-341224726522121546550202107719805213719033186002500042930146148345946445876276) 40311460311783254485777554481853383801688875636326635533784296420643882143155 62698212265108582911836968452187705786854678916487651617763347867929408649274 ::
  Dbl 85090493939979124709106303161782438928543672117558624085394251359403831101628 16249596853611563396445927339972154714099870049481037110335028681220770283536 62529247089673122003626731792434668604524141086856999915255196732647986436568 (-52456894743130099343428115846304200517466720708663742223860090798086334992385) ::
  Dbl 47844717657635328640672863906908341494737520581683399936412323664541357526166 (-106302569751822996654867948038823537811914225550907223176286655432251701146244) 19769200321166072077071097330666935616234217128335779453601477146978818541343 30906691131714853800979666100413667513817436672360333275433632915815251828856 ::
  Dbl 108443061245421208038726316457415383354671662705279827431842892843991885928607 188490448339644807926977724592492868782165565357283622561603602625591002006705 101560457279393532672878524038720690321346072392078570195614179908495608761631 (-56937170907524726551932506858754090750935727689982752504096793200878101303185) ::
  SubG 91879945296760020954611110926580850142230975889200135453158895640631325824453 (-8583919026561842796557007265247530835828717840246902065420085114352024044898) 72905881596400488556903374050433135073706675790370656600447816989714511188506 31369840609293618102411741710603119914978552122219693553697587103451502971840 ::
  Dbl 114409215533222412594657962652575739494831837612159615786419958511243079022511 73666775910421955031525099591612360798184557229637902396680404090905007574855 113042857116952435362337287144300733530723881482300209007853874887523049064206 (-21116532110085753870603703650929989126494046908251962987612921228115492253034) ::
  Dbl 2065014969746591122933871157148694298817977051599977757252045453614872400474 (-58580851315491487313291519629597200886311645230151710901808968617623053310165) 36827099790365190146847329602827545754790372449326228314884144910915751730 (-145073064754580806389398748501380836816192592059249738151526345617514968469) ::
  AddG 25480199620249503725454222760420962760694956382209979543662620075357443940037 (-173935780732693039551834202566346818956404404526327145240112266603490236753) 5606951018537567538102063568510626021998542125969517147836078937077549797134 10313665999904831393314150078496266717944342815646984119157217526851765177019 ::
  Dbl 20879258758743964859259838804306357609881343887775258923331860098209940992123 2217192378543353664697689730386599770265441585170495311430827163265095918489 3764881082861535707887351289223939187472183700210836913565094608437815224276 (-683216946050122132479460930464304389688535267102200083929137004342100070980) ::
  Dbl 79801616227592445364603517853818882998485076100004582159426566424130993413209 37304772559845599575452901343828608063714085362096150788119118402297116552617 54997694527163270096269892738507459344431465125505491006367721130806580252644 (-59614004670418567025653554142794052986483715132564819895683228263568135578496) ::
  Dbl 81699477807659593625882125996931269078383498397189205426391618079262682200006 (-244963527983899408531895197315865369500159356599148650147806465655009761788705) 57644738237378483379515839677510369943706993267806094899326502449415838988189 22247422175250648133252896363962786153811927341646508250654767346211996506515 ::
  AddG 24998597131413599812939745713577763300989073018445941664946140143232153091027 (-2737254575098545800380428596119451550658291644729051067787415702095391532247) 5396999593451715437441723111339942053322125563411175033309964197555672155706 5600082841505822314541666639769582064322013391343824062232924802445043187358 ::
  Dbl 30092363347566606943312526292771457306661537123465248576955400100855600258465 (-21264845109654231857939059280315804675214042432861587771995248717679970878014) 7820485300908961997031011546033806411518907666795343002333989987523946980301 8340269647981292570504971041195179878001468169077300347506545914394911871856 ::
  Dbl 84232827077255871460690373795452879233363085382188298816730797173797391353242 63840396051637054203618211726375950647971332335608960755514176127879688130640 61275076770446052005194574642490842958616495981213533966929064504444452722002 (-13477752531423364695510038533444876078379588318605089001579843046164868162853) ::
  Dbl 25088107310009533157202557302346993429841590601720535638721241684456273258312 2323567299788158871949598442349661219146816791976999351185008015466681019180 5435717867639212296254003488330006434650171533878155515113763765493191703189 (-12717333734952452680730235871246735164014161472203549008795948115433172089769) ::
  Dbl 74471775620589417338879590557107514041202553903098608117391426461353113853867 (-119126028231556020604839873204253948014901060691482876516447609632234743696423) 47896582578424520389410240438136871005430287074883200055489118714508733444310 41366869030943423166515414606986489031609791815852553917267779794928920447230 ::
  AddG 38745353049548031630641092748589367110927142852122174854880183436232612173061 10857721559199921471002599995901474691952830500099676865875646234222900258862 12964636814328504519846004244344384612711265193621238669370947641652816649489 4370654708653860179520393842746071815845534781009273256092831333488177312409 ::
  Dbl 24902929536749969017227251666163854456870170084622153122786762001631362987567 45693521412668245833400066924770861438818014817887081379405494416188539611095 5355770878624729345727345349446621795200034346536076092908991015068758075649 (-3737724459294383492483429690368611170771807006869493769060154810796210052653) ::
  Dbl 36551831583676070168529965571944234437367561780709291605118453083788297058198 (-2119112276422721889965498911094611658120901508877679660487006125939130066272) 11538235478100834213312232054741903207481132143801940504007118394125664076090 1372950292447241230362291358580792068813269155483742901815692901406472137370 ::
  AddG 85715357831411397801976009889087089300176605795647709767223312325419685121358 24043798049456813444351905960044118631516968143523247043585774912294166796846 63450988893627715483021498392436831655903478112337680847916774152931942254459 (-47866780509692633796685458207826441589529820827780702694406239816381302731813) ::
  Dbl 9917874802603623402955865081437891561615480833518666378524000788974436939786 (-191613031845010962139069776482507256166711805365857864090350183248563452009337) 849490161616499454258306111188279815665625960103645107704977954864093480069 7286194635242002276092672584760641281379115870408031833879393817409691790791 ::
  Dbl 71934006109638353106369423043599163775879997448664093504113889910851736937333 98760329825254064153964281547452999875248113583802637221664652191910084021619 44687864853844495746776553244063274904191431049987364098577359330874170102881 (-12962511989082071990581970286643291359730001078368547427115408471780294445514) ::
  Dbl 57192136672621081017975109897143534161636022994711792088074256112543770480999 (-4769290776938267515595742908549957588119466111156006788083147536207236691318) 28248393467328911148832167941030706268958969825745444670474229598188423081500 (-19071409214639585203944373205717947797895239277754153928895134688766820315526) ::
  Dbl 43538165419054148799236349939062795928142363530190641348376412970511861246782 (-26736690093289456074166821945654990164695038835505602005028483375191330933165) 16370477988111458727667152403692345460310822253090790060461256744838496007495 14245598270859373115067976773872100811610755610554738842298923663200973571440 ::
  Dbl 75368610709009738863190490125753945904741517724866348521815522562814719716842 95495425760953328690486240235087391897867603172364798893057487855404396012619 49057129184051651710820550246561230231085189263026160963588542667839214691822 (-53231165173999856299780296843060127512663116272115327235077546228895855774279) ::
  Dbl 110555480318333986221803768773580886862650464152651801356495587450869158616981 (-207522851506549499808897741680554295688124343054648310079292255340349383068778) 105555693043653940098170957019153361225938421450586672500766342350474647095044 83145684755670834149469464273490408879913168306901421284346518293473593307626 ::
  Dbl 100269491318921112485411662991197584106278555722444579744903163152089720180627 22493742079997106252616118639212881605021841095521830399582580284048233449403 86827787248484274353018036131594746774471696218612557402970208442961295561753 (-49962441979812529572191834983652589653423877453924056839817139300716411341478) ::
  AddG 5754266272123164252528048910068534733205983973386502882099633330583280350275 (-1048599444107158740289956798198766863365973007002572321265533358590665168969) 285957188859697882109101565653073824295033638241665314775851492991910883668 (-126166147974219629686718906009757576250796110915031901844817724725398174132) ::
  Dbl 50066515662693896208337322010936950684945986338317469748417109976961891103500 (-114362006566425291246361025707935812715114152958458742696353402166486246296149) 21647903644482785842172827866472853920643427898364671694409372780658243633488 29125921436893802895979029983044138265677434675000286325630731421683261590792 ::
  Dbl 77850833674462866975292412353837412480940108326560079961479847271044982050826 105929370791587958817694667253041208681861610511628144749753881524970040591660 52341678466370474604415121750761029444676272514872975096164217829679170373372 (-13257396061362538281774786363613457223743405234763177335602771106301649540850) ::
  Dbl 88883839565961842022960008177933493405878869363817973152001469604134647321907 (-18081597713029490293765356010140435468145831210263921035283626404124135313500) 68228641421227681731628586965549160973428785344768181114122992429290742825620 (-64226590878462877553726251227775091278506398793164015486315141362652460865678) ::
  Dbl 100571487920705909304386054753998207865190842758644276345709676961026897189779 (-272705015138488118396105562230099158165980431508463096319725580689191862325555) 87351599312235790232732014030287790909327771103972965641817793411268777770517 32584505447896077805042819699200944519886103076948078993672826273300732496111 ::
  SubG 67334730644911856937360940977753813606873412510124287158733957709534236726497 (-12881138159363307049721555337039617209561916646635784557648729821454099042178) 39156094176092259979398890354582114423599480527441491834351046713784586596230 22124877172241269252172705410015390212015931366633475543494928025144450369213 ::
  Dbl 29091884182781136070480997569840717035568822329113513693675899720351391692074 (-15215948503512870652075344868363805242036037902232303156160942092192872734297) 7309115250263598113384781553202966007031225052797956727956051776585297133663 (-6586124164644430405034799136723709525669186589492992925975957229903261968471) ::
  Dbl 58439345160277835531152876874750418867144736172650251041389952123848896696900 (-64308812085515221145844753516929397132059490058917005785077421505049783663669) 29493872036134653194489479912369709525128036134698487881283548177522240756747 (-8808823729215612681545505815519823428472968042309651486077587700222759555014) ::
  Dbl 35138380952800356570099803065499495114708903038547293911524959535157258104775 (-147326136366549821726508396414649520863511279909656150012038128588009834148129) 10663127542794309848297233835785765543059865245156187901731255400147024582396 17829829200323802457151201732521165873625041694192032642095634739373576010402 ::
  Dbl 50155783529691350451093039812952368613067561870261842178434390474523996095841 (-8351452538746886175852030092623616159095573028392482138957969819565042930705) 21725168256715049551928597653712245237355654855173176808922906859984812755831 2777440542196134491723204540766417472543561459414475166978419756768203520406 ::
  SubG 13438863265352396972871909268976465724426550787934552169612230885181353289423 4340071138325523250187333413737037092985967581230923153624865018071749631732 1559718345652194477374444526192743679169075720388409410001475160428352498735 (-1942030769036536969423355964893520110749521819070762903158662756788497162836) ::
  Dbl 11308852882622621020421702924308552293050049353849169938034647171310014616736 (-22127192216743826570220594377473672221493292738701644892558793377759099092948) 1104480922342551005868081414188200222471829303457313001343312591198004874034 (-1840384458904171900801763991584549164316758178772032272327371864735298783345) ::
  Dbl 34196707215329164220439031358886146768675941939165105680470063824311060419292 (-45353512257137531801268046547072546564412905723315385544061022838561351073556) 10099263188646911834003752412970860775223885846111092686248070336666160053735 (-9518194804931945260532751346892368706856682386575315928199026656212620413391) ::
  Dbl 99787432177958748267052159130821739227459767498000056897441563365964501215534 (-143525470882914212242892508798314387348082297359937402150173820571521621399057) 85994921468795069635139544562172129855251640926229083536041665937057377250344 29533800053885460839610536116406969179034348750000037620724547339452827051791 ::
  Dbl 93921610822162949235965108378366690687669986536349251203433747305010178037211 91077205498050134735698476361583217322678817600896405551527400525011474118396 76181965776182016607714303948142630309688771305934226118331061429903774904343 37752161745688042337367283654420870077301545680003491383667380242029189843978 ::
  Dbl 2889252375792158835746331133457015924451069326568460023379413900422281999449 4997263989259215396795929025271800962414557848689355306580579289326894948032 72092829017980998001278759584603599467126673107631209992936242894662736050 (-2394642456369309160951096831267121815191595549231085544633561382575667443774) ::
  Dbl 29624812407652482562390209293491792209457809266192023472067687340603828615911 (-244113881171825132094561109816665781834576473363272404520706493228099638246783) 7579356378913730980926880630031574074118617430969280936906515160587546603762 5859407366593482455009909214265965255920560244067948760452698772782455259071 ::
  Dbl 56799833833132742611840084500976576855222706636444066031003723431656547726857 (-67218828879160668877520440307944591147067908771761016828377454850437250282753) 27862189418305962159089458648852100440430663671888469037056050293552975401323 9354813882296576288280311751737703208205430254474631921517173742839239919736 ::
  Dbl 31439526503156986972103478438333998734320273613733338907128783850765844298107 (-55633976363152348394428764206033939221109232565392909330777611704588738399170) 8536367494992618576041782328909090599170991453073900480964256200276134189737 3587695232453334543345123089446981419038805234988574978978223155050878347690 ::
  SubG 64430622841283659997896867702317283891907772585880249365630247134674273021653 5352614500684028630588931219186090179991992533779663428993413587215811839812 35851371082938426871620278716191635585645746303633419480215126671069585868336 21369697905481661969484344941595293261815581602054268934673149050345351856480 ::
  Dbl 59911796929963597512708888980820062965011495747671428159620908265915026329240 27668246718339728567782389651979741470488069419289620691940842838861586038475 30998865596255567185572927525176346773481585618316773901611706625618862268703 (-28099462820137079959018540597570238070005138091407018836751165098245736031769) ::
  Dbl 64211969126718993820704383673723894701870615898246583401989809998504345902018 (-71717444278279257026018705223010481441403219421544348985153483840271902974017) 35608451374257968666979463376544166908802987684583331808342360995288944161549 (-16453901417798063421880801359040944917994363117740459166274592165276160192307) ::
  AddG 115503537943439787842815266767443427561843704488688848396577816590005278841758 (-35865218135699857959648259046219688625905839068160275522904273584048670710854) 115215705712927260876988497573248221045815023127046265559898745520367340519731 71980761206795636191565167529783544265309881427370631851070354573896134395537 ::
  Dbl 98075499485973437165102238458432519569499716611092469822472000877844910676905 33285088029764704714298914543571644714375608797378223286505965995913895447114 83069609182967692473105383772420000745147173841229952851910510745793720873466 (-30676947968359235561341605515094046494601350569660026647794816219049056390440) ::
  Dbl 29016179592866849324037841313042854321209086988336678971008518294316044608928 (-37429683218241087351656833116531149399149479955353786253654537307111328288453) 7271124337690695203911856789315544247981625610061088995145536429103754677692 8899935395067112547688324746806615083053979174664669614786512218191973780553 ::
  Dbl 105419086072886021218675470509592712187947775139899679581963570363113204557698 (-4719144985379017336729719886710449907111695023408232320412080102742253338992) 95975327689839431617197288789727270025802500317990213523735693786537766783557 (-64662274286354165581751487825846008149018349691074418557384257225583509086616) ::
  AddG 83796447784844066223576259340044425136653799934492461404751979000544886379387 (-25706218997706235433750887414790535805607825189503379792863368886427409619796) 60641834063178605144052173147874367644453139033176512953229618884274028282727 (-12212652177200081409885742631540385091260572984543121714855448806083416333177) ::
  Dbl 4392040150480087589695285249129649127925492448899155015511460152767958546251 (-294066543096287939331642187073238310287791889087381778704960242800742523111009) 166591835508678056992291489164859405086335769299273640836915018894219135467 (-171356416718819174136322510382070824667212439540709521796316282915452431996) ::
  Dbl 26011926274529941144142876324161127759003724526089309788232192134876815842835 (-277737938917553134550428593197180962773214852792213450958854715205958902588394) 5843407032106018726784930670987634851244150950671589888931601643098114376216 15958617292804951921876687670315735996995454589513356016726848859162036015152 ::
  AddG 7530748858448432915474339642072789088086352002228642791316687362967080515870 918635798767737578314924933493696336388832964466655934993885331554776526844 489775931521458385794293260740229429453993100509422898934502230271032159152 2316263826798606582052792215712962900228174009582799903991230080384807751514 ::
  Dbl 107389062508382735780577444771951309427413385552808071174915016270860196389372 51265022315124859817429196762017175125128883650515842038119570159398961018787 99595843052746271553251504552274866810170040697847485724180802840526072866121 (-74124620395536350395722955754233975577360072960905038293798979644786359903696) ::
  Dbl 95703661711061833709230030938213667655349842700143223757298737198634531696170 (-21181643457833755776739764274238604059779320782525859332381654197879003253365) 79100316137603984238716908238157159259232076939470312637305428136959164993827 (-10918267546095438100420738612221945287355358993260618126274604011207423305530) ::
  SubG 69029537288697356261711028449078029716263427431420622021895193046772192408851 (-25870127800410698452793147959614639213060859094677458160334612905708089623940) 41152008307973619073394604900833436848698102895146063103370098182958268973855 46772928493521886919942904738380768009486235831182477474607357097818021389599 ::
  Dbl 88483176315562313714616978840742327615207142742889842777946556309959079130259 47238545718533591776663428572871654979962934602291709776025275834022341780153 67614916895097840016595254306495957276279373737774214799181100861363162253240 (-27329284883290702305886989453109769581203500574541559344200003519668837847558) ::
  Dbl 80116654867278391760977846487552811685657482361175390728086259652324088307109 57272611652245960399915398647269988522694078712039106166887860609256028695573 55432788452132545633350464046868815927796202586019286472488799326340334032054 (-13746447421909367805673399206057476548384196677817445505572363952701229526668) ::
  Dbl 96330207804945622739127136431442062619949644392581393295275757560648791863757 (-43732015632926442133774762374042769869333139739503295590820357160771504296115) 80139403277590304835009218753842604138205823278830308395505913666474395952893 (-20557532990058870229366060928003604018156057428128425398173799144631991324039) ::
  Dbl 108114234298141283392354199882316638057317739674500973498103890162101995597011 (-141814506954349081551513628572899254632149118642202623883297367651393236103362) 100945476801246694363382671274179410847498851406732566689927305034408788217500 81131167678395050402590371770036269447777026510788459049264234773306117557585 ::
  SubG 17585702953840400122365094714157958914936588792565361161794832745684031297794 6319928491361150963628917534166677336309738984667683932501093266486563738318 2670795133049961939158503736167642858685387311070928047433522815121857346027 1825606820007790777425498327435145370070570575735124206673653057814618729178 ::
  Dbl 64340870960459426754967630105120689505960653023590671268237277934435503755026 49262877706668361770333498348600714054330506525889279571507778100898496061912 35751558705068938382869041442636275906997790030409185860067479781944095290208 (-37415209669279584754807420693526124413659340264472667335017644465506948165367) ::
  Dbl 26816785396021199493334952473969348621779908074983815004838129984881163893417 (-116212048907877462181192035067763951171517998410507826506498737521495120357184) 6210614073146021039998974731558123495996364648885018933686264693565327495512 (-10619192088980376234998133886021605269705025365410141941718788413412557621598) ::
  AddG 14104299657090677552439964516945094855191326990664524335220133239109090030563 (-7254055124287530602782332425555523113907836052867080503489757827878068384502) 1718003968382486293113105677362266661813559664482643673232968655693693640063 11399785310160576692940710432475213083959383169486449404137157017449965909647 ::
  Dbl 44671622558928358301689488965028298086637593474810525607774261515816999740066 71996498388521238106684396177253328814063217470277509853873785424549816344179 17233939513410661838786006040289299766534154693941509665301894919665195341316 (-16238814959535793958655961159143757712513138935817403956481786574151882009424) ::
  Dbl 68950172848667915002128334619292203655723219371349770355325517763969536850391 15113455311116125723687550369208136755482561778086836448459022318999741916088 41057436368710711730278103040436892466105058975643350597302974431032848217333 29750530814893894247000932738555467178699749912819568602452328211460757310421 ::
  Dbl 53058853770613632768839090192316439991330938869111149969043094415496483379689 20037272035228297944749040814383781688967026997692654350214618314242578876430 24312904119740983429412075155465172864977585645288577555021668220481213919128 (-32074866598469693937121250648006663494516974250651294946166631664548428349741) ::
  AddG 102260844039321474736028895342011545214272770993943393886946523520527568377107 (-24810282808767716884805710349512388559676267567388322839095799547627419266626) 90310834639162669455897203660921851554283598992349348763834787073276729717355 36744750907642965058627342767954870502356865230018115112952391268261159947635 ::
  Dbl 7635538779776280177136648710571815533494309124620754229470379557732920975499 (-34307476268125569982171006674370345806702890932970780210529005322485597028965) 503501170429514087752118074497066070003468753914266883182978433806116873759 (-4603090995052251139710225388996325081510656058057998324582916804207106806207) ::
  Dbl 93872676400563522732479685645798951279889305132859505254580299067453134323336 (-304489287722911998624950199195793864794769275822082783425954782060640830117268) 76102602799959292347709490876521971694651518839094987726598704836627742008354 11253490068293643996951279869812191547310190935199877745346104271840891140614 ::
  SubG 83796300045006771500222366710971678170651511550537122800218928418263855895187 (-30691597221028488080339501444915145084395274402267324644322034718732395656041) 60641620230563102267854305184294383659406764470284712221492026747520662048791 31505831211734187548787837027738259747142790128581099468546721918085840529429 ::
  Dbl 46460046702029378697988854569817795393618067467419017017789960434916132073818 (-24512511564550663970261550996537118454803565660391774001294023257539785343008) 18641480206223982957595074137359909866474097718955983973797731365583884151653 (-12092716992877985529326009449653505746751584119591671588678509090272802499965) ::
  Dbl 47242304218372099177113838068651061281998642554510014847487981901564783307460 (-166295357934527456603470169727794783067174975995931869844852715017632491149909) 19274505905900582088260119555508555215667261844549315533023198149247789355115 12700652432219824636963489243820642283620988772199708720318703007184368975561 ::
  AddG 31858302542427658981957271099751837319053819020986764478560670606998084729069 582223921192111253434106874587727136256067665197558786695047424596135644474 8765291718717562455967042509436170821779814792912462985315303877895781060410 (-15326231357796140182253871979759203527754965927703738410727477691550523144113) ::
  Dbl 58063861562167610123485278406792620698543763545070894199132226581705993602494 (-236631299058385407218981374301044519876994254715911373517222428466432937322872) 29116082469164601949929671442083003501238639010276891824089152746693627704252 28756184192644443361777757042824960368917387926553039471461280482986111998345 ::
  Dbl 45385243472501240443604858589686063585049145093319967108181151017786504786869 (-59318818573063656488115693448308650112111454282123770600454758087442152602508) 17788955520412186442745155902773101413494169369142716664355088797979050709809 5611483041365217900099791877019034689066744050029465505933945952518001759368 ::
  SubG 99853105975961613727025251345201426863539224025264690127308239869362926785815 15586329254875537477949864171827772416873443318467398713909462526266716225913 86108151590664902892947653168021205399593018577021884460600924584143567967278 (-64734585044735597388851975827294744708703097579415367097429520626468023441251) ::
  Dbl 47814775797811008035381717633875950014750486558256779639057599158276250064557 (-247954381978828098714143295687437269626490864843775477930149754095325135193069) 19744464407315875838046468127310015160784265117198399270293827817434774120160 39090086674758308104786493024678170517237291478125015065055316969176733897662 ::
  Dbl 13229968096782949393440140623909413195844092914333192180299959091556808344934 11134921185972167181898689327957110698655621338449988770162649025055921150963 1511606336795305518515874167313685168631528458974320257021717576916370300143 (-1982441881855589447394356849499796551478013930983382368990607069148267422390) ::
  AddG 105423769882431166234572860515307501371839288075235312507555350105383543567687 18499884559903220780607805320361587192983266263599995969111984206397061608597 95983856318934508816236665451053888940095526546210427698240774405820171368876 26350663317043625754212094906748888862718978118885459991677142836552546699740 ::
  Dbl 112275204698392100546090017049416844950092096037250600967357177131976952269540 9617235720503900108447279034811074727851218499119382400878442822772104154424 108865136410401816156615256716863342834918690056894376839548146849665112221870 (-44148550893358518521946401120179171313222983753249944225089223486868068927461) ::
  Dbl 20517562239303789033074579058035324693538695793598253665614466237865108872872 (-41224603811105646108171174865633766768438864459143415532009550263059626557396) 3635570987763463174932614553891863074730203735750524354428247900800800958711 (-503104021676904842437151466239016695387100215895008190605061071382610354165) ::
  Dbl 91090224081983655451850474732644234505902065648938057880459545720816899623694 22152055207880176210358548513303351875533017680823500129376579187405669682335 71657994755586388967722289137322571124946766887329819327421271127445289512087 11248057529216519456343812879842641053660860261891138597740010682011769076316 ::
  Dbl 102423539819550730227000081371892681137800682288540175568582820714354925453411 23748572487685300897341931394737100240173117729569111200816504872151294610657 90598430154124080755687774895984604370628200955666954011191436002100934046388 28291304223512361970868562250903129009865386926618047549376964673050423947945 ::
  Dbl 95624569959859286871816726777271430547442799075233957424096731985652624918766 5150567871090947854227087276258020959130136234211245050402610264947351688011 78969629447373137230469403489771002021212819083962444532632606285652199394236 (-16022633036175047205087134241077876074683322286224334136075232125379771317197) ::
  Dbl 59231804136275453926295038460296337947408738363802238539868386690706341430338 92020000192311738472595214226823036761764485378697235966568732191116310701544 30299190940821607027312233446674487933609033438190791713696125754732462359631 (-18926830183329090011917725582259693008713213481303510626360912406490341205987) ::
  AddG 15989965170638958154915614561882376492283583778718217119493174039403145948960 (-1274424117469817284971257650510096081054214047021172734369426156980781243146) 2208086820458280209356062526314914938238437193548775161617938776326291420201 2130405411411115207128099700613280095663049503452624070931659640845352897839 ::
  Dbl 75423377388482511416700215580047502205300208532413468020172732481062746625748 57828277292901918561272770029175369042651436764395151828072340418208359944580 49128449915317428662464499436019317277119508148291856576783344016117534248709 (-4543181263856144764325841464234866700838171612223717845561473562345802213153) ::
  Dbl 96506394168600737922375450629511761190092953228817166273509527168011128820083 (-74828432774244276226402362931505103262706671940897816854032416263750994716881) 80432818656007872895733072281980535249432159689704578283036937622427540167313 (-4861945569029884831701425838392429638042721491636122231368897343617695425508) ::
  Dbl 81102381090802220510287427041183590107175957064106491505337941560313660413931 (-18541669040402943674520256978122610622830430813138961344133793900118728787478) 56805229631161698783741081403212129339603173733822059235249658562080858434733 30947719116537646083119959962694421922638558967048206292907471577878909117366 ::
  SubG 68082118150802736904041598944173563566976871750002670453338333318429001923114 22093019241643529983758526675654796353156979864901088069152000258571027321160 40030150957895408143386558561514920072552450918260163839426126853458161316775 (-12444055928738647803019323246692382731241559913581517551552153741074775968941) ::
  Dbl 36358135347916357040221908799615177738614949082015476671200828609941412767575 (-12751817211619404217523650597006470623524145947134931746614408789490170310129) 11416272170960993712329643750680985294919877997452178977882045047658470024332 (-21093063644524189398338483996940994405396456447423486202938611145173271805366) ::
  Dbl 32757448734239530918727522341357587333461236875521177128179030189711332735859 (-278132062662042858223827050849297796761477677773689960029676135481189562293513) 9267044533388729992187046591150950528417144507319193099458721121843456737083 15756869684673192508044705867595058615120661763281878586075222462503082950292 ::
  SubG 46142255588071835665744265737581417469654478316428538171997556250871661668310 1965417551073158384805417924931823456866176878765781337157130316033867743030 18387333407477729646926716919709268324114101974408597870882629561585902364541 (-19018968084395814596091877118699158573634180576842002660019070395579263618429) ::
  Dbl 35278516043341409362232276512027994374973967185295879198871993300256187059355 (-187347282083320033591859503967096347085103337821755422005964124602396555411365) 10748348202523059296944282811301197957318973035435859328186720979882436970984 11720677955750176938931838352147068092944627666688894780864399027598944058244 ::
  Dbl 65281689579098518387649255742457836607118248683630970557760332106814984842062 29044892693714338170345520327704121426403289804334438566773609529615717295371 36804750845866651966078307965664959844577846598362782846078705820293242368463 (-5751033403544407759209838350830050078339401933549125889161684140408806675695) ::
  Dbl 71007290510795814282765092236587719657630188071412031238789336941961334914875 (-116467570837483583779568010581947101700204325129846351853354043270316983475371) 43543866760628945025543965496817095828974694059665039751169214973663428460711 (-1742805190734089605323867375553296932031125233497229146834530977214487398097) ::
  AddG 113400370937518160776592728961171348385366849938839131742590488370298774388011 (-17009302791520986284160080815626224134696732945444000558586950987405538491945) 111058054254559986387963003157692545869758721459054087323360326371129989195342 (-37218156714369791749578840353368063103075033716892598789120196378190128895791) ::
  Dbl 79523183148463261420068884681035561781091183481322429062265499754768524958832 (-286212364555398789336608024075591552789437984421721151702551012081295618351037) 54614582910781635560434708654733750950592948417074871502999788409243064743811 22164593475943105362102686488427355141402119844317908333897325543774605904215 ::
  Dbl 74779360851922729060595490219140400307539671470914716919206193130373557598355 (-28294803613193779332972379587936250999899129999963195057619134724875748166841) 48293047014302949833954374207816913783531961585587017698331538607223187285408 9838718981820979482191914907366033562031413121185788728417275238731601056226 ::
  Dbl 10946584181021060276480125635006028432236839602023153355479743136032907923969 (-81208551904229389575436904422573438462970775316101801906885077296700445254393) 1034852259955283437210101428055207741223929375475184690859356904107146089064 (-4076527363032922458756415688845071082000847101633459758179473740417931959977) ::
  Dbl 113901437917859635711340203501456399846013208809046923232980466637044715746565 (-161031389029990458458660782089170627595046728276387077818324850322165481258999) 112041657121901764713655615823384594405005582273542706875354373854797647693833 96517056099770805697288807068875430429261357444594175973748252904319006815633 ::
  Dbl 105157902081124904963621958590440678708988896903574701298149660183899847269106 143251693049863179864503335032741387669804819114104986756250939703892416915444 95500344133524314316665071406038709514994991913401174542158009527178723422303 (-30918412021550422121083089485541649195968972024383910702555901398389753530715) ::
  Dbl 50186322624666192221804266628562865707616639791524999099991432476610883260478 15179054808383042702265628243403884431177091914085862411901552559365594337755 21751632561228488046712506054904529286973542771618822280030205872857553406393 (-17997052192189803193531060647389139083204037619042544361676016903757558456555) ::
  AddG 91308489138856948454741763757226086121977416420905885361179686733650767838222 (-22421534500196248389618122857307494878260263040217609119064337124401435992915) 72001811554963494428009798645161015178906213964813392985863567771616432547646 24096390371990965632797865805390046372218381903770474619087530053291698593675 ::
  Dbl 68990978147819585816346844496221983036120734083696140657111133045711225963878 (-59148607882662747526481305926555698761414797644379036836572591038028656250173) 41106047029152301743508722549431052555487809553508179457468253621506792551658 (-16675659368826150255683734794038346013008629166702930504977417805984191072676) ::
  Dbl 2389570710643802754873584424574204143612124328305539259271012241884272892096 (-168249014694757326072591228405163356064252370811831773730056298125888407542592) 49312938550266327353636267629075044293186905524390653257002711067864280924 601085191517689500809595009308377047394580796452823162175633351545979858976 ::
  AddG 82467441763150666393101100944583923191392472975037324487640182199532843316433 2323954248226022632651319799552720646981185123161384365380628238843819774660 58733536943272758133063748519116299159615615797061600187159881488172647704950 (-42015729928932470657997081819132769992642894019946124554197190754024294091493) ::
  Dbl 79012837169972970237668561568565754559297944966293546224024891017816740131160 (-241333413206175726009207158015103468746542264406537819001917923749195756919925) 53915845881781775219309382861067079901993912184835806632163932610842204599069 17846939500292526454096231473270656980612501885657108944589896055634530845800 ::
  Dbl 70220479870539443005644996838493025456729253460428610923870836584772623489441 (-107702942785565090445717611583566882546216719535336093124081222335220004760469) 42584219921474169565186926565623971675366959241031016524865262584980588733872 (-17099267509272850571106013414740418129013098231134870387942061299188124291204) ::
  Dbl 111618936691348985583574296138361052868412172634243856723226619760846881451200 (-270831003913798402333502977045521301909959371909631014938229718654491511102741) 107596184766759459863102430352240936666475092970931388510032249920275850042493 98754995184715888270747995421920647188203016250401550504295145134789475705623 ::
  Dbl 21550480456693215703323281409812001762131297502973689598570636886626034031712 6890931304190796237364566531741685700289124754978783335075281978802989513571 4010837104445707243249189834237451967985763953125110969772690466602761458602 (-12099758949757286338647772918994574960162457367607332437248978234551214878280) ::
  Dbl 43593449136217447544352503463618595374195372678159862701229152631761017742473 (-108736952547105544796531839968764597472036702316994925014277336659179812774570) 16412078062579264794324957149125733333073239171736942099719693927395512515946 28388411723180052628224673879636300856521252887222760914638730612604951248759 ::
  Dbl 26965839571063133429837562686253150625459476579747687149534297236751445546434 13319547662494209509237183642509722391035207870067387810962301605719217331807 6279846132510876143785866504179864987590673860794723569224637511285806877754 (-12823915901485929995980566868167350299156632534135717803962256554088349631404) ::
  nil.

Definition secp_cube_hints : list Z :=
  0 ::
  0 ::
  (-1) ::
  115792089237316195423570985008687907853269984665640564039457584007908834638049 ::
  0 ::
  (-1) ::
  115792089237316195423570985008687907853269984665640564039456466916180668103649 ::
  0 ::
  (-1) ::
  115790726656973668618246776240861346526973158951810757726436585396823088396116 ::
  65589924249766962844401629219710146759796441441570562685625339364176552705483 ::
  (-2) ::
  1176205588940149357812275151209381462649705096200160391155953360775017390918 ::
  341704680418049580209232345630502330830618463297085180969282344142715405553 ::
  (-5) ::
  3086274612150390552710996875796093980391295824124405257167220795028583195283 ::
  35060005153140678100623096153953521171847375145621293029161829226752510890050 ::
  (-6) ::
  22751399531390149101625705450183048231314095231271245105419609412520171676453 ::
  17970672061402563147651335302394087038851332035513150787077291321705449700639 ::
  (-1) ::
  28333703214587471155997110366251565774092852475362676877495981673576405652740 ::
  97520640521344532318479477006907113620150536519102395931596219494228403399946 ::
  (-3) ::
  58719837215168005834372625268023659606740335930345264917335532252245715727469 ::
  691275800445726610880549093416420249082655085048337646277098020564510500346 ::
  (-4) ::
  58614515580376091504560090786379848155991963478479813693629205609562732594334 ::
  30822483434546328304969393734369359063821832820481633239724176061856659755050 ::
  (-6) ::
  43725506595951944778788098268137691678333141827025457839078022627814539448291 ::
  11404409968337373210734336613493887445952225967051419170914275254471963071875 ::
  (-2) ::
  105366194563520661437442887934798085978037533100481873271856296026342721049120 ::
  38820298350651029647890734971681966699840983552666229179131509756880815879428 ::
  (-2) ::
  84258038384521844402570689825782887594242657959368775201647273019798866133960 ::
  103106177082242556043363745301136297817405757972889315734420528535310433742808 ::
  (-7) ::
  5734448706625933237271537943929006702952030066587491338167677950427275948750 ::
  2997564045882710513216636692967478375975049892597818600749342686643569150642 ::
  (-7) ::
  1439312713565848814270733684091948081412161691829625810195533976066695315309 ::
  4710046547358701766560481490346010011347419676701959899605290617332900121380 ::
  (-3) ::
  28322182617512459074585926670054368363445776263815976038796990942656244055150 ::
  84417025529752760185471648326552196790955686440859304375255385467449081936 ::
  (-3) ::
  1671008311193053484658764277533716875156028802279415722690424168297946726804 ::
  66833136854994425141921018184656477366043739335322952525884800714799266414673 ::
  (-3) ::
  64633205424302263719017280013639119586569133608863745510977108148472824572368 ::
  12754316182626357112343186852390796269257318580575890292826131243472019744795 ::
  (-5) ::
  52741340443978243732030163866515214373832889097248338942824560643770340788368 ::
  27503371955457071565625623636392606814699780741944955739406859354671512253567 ::
  (-7) ::
  124162544557432836995506776295387376269284803288572620817007960816035157488 ::
  3676602424216563039767651936861845953489190502693010289193298882499667500455 ::
  (-2) ::
  68533747749432708008411741504074827782554087923871975099994776633958322030392 ::
  100224255750417943457935215371597381144214178678196908021840627908270542472142 ::
  (-4) ::
  24764936560062119818551163384342519404667110144719140816672122503377676171821 ::
  108088135360774443872989802307367093740581309989294403276330177260966133339250 ::
  (-4) ::
  58665240530443965076056175282060135695717944609249105729475386627784850645918 ::
  112542295235195568411038759670031898236350208934833128583722909798407707867425 ::
  (-4) ::
  2717913523864989280646500788232932345422904318408443357507390873766562052837 ::
  12997528318417650650187794097748853327421862927067118586813631385208294392268 ::
  (-4) ::
  4291692166285727286829569404525597483606750928094582750426595759720099537102 ::
  65759620167931002002033012647166458157137321794260887219866831353876869509559 ::
  (-6) ::
  21766192305074270666018322329037717794086497071098836030137766549345141 ::
  536393217542217915482178575161061197910442889933440975864987450292076290842 ::
  (-7) ::
  27479779027466971045220737198348065427689232333356792840396236717775897334258 ::
  93823507504732699179611815328999662040281603279743750719615333177068922051275 ::
  (-2) ::
  13092392825283986140672375024668979564867106992389208210069873020787131602031 ::
  8627626118699911904415798154096712032303225262847924605144413764442025187193 ::
  (-5) ::
  12004349058252827402149580991319235819195874904294905324105018808838232345128 ::
  66662757350184663779769520078217663736380897729507342238681493725498211209539 ::
  (-3) ::
  2290668983929555175565084368822225101748097460976577725133184448588442360638 ::
  65842458118638298945988858079413552107606701420877838490222936321090785975 ::
  (-5) ::
  2844978361916295942366893560664316476531168358908251103937993067771607489450 ::
  54660233287271862164339465883156942275575727343206736240336845949004844453 ::
  (-4) ::
  94789514945834112905475175414589001338349267568496765827350556763534568235670 ::
  85834976176275659410274590321036857283842716469262535465354964048283590374814 ::
  (-7) ::
  40697835497344778967518879379764305962551535428909433159368815005476692034823 ::
  107941145193923695165654599424334178552498245878995137917609327968534396326739 ::
  (-7) ::
  1059958440202361040033240896578000475916248230408544094876820821640477929964 ::
  38621789972912047561421493552058507069744237283830894158079118143924029703446 ::
  (-4) ::
  1824333438223134604186513859693455488583755605102651623683846055679915306445 ::
  449749342722927474667238573021888055482550851437976609248218398056258012480 ::
  (-1) ::
  3990578092883901104671556095141989856002284565200229679569614770183752913417 ::
  11949427341460699160566477939220364012048723770087784511271555256462868086768 ::
  (-6) ::
  6418204059269120698649903613107569652485088868757853171369771586325724431521 ::
  23632588199834818509652898130822146663416907939372757989357013212298052141655 ::
  (-5) ::
  105320426946021394016373924784442284766618153622521938359327293303323186928927 ::
  53989805194709917824664300327860922682960111362916485218141773868977973157793 ::
  (-1) ::
  106909354396486399973006648458717633277419589629171343058374577716050073079205 ::
  45123507151538486899841857659159270403005600106014306153819339026361929831066 ::
  (-7) ::
  26127931401765209067770597000859962065656527054834727066500140655234304372895 ::
  8599279240712877419544722388070211375374827314889259029811836193147769926808 ::
  (-2) ::
  24432552784711174397934317146206815924009404031094575161400796128849240563498 ::
  11410636107955339682498813450010391554141564936672871448133114465872690391842 ::
  (-6) ::
  86060145445300510112865276048503224760763001803784050844412810628089844079648 ::
  96225830489878158861225250227901384677555478301762361872836525112744054761793 ::
  (-2) ::
  5343570330356112819836786295937965672601521036859534353615156833096148095586 ::
  8249260010763036643640909200969958542220447265827029358962582773911896574080 ::
  (-2) ::
  70023991100220410124512436434452628405908887941897908889816922146557762947715 ::
  16698644612908656800585813979958696311881378472410540409678920425514086245918 ::
  (-4) ::
  43987118501911097022969440355964335627783216294909253862272162202877085371485 ::
  2613042686983558352554374687895959128918641616381287524667874888400628238 ::
  (-3) ::
  1761352785300639452048956987573553922370804212611795330484309091624005694039 ::
  1941502300695656229477660630182917629031788521418905297322879121998030387203 ::
  (-3) ::
  729752149312795151108601847801939202854090804056657062179828710978692240 ::
  20636555410191196641708475749287752372978568844032234581356636938600666396115 ::
  (-6) ::
  114224534034736227324985585166982405080365990138409445180977349550174320852210 ::
  61868912795391878869466099959008643121721259351039398817076010011088848065529 ::
  (-6) ::
  1082812606824086473093332293182431444942715649580314123605023560272589623309 ::
  15176377272661402288747345106064829703829286781495068778468600340424562925677 ::
  (-2) ::
  6117267617493109454852906780373050456877230936624221752699538854651909543517 ::
  100885407043232053251413735880377134195825152995631367605914461649307160357482 ::
  (-4) ::
  9716543756932142487652032014413017578378742648970094672607603834376457810002 ::
  3786984426888448757379303722911590167695386356520589837296828796728989269688 ::
  (-4) ::
  14551556634049446765109893564384279248878168678078729020215418543033169511038 ::
  93711730549585047269166357565499627068241857294024691763293198586644061424897 ::
  (-3) ::
  33158724152220077989641786514302164779185902477312967381059986204187160981873 ::
  9158426106714564362728145086910644047477122928309423106879189768068402388002 ::
  (-5) ::
  783082288859700567194664773315008173293888607744764363594417908131655397329 ::
  58828503876595018246749799588131831726804056643221480669190667629945078303209 ::
  (-1) ::
  5235399078257367560211128811771144599149648520284247121830196346809710007786 ::
  6334497437640979469301496575063425545240054414723937497131403169531461985443 ::
  (-7) ::
  17926823185549057090483842053567669707324962601711861255129904991480043362357 ::
  43045415046549946709720729080383897679432977942042588031368371681381146125579 ::
  (-4) ::
  6492428669810622959948009656591849870219313641833783622600295595126508600265 ::
  7167956150402224490196259865825730947808513620850632346677096602076741284528 ::
  (-5) ::
  79407686203920367568622675707357984527839814523027550002443904365810530075147 ::
  25886440930751861899686128375904607100251871080201220286120655597328954550548 ::
  (-6) ::
  24295799066376437328915901108580776063399662975620959062478348980945264717955 ::
  12018932615443922305216314348732523801725930191631497122562913950680877592439 ::
  (-6) ::
  11496677879115712906231812294070904335212492873437344166884079582587842744519 ::
  43552040532048009671657268179449699914700441325181721914244191247419337973348 ::
  (-4) ::
  14767132456232340029830593657229719841740657703780441951274227385140439911995 ::
  44580859707941097954561196160460905663788687022096319283016670333248895020 ::
  (-2) ::
  24945748328379696531651629893230638208057364202846983038607145823180747589291 ::
  11163084508695248992345918841570744156480023447054312275604230891442252640228 ::
  (-3) ::
  33829340262082656851713050887998562248635500169802464825469089430359102694666 ::
  99228843175137120083987589527846006145101645908586752476839133337738689635818 ::
  (-3) ::
  407505419982865896757619607548409772843274401189715045744402046674450412045 ::
  25635915317921926324001178014902262647370209920843615738492011987402285692738 ::
  (-4) ::
  50060499598844874001520124739708608540783612987190840282532602686846503805216 ::
  50944196523095884263954518435623049467928431864107614653345879343787161105979 ::
  (-3) ::
  20641221857960174593019348152900365544153019980824186891036130220224022056246 ::
  3840263998256252918160246963118723526019613248264152790134582832046902319750 ::
  (-3) ::
  102230026427595800451314260549542612600116773684688159806075052134804383738310 ::
  11438718082478587958824542557756818794481113148682930111490963446311822891693 ::
  (-2) ::
  77675969455916423308875714230971867582462238716009585023788331604679310870609 ::
  40803773210908687214113432970163227311572368290636301909909485151663559079529 ::
  (-5) ::
  87703489201830468772551624194477144261381159848947122432316264558678179992969 ::
  34058679448082968367940905659647246102856925280092635123015226153539188051752 ::
  (-2) ::
  430118246249449980200939608044798613894930513365255643612699831797594729731 ::
  10349870459043332028744643073221956387075380430651837425101745841470444322066 ::
  (-3) ::
  17429364472492155595783258603998457696547779436317869885369798460753511793797 ::
  42834418103405097377341549678665304999512426778821887295814190703623923638786 ::
  (-3) ::
  66321352166201073228667997421991560830466381331010510468444510916504000705539 ::
  2324137952511140593923190451711108596442159383948715303512613777629160101171 ::
  (-7) ::
  17063123883828792173030103999092589765399351064654762785091492088877776503273 ::
  8067396098302048581248890652582448550957048703617031915161177809765641434118 ::
  (-1) ::
  49046375357205285332381795241857125959335671596854980464448134116693448799008 ::
  111336078844560727727943964894326915213764126424608687669862682513305496033443 ::
  (-2) ::
  32029692186608704216921317299636150693506306490766323292013140749750175960682 ::
  37985394156135208235853945235559434976603520080644221578122244252777677162228 ::
  (-7) ::
  97459852759138963252421057023272441233285547930106742636281121623480950737169 ::
  191871947773683815960464351860486561830515671680024439402237619100927687016 ::
  (-4) ::
  61829358758777345687435497244522610600899865344144465306671276037461941838220 ::
  114431794358242831103679102076453247377404077181138105380826701165659168422037 ::
  (-3) ::
  17432654200457738510789844986717529622192164757110059782935791159978164030878 ::
  2822090201542227477388632611839822567260970558318219658537520993775249175706 ::
  (-4) ::
  9158411202594706613460291518649597598202729304305824578834571608684450209881 ::
  9151372990893037468814622994148845470883623327787096317464124289157393557027 ::
  (-5) ::
  91495214917995251420677471878591944209817313009506010363290174126177454962351 ::
  64657567953313032353227915797878416730543061813455751789348509590599450776147 ::
  (-4) ::
  67428679327329600669985755534799541549724491403225715147560647752631053263778 ::
  81752805824501646110950717898107540419266147102088343797271962262192299913137 ::
  (-6) ::
  11608576549157766051774593943056183198667092124552627139573199496182616261826 ::
  8408403522431349925442800648885689429697190130177057325759319531591861733433 ::
  (-2) ::
  96021652808968221196448712981059066873093696522239794297621808782845285742905 ::
  1219767076205601814740039878903610390800358934028881662415441677435090290580 ::
  (-4) ::
  86618888191506687749777090752158357125874279905342263487411796160265173865360 ::
  87325067681191862566201221088461432936931466930573608309771246639025667932563 ::
  (-5) ::
  61913563750551857222702189010273264906019656669456293512792604786039285656428 ::
  1256762401070860847932628269346775417120061369645236531476446748150144530248 ::
  (-7) ::
  101863791362406220307539442651089588198379170157760095414663692246645554381225 ::
  15701869133614705427917987181674333013129392813450120228479298944573246257499 ::
  (-5) ::
  21190093569846588798457676386304060284633481908665308906741324061988427104642 ::
  104585764876112242367578440162103354488763048629630167827452989324830486285082 ::
  (-7) ::
  83160877951884239819099518876492268152046299092528420106536438473475711295269 ::
  37764544898727321580724080105905562258029384762398698577113632210051817667945 ::
  (-4) ::
  36634292408280971361429841848915690856748346381214487549981895071459430247413 ::
  65789336569952920926506478859356584478893819587060124070208013496227640201818 ::
  (-4) ::
  26162428150534265945963208760176220331327721533270680804315270869939162096766 ::
  60946509808753547643121234824854859949553759462992253124662645722899410810182 ::
  (-4) ::
  57126330850039812913623004760732368782156362685026967246793428608720902619132 ::
  31470938099760539627921846480175059709560529089564760370405165210667369265784 ::
  (-7) ::
  63214638076322323425824335389005746511524788360916159078853541632780214243012 ::
  82000377192199589075231095678238133630800808172540719992010963212303841598939 ::
  (-7) ::
  491663376236223731171492937609004356335595310794430075725402459700825747346 ::
  22069220833756147992760203357554839752925205063973790903567956917713372016729 ::
  (-4) ::
  56980952428809231210119210755442298201438416547876882958083277738998109017236 ::
  5240181218451663471560314085171418231836173359661282358932062533700402986698 ::
  (-3) ::
  57979422672002364413727496343732828895557349046663686637218711196970294002948 ::
  81145223273300794519174983074943597763475695215040962347291202477311921739236 ::
  (-1) ::
  2348783331355923974291053371333456875955715075346719358102954274884973903099 ::
  56855525944055946759461345813131946173429107828587109612668414037767476235583 ::
  (-5) ::
  16792439665739612175914696885740563954528792555234266462344360910229154149949 ::
  38514448990494550241607132364210476842693363277802464210096127229992983750796 ::
  (-2) ::
  22080163455368783796612395975992879873814636356718236695308335143975816173209 ::
  1932178130736389941517070227576991392752726323645981679719804495577769544197 ::
  (-7) ::
  52011744936217402658550409848068488519533683304296892819323434831926655272244 ::
  44222376845481832032382572180125869714868654231820204214161576369273162761676 ::
  (-6) ::
  6093317152661610413438191971989174670338675441603889930598820593557987201860 ::
  9065094595841423919878061438321553506914126019706979057247285938965240490390 ::
  (-4) ::
  925853822617987824170282904700244567130478678058130775340623576840236176654 ::
  6431970716255128104039462580667064949411009679019719017776917186248377203017 ::
  (-5) ::
  50856387040486500958774142693941234106559324076332900125361894652024308701684 ::
  33973223707642085244409132241211302599255413489164596755709070159259403332342 ::
  (-5) ::
  10022931931262796733360810191345969451853509167354323339794317705143620088067 ::
  26834186724433084332002736789102239273614265762062223213718367562599388005682 ::
  (-4) ::
  53591292017694032414337453504409398064431551108562901545923144846429790235 ::
  97564674123382874351060363565785981135094523652911249087451907923485330023860 ::
  (-2) ::
  93139963541962443759622687184290157268181535963306822294660913614652571879961 ::
  82004350814784037854847967107134755256317723065393247200047728520658791721501 ::
  (-6) ::
  2540986430429559176887566971637057050682580539119596349945790861102392801406 ::
  112150138027119744555621287648469102190323058974170612161227719506321742624897 ::
  (-6) ::
  11233144028988983793045941069798074743568454523626331983027980101249715454749 ::
  44991583958336293680786882602655234289100996279882839659754662934745875576865 ::
  (-3) ::
  14807929257201783884412563416665129725356969079836352424913111979059849838651 ::
  100236284521260475200785080349476391312194382409202676581645320893262783078242 ::
  (-7) ::
  17875033852143868962117213622391541936545557961976137335526667042434210747169 ::
  5492485409166907075125511017821878467384905914851999054545664351037372821337 ::
  (-5) ::
  157957368474632498414760147636686364086898723197855238434579985784839871564 ::
  37475194734473425719518112407983574170108173488971761762755033943607389170519 ::
  (-5) ::
  3364606390278721403497820490605963799992100536455962679363019558372108900090 ::
  23068176971462603817465128372187359990301664033112719046169943287261661665474 ::
  242708376102592556474847461338993085854723211662581652115369328057094299121 ::
  (-2) ::
  27686191280970957520633788784918488966832176759096648853928405914643743301719 ::
  (-1) ::
  106563291569287597618616459569058506912926888147014627257608970381161855927284 ::
  (-4) ::
  75032908009148233328030851657690585132866666437632265584947865544120369097837 ::
  (-4) ::
  58360236344864506675414967131131272191879324427430090345145351010725776202733 ::
  (-1) ::
  5459678191534235827927607181874234963448589328371376957929354123252864744553 ::
  (-6) ::
  54612804994578635506154018730670487407665142746303230807691298982041111082036 ::
  (-2) ::
  107221737914953469715349376628845166648255653674227037956722501882232373636536 ::
  (-1) ::
  44949723823530885457488044025721794726652703984046589972690526330580546552553 ::
  (-4) ::
  1008994214133929474976274391638425034389945643135690260047571889588263844565 ::
  (-7) ::
  6056149043816385683739201587280815626637748486009322684333499420408235012218 ::
  (-3) ::
  57594896715406538250136331132176361987262361036142309227827743087680372749911 ::
  (-5) ::
  106912453121871694050530960441578527135870933506838790345657699702832267885194 ::
  (-2) ::
  11113721376432409917529289584638402538833681884486084738778092249069362402564 ::
  (-6) ::
  2679929493942151878395462426957143263335944906756699151996563490203841577259 ::
  (-1) ::
  60318606777425008421830471028705106425179364973211438572531674606262080948 ::
  (-5) ::
  102065291022373184698001985311346245840084786316381652967039253941790390822664 ::
  (-7) ::
  32714889677616581953028796775706675996445888880398891893749427274246173377170 ::
  (-1) ::
  1041547183116452673727793090513363365680428394718782902980073237782467902425 ::
  (-3) ::
  57622193087153335250841922752810419772416791181526114711836505700671307176507 ::
  (-7) ::
  5925775048989437387009187430736544525879903755066208655724343191464655938051 ::
  (-3) ::
  886722030942373587518429464163643064539775368380784166909418093492916367739 ::
  (-7) ::
  79831920601252706196429613128173562941330712927596065497409797796944069186180 ::
  (-7) ::
  15077021030098616149685635827744827800269885933761043376868065131048857156520 ::
  20049621742762010950902249209981290630194846029909897864009906788922934864400 ::
  (-5) ::
  112068332100209732301448378059510855016606894312813681841222810530639645871874 ::
  2471743904130533808642049393130538818250093211639837150580473489581963826356 ::
  (-4) ::
  240349958574297436158718463015166879758217002967147568895057546261430894209 ::
  (-1) ::
  19104195406932784983960756065703046847434201256813528132262036119004070993483 ::
  (-5) ::
  65693885597132798929091236250262074039905790892468210746146044390129717021590 ::
  74564008780776677743465221644549899226843788775427399560025213107788627803959 ::
  (-3) ::
  31295234986816106708621480549220651862101030545536853469444158949967814038670 ::
  nil.
Definition secp_cube_value : Z := 55594575648329892869085402983802832744385952214688224221778511981742606582254.
Definition secp_cube_exp : Z := 38597363079105398474523661669562635951089994888546854679819194669302944890554.
