(** * Certificate data (generated): the chain computing (N-1)*G and the
    quotients of a modular power.  Hints only; checked by the kernel. *)
From Coq Require Import ZArith List.
From Verif Require Import ZOrder.
Local Open Scope Z_scope.

Definition bn_chain : list cop :=
  Dbl 5472060717959818805561601436314318772174077789324455915672259473661306552145 10944121435919637611123202872628637544348155578648911831344518947322613104289 1368015179489954701390400359078579693043519447331113978918064868415326638036 (-342003794872488675347600089769644923260879861832778494729516217103831659510) ::
  Dbl 746190097903611655303854741315588923478283334907880352137126291862905438947 559642573427708741477891055986691692608712501180910264102844718897179079217 25438298792168579158085957090304167845850568235495921095583850858962685419 (-55983528781249789738060382838889096660754470245542159683841732382792879665) ::
  SubG 2340613384022439978602689658656590896722478494967453754139532898407575180212 (-321894790028912522883763492570928370998119782688576736590728633368293849069) 250292864783285393982280624920445471764903731833640888044641192807569956623 (-36660711928502674364380288143723620413015976238061478211711317538323519103) ::
  Dbl 15290654743001963688408943613233128328760151157626609775038310186990618629799 2045155900147547396657644761129354649289969177530583129611609004399914202188 10681721864960365448230185487014214440072030676721167381440401278881020951848 (-803568460683401693562666008146188853763852813485368807323986411713379316892) ::
  Dbl 16642975371256899054892602007467438992834989098797851719802374331644279363825 21180339399313094309793402605092700652227400663932797257593119684306896188061 12654676340631644512130539106641376393907527284944644310029280006453541092722 (-9584632050761656832831052715625268770511724202189073245848672981375593103086) ::
  Dbl 16009041694360928099316514538983109671358043895537036957131823296910433048091 (-38330674246629798187100267073049418802368826640522656571607909824947258002727) 11708999094738688071988681895679286808526059064970163050536095467533746529235 (-2446715379033156943052116634939744561915004061822585154191264546830325893022) ::
  Dbl 6356107209047791226665198942256537245432979383254279036975504622291741246049 (-50194170914440613798891862370534561217651340580426433891446391765204673437164) 1845744269627362294520292638734684824095216556779506271137216807283856232305 2858706058708308070304739366917262811943502692177142395521930390813735586462 ::
  Dbl 5104629880040020903956165197808136202982989314679671155789885991874837773119 (-7463897712655668801411832123698152826175344896630639906840503022210601967992) 1190467702901900432699650631505200793690802953492631148706408566965383974862 (-1880236021264658572645206824666308225114304815747617681875847023936672357943) ::
  AddG 14929721013515723921889216304580717517426144807033660664588531844867927963755 (-12735850335193328541349946913308760967378612666664061857498316363686870856573) 10183392556749481695983236356873124362942265697848962404313052882042333899400 9284107329600530570169760729685500344404389074001986494419916595152503492148 ::
  Dbl 5693723612677233556172402798702342114436362943462201166012544963737446353598 (-3272716920600777472111524956314971081524847028486139484027737588273125555413) 1481091413658740766004178475971434477777244411006195348534558239960331840795 (-1366684241295170200543032539101485919446348641029294986780633601601643382805) ::
  Dbl 4148204988695831179038387864601664418233021953953219334726602447483789820637 (-11962896391893532474106249159505836097504173510413483350179220191512861336015) 786157423827736475104211158437677304632250853204510174150022464186435692453 (-674783711815207401093949096560187888830678181801751534220400311441493616007) ::
  SubG 11525448396605614342231403422013824398590828066930471468060709215793740121893 (-7306001867577030784242707513158162753288601978668898173231761263751868609304) 6068827064858709842449989691375022689618838725511588552283823307939672885686 (-3030135085205031848036526092066658374797092685965892565397372499205166292710) ::
  Dbl 10712762272286389833258836258410497255012444582178460018080840198901060408467 (-49958380221114442566948437963100123112865458822800949605049127274033410051558) 5243147025299754633775794517451793298521397380714664995991392791894610057661 (-725722481807658638858375000436120756772681422137582575042947528007625732130) ::
  Dbl 7356051342366025634267918864181545473195671240615639690736057236219752506697 (-58625355844252077117875832900705311545532347066352781544553014427804294631626) 2472171552022714000508621327526085928301434778408633897615055747779540387347 3922920905706897147500765458340727571478614702310683993694745031099486830250 ::
  Dbl 9999164028974939651772346290922150167174654040754822853044856377211253840265 (-4671389619793451257622209836658065763776362532187639024631166039883709671554) 4567898933860136048879723011314648442726804835004271165973673674422578600338 (-5626920179642375474312896964066393816715194448261616411937649784365609681335) ::
  AddG 10537436477418450941638222346175271509379877779058345183404957424217213156456 (-10474223292654659145780336250915903903420442305330765998303774157946606027896) 5072931992110084524315821803404105949034391221968557857733922808238267780605 4151752238976324868703924150963598267953173838114553676353351170041171905636 ::
  Dbl 11669719747420665830275056132178893351821928371422001611473602355428639054004 (-4638337622625187992058692391054066481769422559708863200178155656911203582557) 6221712714936464274784285227186188979356162685710081463512286706065035707059 1820786469713892463329831988720580773645348264601490340295681960891200594625 ::
  Dbl 4126008498095936343272938619880518060224883587677424095702746267500376890675 (-6409198558158115842477444406305090012162700360259158229368722819561390012929) 777766686254306778190246886282135667069824517145497503868495632113875921822 (-166867150725144861514239378385200709558443734913284189809079552520052416322) ::
  Dbl 16496226668698577818280543465355944989650082416117579599211938968903612508102 (-9965766331352368305195121841402193741352059012248122652233320577249422004925) 12432496107542295205462333196802012289530791772804483948373066568157269154300 (-2353234329059019565283535196925054859552844143269249188568391828175994273492) ::
  Dbl 278516332324962294176333021491485809742172171097928617355096034982689762002 (-25599228370628580696451345682278388009606814166126023934008318306134783273580) 3543973256599308482135274749166155930376143225191403440022031167298163314 105272393782957355280223836061424367730820929321243611485101704505107946387 ::
  AddG 4626188461690346486496770106489984105356881240686918475049109481097216779657 (-1152357047651828392694793368455914323046900577413325324134670907190768331847) 977767827613588165694714393413499933569173357900685139989674291959941060525 (-1862581937389599026219651487151206638209967492835460491618168823986607206215) ::
  Dbl 19924997683311696310463767227467540870178870590501505769322529220414537197006 (-174915131987702280916691738032935398463543363098133980148746457358773563217) 18137843910291734538282977707186773463512139923477322145074374231329934354728 11514842248512330213789527180442577196257292008916105069342656468089436217267 ::
  Dbl 12091501165784355535815805831993890114689212954833049861699683313804146833247 13104694944030586958399294703786009306603078023428720007501380449903743243976 6679585990443591599671889482764660873496044862684558421857221610140279816003 (-7869602165570799515180270150688348881296420164699045318865610995150719420667) ::
  AddG 11911501530991438421004634419931103475234066121982977213614505141802822755885 (-8631543021677264672781990528712228619550148309349028086066345886715954075369) 6482195466925977138991011375689670553720555524527624513502599571871652543846 7291724726590855538146240379947404293231544318270076189563437319328684594762 ::
  Dbl 9220188161361841885281207873445398446721038244121006115442518260392167801008 17391003373188242440182328958965622878181860215502643798000920690650619637196 3883905630464776136830264793994127002975172842196073776578395458761889052743 (-3537715125337735411481506191833497838560422275940433246696874962043386465904) ::
  Dbl 2438861985226908082214924550702348257021562117318157620704843442207238852561 (-15633890142756153785139381579176464091323439677830790037654072774964152141351) 271746243762559232045242212170018673329840034968122703559457137686108575479 530667394647030094442906273884051740187111212703256612349347297236998614346 ::
  Dbl 20934097768648598354897858280607857750541295407567479894739186921476411790445 18832085431502942113276609404671376675622039606568087557653110557519814848416 20021545445804581029032752141538882235854827460146779076084348949950988003132 (-10769874797247195864904940362815922689765432054157660005978099257911869543118) ::
  SubG 4311504861119921788802915662392273362868254322634037769932656915676101291456 (-3419242842199726609341208239007635512792144151625183581218513167328416306191) 849272108149751671970402697370163263642118791863467999214232213779625773156 2225714579225630991024176765463289409030960914180177157736717494980681428639 ::
  Dbl 2245875261419912427293138214785550860086457389666073288902740974204808738405 (-908536334947686489318544805675163865493188661543108637745384804246794801984) 230441325025105359970097050869990007220183010327225294386959250520274004891 529174116375098699631121179250580078449294333682892746251029019696940278963 ::
  Dbl 4643723527858754463939189189094916575174334860264210526441121324776242240208 6870883736050489961962330695256056038814270705720703134435075306471357750112 985194121312165118968571924319438492783052923142953726729845417236747158902 (-1835168048786144713632646217125198116259690583484361760235597603150888327562) ::
  AddG 2149865437740318480097748276294084310011951778243279877781828297700700879287 (-938194473345787154056569744288032345559817681348175820915408056522407724199) 211160001625200800602153207583862515192989385407113857134509728762345478559 159423813416510395497497280203212387136409483469368515198482947779291721006 ::
  Dbl 911331799304720523084388902135631772407811402781025541146127911888714187281 (-8585798234772577851550257218082363885149156564445024604310238882668645694553) 37943915977490709449071951049094501563095245684804099704184454455720874629 (-234030286975400843445983533371642563463033720251001103117077441680612055246) ::
  Dbl 21252166180389664473168859913705110413310171735125160121109617751566122151794 (-20262728571236705416004917789566707013330814024357281088338878258031847150852) 20634574004109885865371716142378384552322752707824552300291209495450933992836 8809657059011273417090365740153016718074324033772992701203273738411219299352 ::
  Dbl 1277853017350929749892091262612982909281906446737483895382110978758615456921 (-1560758721321999128208128878492156456390516763038792386115506174198824827206) 74602074890795554323893938924532142834086044544168159859982652445485686075 (-336254306717535336602775233781154856898090287948176775913156900213883494762) ::
  SubG 6534812349844582328642291073104191039184823041038570675849235756533146426246 (-3056018723549383012310092802833724328313518700922225743954056050169542713379) 1950991347168511284888113149138803027356897670963293585035223365556439875213 (-422782249409150543464096156744598469951146652039951363545752717674557628578) ::
  Dbl 16955196824327457449036741025591941906520305269642144910043661903476616312719 10456051151649277435248349896564357376500956923474060082379540913022248892574 13133932268338677374338507337942940214904977931751429615541729517063297626274 (-1100724158362426036201810398921524934974645835350918565557675481301063582287) ::
  Dbl 539663971492154114165408476509815159458642470124634876233838201842778491929 (-22486765247071642571836863436219261602140304825150347853158241610065544904319) 13305645584798455966286843526400032369884891041119282746623718944233839846 157100789676961076810042207043447111334480635454890165191046220741723818051 ::
  AddG 15582430428281313214151312460774329658489434331977666407795390906691957096921 (-4770717831851435857023607732650922732219588803793721719189624706521978825463) 11093267717922748812807634841150081718887560215491353443057205172569606130582 (-6533050870898491852011772558781779092298288285270344331911781915236195586555) ::
  Dbl 10813398363378500063663688934479475297835752981679864985709018213612964665094 (-29227220264496513454965535000176391410200434540185810779238901988948913506233) 5342118362344870937034127222377426372540825766741234733800772410962951127174 3324257716174432578686888272212461620977720388376886493878783354319809220777 ::
  Dbl 3948070513451319551549427909081491990888440204432595633510517484928186340300 (-7705458103008656669991455765226137738498473111088010688872157848868132382064) 712129377878835829833916608366077500404289301338017973776930197886486095186 1323967349542257061695312374241441938927252426577272740500083493645862730631 ::
  SubG 20839443276471828332903620147211767513984541967582486346476018929530035570647 (-1722419339883258514771182046560625655165066393043753249537253368729148660932) 19840898084698290790713898907191119838170049889898524719062344058511875570886 (-15463228790936602239017793202022569384056633487977696930556871598537839505416) ::
  Dbl 8974898098975387798886392592422096301385714531489350153548716830219838524998 (-40783466102701140627861012745106711781773864495039446291511728344290847584524) 3680002837990416165795904181721855964322549601433859648513147028635315068705 (-1019922371590444427219893399916266503322639026358411324901767778246453265187) ::
  Dbl 17328525113525576835310497029339984558973168737315370291302643954771150013726 (-26942372282921226703309917634315497520419174687095612149315102783097124257397) 13718679218258061058336818143026766502459366198218620596407546112683623882014 9279704569726552135772052589453191036063251365047734274829824502317559030101 ::
  Dbl 17319374652222010381957245612594956289651743511686372277176402593985873351176 (-5352808625096300747047925908276234449666198520630712229790425811694069941712) 13704194534955125779749904439661568646225884115860904118476504411587261060153 1351151777289046309172886638284921394004276978689506355764828299436043249294 ::
  SubG 21666816753531200010535708742282738363689976489958912947050608143546991031675 (-7036968420629459799699875933254856597771923829324308850188250193399390999755) 21447630628910880409678633843776737198230348937269144961257946893954655683169 2366824370533548229325449211694744086514178950978626582437758146311555045230 ::
  Dbl 11153676434686552783929380380845191812440500809506206276664446186760368809584 1963950535045966389361385542853986378090953978963075974185214889937100959104 5683621967194865400961941747178239308771465944389120200007896036279843434099 398961664814108998463507442650115885883835112448253314863440004682340414620 ::
  Dbl 8385400876739564458318208701173336134679171045172909088807767026739846483776 2126307366899067035219045178136714591021106130232569167812207368980748189219 3212452834854535374042280504194363830323483250153075869666542615802072692852 (-4410230499312831439537414261424769473838345914721735523859468894904144577846) ::
  Dbl 12724033183873845916951185242731184925312443123221487060992865574841257290709 (-11971394555244038952076714507131474845858078840845444989795516051357045510216) 7396711623326309151242957824661755489793628671690323337312073845467355018349 (-1773982581600934918194299814827810813242349342633204719266533429571364481460) ::
  Dbl 12370198156530325984053712895146990126396114815308604802369382638902885171738 (-24736593877483058461854226595017423081649692376390713481764662469388521993932) 6991050096063184359994682630344755252998964398496487379107603768830512126241 2268025401693848440547443979052158170066206252739347503078478395248158987280 ::
  Dbl 4287663249407835489763066520139671966002322123732732806326109375052301692954 (-24878673583173052787707141141791494567983235878907651990518869545810896556837) 839905525901072069954543739492125793133593367968144911701303523762691276493 (-1271083823672552318830968384834677508264154623372853759271508804752683581780) ::
  AddG 18784660246050210372074904545651732417654633513148840378765024243373332642921 (-18000230479030519215042900031844879267952677215512222354462329367009646356441) 16121141501656223808073209244729673203375316854657951364193309081543436651109 8892499873651079788794763722607169504198028140617900572335019733712285703174 ::
  Dbl 7910537699022633497143333503647115963180926961814957001989152496353618021678 (-2602178736050796931734595281857759878194916427073270970854479918156527657512) 2858914123626040108705625670822721423738345888958936992535829274487348652869 190063816782192122671409981151292693164041988837712913227683164705862541374 ::
  Dbl 18832896544434298098503708620586446804652946910816358702557016921301116125824 8014812027831561013311930585822542846130755254176174153087005047796742052035 16204041335345509830071781738284000481335711319082227628497622398028411963167 7821739889705197902323619188875695093799620524346104079064110173584379071212 ::
  AddG 13532532671245440037854777739143842284388715547590117693637250344126498074556 (-615722777080508177388065901816153585780041860911689198945062369448473873582) 8366566543079336105940292195087438889099369769906646391375265146337691127467 (-2817780513400747541390580824332301797974605841120698580682714631053720579152) ::
  Dbl 8553501551812355994431011477992503727493841162351544192767371433893868680257 10667335978386741794754845236159125239382176769554290959569061077504730911001 3342542808266478539479815167005141328829842882602706972906671869869874001552 (-4879967755301067464721240315290951697179447749618812077105274614856770598844) ::
  Dbl 13133780520816182644804498197274976231258813150104098852848447234624898717281 (-29714632063256380962282511786291513518965927782891954431504136408073168366959) 7880769222955707009606681006885509922026921493983512034586895241544739665635 (-112236180115122669276930866385414665746351136443119517182256294578459879266) ::
  SubG 2733913495891662205384280829408767041254817457663933596814314489496601970412 (-2276777387403447610233896920720687507718987022452022848328481028497296427700) 341474783827200085771107798992593145392564936381005256875998002400486285120 543274853447061153261164101665733117974096666607642013854775056315558035231 ::
  Dbl 17874962818998453113857499329281610956455009150113069036277136501005452541261 (-25474664559547322930259822327287601523697081470633858108716833262000995528207) 14597530631006208736427571021016775632431220695359531424699804336789685722753 (-5289140051502487148150516728888379310127172104139747640402298936346409099037) ::
  Dbl 3010495153937082189436187947905887546409220561889087799307500977875323957228 (-52055242017345208521693634099284757793825030814361351883361560402962428302760) 414061609465186043489194971127498041211755480072613244658533828588488230688 2433528845610686887299616818679991545075303663502782205651924393148511098034 ::
  Dbl 4719484658206853318571752254186209508096970177076119792869993025380023111425 (-631169590158641247173406227356390001596720600949880373343554648602313104326) 1017602718019283729996864116856414900246364920091174182588560741064800255640 (-53208470088441815347729901751311676757751029259490495345628637132838934762) ::
  AddG 10134816856972668880452798304846458925103894921154508831145138258226022088634 (-1346877280295265327165128919824603931996266430710467448087855832690226092549) 4692679687711553485299871476220946178758580628874851974129521589658348011054 (-177379099712288798311367691004228691824480596126433514266107304509967039373) ::
  Dbl 4447478165129897857924773527518606096033093924085082075872274673955983821633 166679961114361124978609548464006249998882771904876026159534618155640191818 903684327020859614904135666190228384007445130896130258309626691473929032975 (-2386941816444683862929574181447119428573574039087883569687869706163650164228) ::
  Dbl 14371797387963254794130148397251841598358525973252031697629522087998731339698 (-16680829466756792061886047181173771344225036027693770275257370620014444332580) 9436507140845294333478382843253687232673857642694728384313844880907280600708 8373347222475873374044715984172787798776137808593934568779857176018797533372 ::
  SubG 14387852478912985669718609588287970475369457461525448639849075773515036886386 (-1503099863874611001354725299863508969063578331521806662449866727836986537467) 9457602429169656455656970200650466292107381480293907072105271809646512921488 1376151685091335443121479922869289646213298679330758208378510295729141270730 ::
  Dbl 7703738029717372922189724256637862010854433128507682728145160787853238515299 2938475092520574017419134454229336177931259171825176557933438589358090398765 2711390767089323562000261612424466358551351839896078254906333223825895698885 19923981298370642580363544492222140624861135793860830408059279416287588458 ::
  Dbl 20728656573720110510252664993489080338751748456199255411968897465789941695951 13125106615059675709795019794718710915788148321924704180186546901620010757012 19630502359969658663690044706972837824512132259959475408650707670045407086293 (-9936297111893493215144732313285086743040028368747929650286210349252509009067) ::
  AddG 11169610650536551051554655991229103123048699349632962290186406032152704801835 (-5423826284499382329020412048847466097314659457483564709357767548963834908549) 5699872886785814443454949433813806984906461428066035471415323709493344213123 (-1518902486767554903819604877841635975099929623898259825005111059547399902778) ::
  Dbl 8432477181067358872226684888946398156570176455264657478441843758001072240954 (-20178001545643743355584234715112521911843478649844125088971250761846075114781) 3248624013611678158994803642705162908320419720817805286930269531191453580444 1943625714053030153730381157993258121352770537492716920530356647231336955420 ::
  Dbl 18352969149569265659117144994126642559923359939141521434946010629218825367743 22694297493931500966024704378052751530324659578254485840288151649431943658688 15388694221700088910579091988224213308787913539279799919471524211326595613094 (-1453389402620427647793619525146666979672520465929025459529963210431579157079) ::
  Dbl 1552494927536181772851965774382027831654821163464585905718468097041731306954 (-13675002358785827802579734486541585652596467081611402175906549612875362771117) 110115760051553243060799644190652206376889990056375257939269332735235298912 358346635342705765108235692268318559838213799837856453612269410164640542504 ::
  Dbl 9266305665054090474813902067663859873281171407561256514122085892174198320213 10748281202182676930992022215840458651956074175444312377062985634077722792160 3922855808068723173993085469822210025952713853329948043890977618121206039236 (-5978203908726871736048992119529315435157671806474593638613720527939139897734) ::
  Dbl 2631292111252390819473600265045217853333768599436079971582721844213498750933 (-47248214384264885243636760322476276042985892128451426051037716228215221188983) 316320419838125816396529914432074772414937730065378381906263701518270034439 177667899558194483447779534120106719901708131716065437154357405526166255143 ::
  Dbl 13647805911616097276329294586573481694996358284025789545610128691583289469551 (-41436162715351197487772524628958655500220688197551763411631065030120542988530) 8509710317623663716454169344148178088066780097771381334317707166884661769652 5678108152608320004178004567650896595449197169481726453685867054688241927010 ::
  Dbl 11989686139561388874316234135848736378969992227322551573051315606397449744550 (-4690112996280750667349457562671532653781565801524043154903269883977023467525) 6567570296386742843865651478643150572074578170924571048349163393378004381618 (-5575625081263430459696586385931577696623841171369387327417174748478671753700) ::
  Dbl 12188419683084568793855751129642840355155460474469919938323337140381452731830 (-47861769723858946682474599136818101215831023968605575823457905841863084560696) 6787094571311287972571241020345929379917207463316225850654704798644034749084 6632160719821532813270225672923896948647891791413369096102767667014137412418 ::
  AddG 7370087118341274323293984994771670536310604575311873573303797090064488287086 (-2372715454527268427231919560461884149716357400017365129527407258209574995485) 2481614648100604549730474779728054578318073557086112124785678409704167690021 2261162702367145431390733643149143221158377509051705388702946048822960686253 ::
  Dbl 7584468064434050016810742462865245701395289507679105220086703522142521832424 9166254680963714736810030630588005176494921840675463799135787290412973544944 2628084682595913375795062384794399973992749827726700679406983893941914008623 (-6519129965220826741635127951358420181501089177556286133066900330216688700724) ::
  Dbl 12360519314092394463522670406475086230545067588618276780785806633057548431382 (-42168314429957678492490598651410905850258135381064387389993432372533389938457) 6980114329351498390210548235664780911830166934050358829063181505633866683471 4619099647986275088939110637972452994755862689039530442731240768507204022469 ::
  AddG 20070549478888372631304693906825108090667038056003520906866551488927646085366 (-10054841325005124871472323501532000747556668331092371038111907936620560943817) 18403805126941953720324253876723875324651636154547882609543279985542627461956 (-6339276715822752210399904850853463067234774112476354126424029348116305270683) ::
  Dbl 11245456805386497171292477245151708754708566609986808493008378915681874570710 (-27490806875912205174807827074036735713643959958133466278669431742498117067776) 5777544570492377213889484583464023792880934124326364775977336504359218411649 8923896504133471779778679849347482657355035637956668343200111286322131387553 ::
  Dbl 19713985176579709328862186757736109320500670681326994435698553019326053802451 25089551722291717174529802885355869514191317957729889616379081169842779740087 17755706285698157669552704386239382066452601396548537060719210492255730329722 (-15069224322878890678558930141254331388938527563472349485424611861823048173516) ::
  AddG 8147241960596550196862715279490397012136481323395672416109028576522700894451 (-6417268477206567471205818176504821589755375526760922030841462761554147186033) 3032566476585673722945541588148321517863370831679610652332202666375861657216 2374165910255841005943425401238824030649003501829160469944172451864411461369 ::
  Dbl 20291485252839579270045348095579918432786192023515497522638778118315388465841 8101328205437370694267452028459032256143109366951313788652704591461443547801 18811211853645113011937616920082435188557136302926296371667914053909894721884 (-4969326502676775833972517612416350333277093742564408647837894744374351987615) ::
  Dbl 21853237092159225818280335734974339092929452467128858246084639551708942041565 (-18097886746931034740344122691792324831570654468090358915737257371111816992581) 21818287297083248252660785612556881570484329830051043701345753377762488493331 9127659260908169555901413253667533806701954767671997694313987821815134194640 ::
  Dbl 9751502762042936553227660922497391432243902178391182210113982232203987836355 6922409802411224940170158635783013883859095459325682129906779035793894635550 4344423930002766329383021554136870700065945795196693882063212140215091063149 860522640081631538648531519181743313020879595659431663455438699535134788034 ::
  SubG 5012203101440518733275974618367995025416215783724137896451402043549478925958 (-1179001377054648282680558333205216724960021739498280171109528462953950625385) 1147747677928563256011516752305703095386929414427554789667919176454178067862 (-3150200384991830998136056996087134158059032138879394095737571279109205558369) ::
  Dbl 13684660759389769848814002523351886777123491499244947551923708422810232768179 (-42326906610338921626458466296929968462235541159905879036414911645591814520725) 8555732006268890898141505561498111162332491145945699934420428796088725837094 9681038961132645689939228488501343222186292919836021376221162307074454260963 ::
  Dbl 6791097344765140336873019065075630292224884918042042584454619831880786187381 7061999401543191428083934171826729399149680314352369331708086904184507069897 2107021720113102277227137671011676111603770949482405386375334110345066293050 (-1900695722666563067645843220006387806205528566557225064468318261357707002560) ::
  Dbl 5435193669643420486478712368490549787544582237678651207499530179439562294867 (-5363453552689994949035000249727972996399150521144633386852721265755301964071) 1349643751648007237201134167965616640957476658122168079728264081299487151895 331792687701471928269120307201829826124563988200049258472451922000488150900 ::
  SubG 6778819972623424685453821752796532494173568430588565881333324194922413426606 (-2542940832075607061893924815868336528607769003595242708632673294913742959802) 2099410194335844147648549839069097808986405900177726285839193475152518873163 (-3007264421747965166419766306768769840314636251733814329027234742994475675166) ::
  Dbl 16741320738266939750125843260844219856845602288487108627831106954556417347618 (-19233535732478203854160164781508557263225244387067007204248025091582862267984) 12804674258348787798374360567414703475751680492978252302675404929807328555357 7462367888723905250411107681842393279415689526820381483490028199393596035291 ::
  Dbl 8271555729301357996221146217550417187947284008772256395735727491604007737565 (-7360115758773304110607027527204388540544984051980456245798560233021672789559) 3125816657990549939151405959292224197917498053118036112906823289343305411136 (-2588480450916155227983325777426566390202847394360803151139597387329317692398) ::
  Dbl 8178353372517704285616904918370959440096193404339177319742886783821167381184 (-21349092417627933816072362969479198635748801970656198239218386001020067663797) 3055771277639853014313730735669567783155684293957944295700194542807541926789 (-2487999151902821826128017361943249107753492066710916783475387894302255415796) ::
  Dbl 21620395885930389379090497343582630666350293350202913197995004921657431745838 (-29940258871286961639425915796974546498647613167814658429785307300216096570129) 21355826550414938081659146183775833822127891754825378546433356384746679777723 18481530056564949392177249864604937624266686196937273882299335316536152307495 ::
  Dbl 10417264296080927983212968149056488167709635189495246690285800579737317179315 846864623447314771325687123307790023629470043872189016704748325714837172839 4957885201192650901486193679815936253298123370227176924229205844533848816799 (-8807490328723906190267807793736492763989531164657333232307567926414183108817) ::
  AddG 10541751117416381021988081313732492173717534892674002350312556778833468483225 (-10339538052993420412991379486555192804783316841575401133226899476948522923576) 5077087150039072885168593806015289989205621061110179933646888508689195127316 8294952934217924987305190061715513894399564639938323692164135559943843460101 ::
  Dbl 7796683616374490312605858391923061568021336997544487895822432981400552914054 (-872834678494879720321744484122519914797705081480350655149690183990452318456) 2777211298767644956082478924506531993082173767227099689664544005075442899226 (-1404265192748194763818775540697450024212228522114078999784843077111173387307) ::
  Dbl 2703679592267605787670274561696068435109751345748379155560503916597343627067 (-4641184512718080865648527978625701200052502480635425643723811051079012212064) 333963917544472838675977984950197317991463564056735822147557779163096643520 (-1670182901296567690224485048227393059746384162527345817754870695589171409142) ::
  AddG 19763880587973656175454304569511113856098606210547801026078818275166359094876 (-19601938376034878323058898083159053660736811682665506452279120731726189915474) 17845698176084737626083160547238211512119299373915643864134699667519932134478 6119491432378258656358252644761935817233218017246405865060490666611317999470 ::
  Dbl 14122055151253435274823395597576796188128173637628522899268563197831453959076 (-21952680356162953403997228414561842430818846514992129264203616736344888864088) 9111395686842784120235832972565595032262941474169944777619585950572616225089 2635036414462111436502788766877485327205683295140763378351266850971820980660 ::
  Dbl 17467988151978625187218693798487361102073367643883124750656277810036759018502 874775801422113257164788925105319394935201382686911690449654907608342234159 13940388539375952836464864841406809656275482910990236270153618839631128878424 (-8261988920571133594909624855089220661062019850371934729737230115225263450143) ::
  Dbl 16402920034474823307188058511586606127640016499462406625461175390542759972323 (-59873855753741223193256660593980121329467110937971193403851196140539022265432) 12292251471840814103440045482737789902129870594781342754900774732338749149709 15006219187060527893813444384392108132807189131766563890509390390891043244418 ::
  Dbl 2998101521169647273625589039148199678618705109226560466429020173274154978845 77737359495479857313775046846325908286274381607094522979750379049083413460 410659402121502376956444159359519211914429842508719305442356693247793283967 (-87625261420300263040971242601182813661095196616083623166471305796290410548) ::
  Dbl 16158585326513287123187332972983389332587009805236032404974014226169210847451 10432918530030021972283429951247858968645233193653987088691735012783172472332 11928772961950883967373646090651171714979788985774180012129716785104699552108 (-14190569391936700040644290435788403820910630749284944528126934754013445354585) ::
  Dbl 10238312720179061574962535808120120663155634898069148834645916755942999460291 (-42739710641957361864828880394776852289457593052368320381389076631220468170369) 4789011524129349400162827387100473214875660730910374664817979365814678428903 4452494384195625883126647356840263187077877219307230096027735526550157990921 ::
  AddG 15958159107461145975124734933031662708160059820666305849334650025867948972782 (-8398170287939380750678116551694049001048746105410127697913763405801973895901) 11634686420018041799234343995697951537506438023349969866285287537643482125520 6317545193981673335877241380509736863000935721947165516120152679444021610290 ::
  Dbl 21402411580257441100692967521980585765762532266502724333081364014614081668830 32643959617396064255305799067822060873387334402404927721853554539615620767619 20927363796756273633719700379684520429147438491970261419115196715116527257203 (-2777936030513116980776908083630864018384934197222521749120405912224812591937) ::
  Dbl 6409607445652704789983150621362796633619525174264672702696079514431046119834 7443729221214114427302031528403842345521029772575800055745340002344739559991 1876946808746478845569867753378615582588952551814961764476075965145485218461 (-3648532724969169691874968389707854502157047841244920229251946674724296290861) ::
  Dbl 17585214398017400577423067120010613697251628698071588771156591059826060420538 (-27820494143375414461176798155822649900022362780491971455731996678393507088645) 14128121989275650954137930996771556495539759101393123110720118085087411488326 9583773322112683391250229854379597023720058124461794826821617351347827235180 ::
  AddG 11886052636445804861284652565946322013579066346810511766777835991502286181686 (-3380557442641115785490973953989799339835204112028142647463320368178662706843) 6454526665460406490012453822774687376589382001685338225767725155819151045568 2497494235167824407446919914597297627977172920255367802902797309583800820033 ::
  Dbl 17998839441454731270832561382794110602926029933159078367873327469097910928389 33951184519167856288878052526527491719955294590291136092736501523148208944345 14800558598335955052426544221033146556252670534762326327016727687942727699722 (-3888543509529747674250802824522309292209976261239697423001311265029178030395) ::
  Dbl 19191211283483970852927327742114419377632132639846631016369997166378588843438 (-2499003471739209678371220340816671412587685906427530501589152627037295667445) 16826503282324640493706785627055023523663871665361122862877780281576191065471 (-5589774778759372106925819566494995811901007778445201342675057577253874186186) ::
  SubG 16844675323099231256652891862137598899600869624133207286040841793154795651025 (-9796957874950481884286079943710646297726386072299339150827383541679082786642) 12963264726273807986075955432486038696564325155388206171738882792625579052186 (-6792203608239471495219247047445414265445671662496992359550290707480562670444) ::
  Dbl 16258800938930301239060892783665519892645504045898028148359473109912505378540 (-53865963130412798424090314413247128102690096593699251306804394951765429967221) 12077196398065531747831506047275066041673175652697890280513704041026981802049 3661252062127993067161774124464927759670232259912343459314014262574786682153 ::
  Dbl 9028806928997036850658707323057702438247882401829312006981391989312217954964 (-23795452967744299613628336615826223815059773982767331973001412465572956197725) 3724344390658472681573495426163913455396954851231640055486364519706222729384 5263107956835589355649994798142885030075430371271910622692005758824821379279 ::
  Dbl 20544752793733148857857371451993264330766438492648443014076866213847033560863 38259886710510173176310867310033938333488292860525240722969024996220079845888 19283725506292225567922582868466781998030365268841358368693322242249116870534 (-14377473961885737692860569402405570849196450243608684213384797941031249757754) ::
  SubG 4436495247246714947531038592465572534208756333114882215914560529804748256745 (-3888738091370006286991785336819176396833346701460343001818331704953343920889) 899226593659811907977424298734495939213961240198134984805353481420809138556 1439115347741493314460082987997875214008979710833464617742604141359886759523 ::
  Dbl 15055527614819816539523695690033744139401051830597486034780541941323713122894 (-11731163744760843002229470587463338198438806301394405038871601621546006080373) 10355738150741518225230075589009511636078034768525071371330974857480018419740 3698546940905152120604692786862712588763268500275113685596237029156748457684 ::
  Dbl 1622769682218311195253360482292636359843086959996408484314594380179695413092 (-4018106489289531947439205190840512736638490848150294663069854093458573712068) 120310317139021900689916874625973050404099969589857451622523557335174175870 322561822413170560731920899731825664248724658339350613549045802737423208459 ::
  Dbl 14092857728761433448941394650588194209849279345789585134176830514952518335508 4111942495728296146404608985492412377777160857118443133142929447838989223780 9073758918247133309707894914309037827509939374082191013908271916831365725661 (-6249504208805468769959291465777676140876081317843258178685387002658350643025) ::
  SubG 15036451388218910324115458132539571938082990988971531489259920200672845626062 (-8287667350920770847853235390191418746819660726846972093777638109295169356420) 10329512134624426328413015073195535698810982043189833212729135419890123373443 3893882885188642850022795333636218517159502837975560114089760604777348855347 ::
  Dbl 19496053486307738382215988604740638727288018566682139323243066475461184013481 (-2598258754568519476770987210124125090226841528085282558222864159356640180327) 17365309027614629053762292253877497557933707538552640256264698669720347816072 2855181032154951526289716461182495830332039600456438962894300124968084976294 ::
  Dbl 18533801183284594053129927333913102666659011352824623971467470124725683100168 12070490586601890999883720314661715942660074808566216161115216244958358285227 15693438176504337494877640402555428925481476736428682960704431097701570924115 (-1497811503140956874594463577066505262343363272924656101528413554831360517560) ::
  SubG 4559474669778190886938481999448603257521826670282816302389756553408060773940 (-1033062142904804142845922167476078057040271878606349519162239970562977616919) 949770586249075795675530914446435734515694679533572891984215477878660979059 (-603808710417358466269082052090028110379344601373732376711266627919818977732) ::
  Dbl 12932471162516714227186619237421811864639737382876618426910712994951380536519 13523893144923499181120580033338400399366275917161382742057161325159149950505 7641034108978362648232785626791482803059914049082502527517525999702624545174 3269057402034140086412978901264689491198937951480888527198720377975821637848 ::
  Dbl 14719390489292849650913985218584391314545979946401007265528571282955622570477 16121989083574791394735135539492476160368693236186450552655279114744260584369 9898485577160390700379313263462079924610792152255161809739525018250453144180 (-12635153700172619587255122179600613750004103502754028771301693889822211786686) ::
  AddG 12719102587779804656995841023602285911048753914877024477899329063737776609004 (-12269192413002945831110420711602191210762806013665484280255126855647566879802) 7390980243855128449571774978027734435871471380467094720012604039879469400285 8400504695024156186589940420238096270687255916125237984634057811935374460048 ::
  Dbl 12056499483981995323618362779175819479155926693826883616927926149280480210234 975261440885881143554605720343425914988165579772068956656422601084292031495 6640970710091702607019498253518424466402566149838387041168782216233261286724 (-7438599109243372815074444254715345206413954191495797935198051852863865078011) ::
  Dbl 20902570650352694187915033255110397745361284441732534465915851288374370819869 (-26894568161353148537492817031573439314673937478698189484554083334231293672504) 19961285259453608917292485767432236418765454382788851069846814912207910198034 14831382545813045349949024724408744828360440027009624424794714756152509874788 ::
  Dbl 15898886943209967519436244383337463679626514915321927293026711253407572131856 17851321341148476458991322285218556389664202026403965830095637275499280125563 11548419282124479803606908505189270339767306175246621369692892224286380123028 (-8777741185954961712767124476168801040345917284002962688576227625245522517565) ::
  Dbl 16584071449724504938752828259316537581631370381753551555129741257172573820648 (-35263435009866441789560750518735378373540017648114430981093354569956154457940) 12565258319726259262390368326914303456644977223422521965495096734647861410343 8118984858998906435646864028508750327973462232279459309225194900507780524088 ::
  Dbl 2552764130408288043952915899200732503873496488952239168139896091150363925404 (-1670799864604585839299810145112022545007049734001068778930210991226644827709) 297721692127385962038772807009295416391003778852787650615208478004280491235 (-1457547673050439649721968026247626263544908062761994279993989766773239152249) ::
  Dbl 8139466562515896740897657438999809233230678462657962598633419526117238698298 (-43412546790450556875784865959388851942861804668543945767117654376835650271617) 3026780921165247708015827537258672688398115828080875890203582601434401715191 5177571454298778131210912258361224115143834050727791908866956023213839182382 ::
  AddG 17984976078828747457308430453127354050983120065995178953231744562168801616299 (-3758638884092139386687292985775270945820350597082078680133910534951030614300) 14777767518844324977829963491111498914143655516553456898689171435851891050723 (-4794558296821941054273753334931099114065284198247934456244810454240096014257) ::
  Dbl 18019354818848962438221429698980500355501071776651922409080847780958231332949 1799942889828000950726211894078221277153084604536490390144664093909230770302 14834317674047762929946210273955120794982615100506793036128948233308460804989 209053269458200317851585259894375713913352684165539399986831409383582943026 ::
  Dbl 5921698205468615491950755669092632498809959998081282535147144284959876356894 (-11940147422693328114689843069365878232102314528489555978658656829960192764056) 1602070565553057222849955511272119752415071900899441883006627752130483403424 (-2496107720134312097390618758096034295560767708941762618201144606588256573572) ::
  SubG 4635421311975858996393041135191864740714927899929407167163247460465609521479 (-4104627889017527414082143573804748753004312169363353157802865525110858078286) 981674539401454669720767872214418989350063938087844261767396941855457343403 3200924002249372800133125334231202510937127602554072615828294404586435262169 ::
  Dbl 17860553712689216248459733922089216081460958757933949432662304582439454195501 (-747282161379196441444213618539778344849421245083584008838588470777277113419) 14574005816349521290156662686987014232102426276534858187158964234933431143481 (-13685366197763918156269076917682943691656994764665953501095110727427068242035) ::
  Dbl 12501299129000628069310636916832629681459055468625691710877540544491779020925 (-39675492964658789857539811374031950597976828037126863793315823135083140412546) 7140019453723258194917019758675384906734052056061104852840170601799593851603 6108022396193331181036223890500356685001160517007035727471884348544233159468 ::
  Dbl 14752163171981479665616126462273112075932059251703883487260309780993699645189 (-1211835144066471859463836499038953747593138969908054802838035415044200490166) 9942612548984361241629233631703720302014885287789522838064892532331072530698 (-4007812769587281445192502837030972814153550797036413729885921492921118503422) ::
  Dbl 7047206894045390204255995453203756185885473918268843494107115836548222655215 (-35473600771089887449187235630053789879553048524461090883004186073185103779821) 2268940695617732295132911226264519635796126228177933719995457671440608916858 (-1010285475493174597352473628258604238161061365468381252116784409029129414510) ::
  Dbl 18757440554171873304188552275972037693720238343882626088463244015401164726164 (-34148425669219267448379855595339421006058018158743762554020673816711016878237) 16074455048923088206107077314391973009250437716679097969511873136352120724027 4538686558192548466883906604332784327295402729454922245475624647143243005734 ::
  Dbl 21126515911745240761588237961534792393935628550519362648175343015521128732135 11427654620979360251138070574744382698211535891221931695427939183820343070031 20391297610438093292760671528477453601131769117200834287647250167641229364937 746298679298066783505211413840922722331047384314400497825532152355396976117 ::
  AddG 3787860864056938256987223263675090313834457272916531736449537463079692085717 (-2311893562599576145039870164916953702600776288064203128148036327376921541034) 655506703277389102237299346805863722595382212770885765138477410496704358883 (-1078236821690886431673303819653935180352464173974379114161865734177501056607) ::
  Dbl 13973179228284063488639575149709796023888294897758765689041823268771073850949 (-48532043671637108529804324550984306094738047809244985632293212995985676562605) 8920302049323081434155813703194871637469799093948810433829164408426328815909 8942641983940220194574203637900405655472865996367583689527786817725818112655 ::
  Dbl 3179317541298125926128066024107533770522674338821755505589919577764853391012 (-4168610201923451021402108059119829764025711351997656251751075808834530762288) 461803173858723613412986617121655327589011141499776115133121709786479476748 (-1627113331966139325400765448949251753399619339034802839562239975238052481576) ::
  SubG 8483418311749148157934855860887468471187258485576742950034816636077905285402 (-6505026973385748835316698017121820641084422272880752675951460996254289389106) 3287992858701007429336070998711896776261349155111994135347362250459846646881 3543226848768458549441776825798304387326322327438249684349872514275394376525 ::
  Dbl 19077445261066289016328073912879252236223381791385063527897431993441316448199 21004997410648305207075250133793419306677000396445044572602668782880954263990 16627598652846905205880242339994915961311672832225358945883750477718085857133 (-2620491800488788351716197615969004929035515217032776932342692947229443234050) ::
  Dbl 21457610445297061517165086473185565319989028117305801405223823176168876127725 17193273007993905782948642327023823812244399365931564029248439121621272732146 21035450342818293849085297032534612130220850828135908504969052097227805975155 10379853250319820854952423814918727772253860063298232063600668891248649620035 ::
  SubG 1559716904391708092225745702399874869906194768532699102865047475145136205382 (-4291194602959738676898899095033121757731433193165529863406189916374011180) 111142627395418278324588552229020228689397844503624100408927234630241266764 (-928606152377994183025150519597028356689081418682038522737908327472484608285) ::
  Dbl 4791703744855816236078351979111238291001527999424994237906371113337757016009 (-16433760943415935217821635457810326188146979460420495073530321352784279006983) 1048984375443193457750653548420809342351226698356967749913799962653531619722 2403766207336569203968884759665002429789876978860194538154498221951942504629 ::
  Dbl 381949321692607189869594571520429589439885067073745836940625095134821149649 (-295158627150070753022489177695883888057676366852579209993532396198685008745) 6665006652001936218893460031285659869890851732443913413429820957864237570 (-282890709183829083334519711245093641545226422427139357218489313757593814613) ::
  SubG 3305364460967779482436678656909042274318166769689860114109288846964609593865 (-2766979560047657060258990904876992578389362216140473996079674632853757328887) 499146244118349921003921318655317331298060973050175944249371000382657177088 (-65165054909849297123598717160459188132067393979372895159011501201355268985) ::
  Dbl 17737073689691173117854500489079501408654244584964719243136069729711784625543 (-23457396507782130053084861454739420548098662321660873641793090690535983917093) 14373185865837324800306512243395130924134112167730726023734440902187377867964 9158145183169872599899550004890796486414132315409935706734728900684903886604 ::
  Dbl 12510124970863390566962284975875409006526510904982158689959512475303535350428 4128827023774980179584348817312698646338331524146656376725581984069164724539 7150104633934406740814611509671487162030631837692647699678578407202376362544 (-4131643312898548286627096294038789543318728007229465357107792811768123334774) ::
  Dbl 2068997546987339664186632310929559716569783242347806208542294143816711873604 (-28114234421244891617279595482435017357186574864689950883420794778081287821540) 195573069729919170081976680731049963392760214207077583184770235069245811114 47522489209465315632954660462457767000499239806451286006307730507589900637 ::
  Dbl 18566603346055160257686105469015287236718458752646397715974990657166751477297 (-7569529306873523513801432041265656409157330796943183354622687818113144505946) 15749037591923424155097253084194001602515766499131379658077504920679409752467 361219254857428629297040891220980284386377443116837644732569401786460532583 ::
  AddG 14237419922811740118431290400734487971999749083009511102319752353060709495519 (-8946007451616284591140070815295920157063374342062988595148503350824157338564) 9260867911844555070271248647887848996122853994668585677513160541483631070259 (-5074079618345396072478371500960396476787724203512718538865583154195874033546) ::
  Dbl 13113042638870029054729588158185992814240900390286997383156301157473843554144 (-40419719000189406967254458378821125000798853149726133714797714347296863000957) 7855901830751857407592386259349060842363905190289930913974373066222258373661 6284809147917742907475302036158770446896612517266940029765642879368399722712 ::
  Dbl 8900052622216321980124159984257503464854772064303264154902041510627441209099 (-13911832949823854774649999017900634415560415238349665076724816294831484593035) 3618880562593259983586814202410372336754854957300348567602953303724561533804 (-2668750762412413840285162674497708358479108874986104549170400732948221411304) ::
  SubG 19813431475284544957311496795254123265637408462356364172486040250647619871574 (-15956028129623446255076853150850693071506764036749494499587778773809403220849) 17935293807017610004645400325891979659002509141091905770791896204361461289008 13924896996648658606479675241163298853293142344676907143534107824787705574429 ::
  Dbl 6315280303427138545115043924236126010871434601848134417017789854739797775987 2796695188306685982960003184270856046490223207160584703302130398035194820896 1822109044767896029478953639686591352661692428329254077619687005267632904007 (-4219087581005698523916341339790837971981463351802122852624652459976437593626) ::
  Dbl 17709136150723470744832778459167398743450248580980801791061673885577856701198 (-27958839029767055117521282054075453630346229462802386143497081009798616058744) 14327943318298344302454164239658591589489619119560494858034213711525270877262 12580432809452424682407316323505139523029192818954816237239840816426835958215 ::
  Dbl 2748985767428592466768399267607374087926513436473971882660371094415693649533 1526589598546205332931004510345667795795490633384854476879612569392416077442 345250315147382916490813193766913121735484748580529552925692786592338612151 (-125552969850837029887953355862049249166232331930592941387443250679459096357) ::
  SubG 11523904903634418430081396720534932955573115394422175849005632055017857275660 (-1220025841612859133545348652693620667839952232240956721828853569466400643074) 6067201693876770336632355784052473605173252053050365485869151824413694041358 (-375087280123627599414952616036342916237933894573897595510461042126755360051) ::
  Dbl 17246785870659038975339079197624267132115353144961732393932349607034121603894 11832030824892284255495397846061652021733582980700979522168114501343919453759 13589561510716612461815874062587474067771935764191998030778834319658366625766 (-6479118723033141264417344811006238816162375578628747472494384799319951776533) ::
  Dbl 13755837627034364525887393056181727412271186729783601474306893652215480743576 (-829709839996565629065623533583373276495122008196208735505890653120524054464) 8644963870753776452443942321705571461497923189472859240464684768580900220917 (-1063957841723857889885596171963613719671607974267497824476329334743185401316) ::
  AddG 8598333391035815272183623677201486521130114147350447654342872200613283888906 (-5085353236690225401483773232620853862044455106183397580875259953455543423655) 3377673463159493490800306907834317871585366852850340024569340695521079149106 382432581188676279297275203589710394322032292467273988822006500039797899992 ::
  Dbl 6542828162691956443171279643897299669542466800823896488105160491271881107253 (-16596265978750295162666394798319180653849061729822892293872205928094288580492) 1955780581254021131379396626737506643542427890676334089177496987278958705027 437508926782690679435162446746907738768112758141164355662097273855881603706 ::
  Dbl 19913402527833970443312856319891876025748017088647834667388216338096207828197 14865400982809326928614086126401933709379463817242926583755045000135441206928 18116739774745687177252109901421876633101432549019950969522090114423500272164 (-6422286185821181403934643526864561752151035259013055683867164161720224834041) ::
  Dbl 4854946662854639393381008387421703534670242960282048411515748713871841914637 (-35693194196958374335093615836607692906696615209287456678012011421899171539137) 1076856979209074502798849288585459651014255873356364136731561343525162182350 (-5307313124505527790079745778268267041622357394656507422931239311015531833) ::
  AddG 2883993251841684465844709008542601267011946741908947560433316645242762378490 (-2317844261287510057043050604507880303848275233610254215728086473622104979824) 379994736232084706245223712727321486934796133898349311753070494444428664103 1843030177707776442831221166283725378535344082402537081198910420011677344136 ::
  Dbl 11013210264698031772292226752074359150562961616267411491621976635969051919012 19105561039874099028341169335657936505169464804292291580043388606855437643755 5541367621176162090525686452840917156087711240352690275069112894057413299300 (-475731182505653804101782315158948416639738998979709757000445233083213528919) ::
  Dbl 884039225328096476670313580086478025674951622937747318879883271240793391144 (-1567377676993487652021730462012120645336678860709467560362739175158431488660) 35705257680788386613564620417819813490055596725136341680942669608895507142 (-41029499978808903399417840316982669588136968101365896210100884660204401607) ::
  AddG 14147291441886091617261781258765125645271044340887214006943544016371698960355 (-3596885737166996991398159039963999962236625408563104323566066765595561585311) 9143989141273866746317258768138596763609324008520040168288164202678871512058 2759855042197520998826406156060190500162935526970380959073541332389454743307 ::
  Dbl 10287707691695891433233476804642848726037150289216573951857323846594956691796 17806269815692646534077369813544168891202627578038886227934181732432210025328 4835332382296674494957045905605675292536068333633392538189952804768319477811 (-6454616541665004209643611954022118388901487604633531722963175019429492700423) ::
  Dbl 12535996210776106892625448076970324500210086477900731061558516797702302121968 (-13418655304988453464907894957112783324312452564535835880453185734653813971805) 7179708390333090747741828691525083901025404540380119441948351020359515081058 3545653860013189080024759987788767108065338275821558376383019365556572144293 ::
  Dbl 4006857566301374958282315162967700162687781640058829648935610649594060062523 (-10037932728395246149635186889323025691830719952722379007199487313246438626300) 733494582028889878144246107535202925713774402149716400643636367205828494906 (-1923210794912006569660742793812660723880351969709055152342343816335466946625) ::
  Dbl 101528971147039403913235937227688881447289395474889053169303935370757442722 (-51213840762145012616359230599052200926572773552231377418397113991405652650429) 470943786695572449813965325315844454469294375675585370405224001945660082 (-9892806492695656889376800231429112730486132035743768127800054647245235370) ::
  Dbl 19432199750278054422549414429159247550776819872623538717367445953361547992292 (-49572883884887245725835862005105112095338647060905162600414596434316168293088) 17251745119318286023856929133183800568680375129218711570082557572301524931694 16950746959283664161601840677593397956490029909914887779330602975807887251473 ::
  AddG 19224052452356482026162475735782738587119728292655636587656811297943996477847 (-2092620009147551765631247114306108128578366712039594162633157863903927517421) 16884141630501685277239965147167768237651060573619776678597403737166315131630 (-12404507373599995228297986607512809738027895818603914874161088842129398315119) ::
  Dbl 7099964881972620752161356096870180748191216919945383992343773599976513346759 (-26360432668690068164753112138076127519933038621109778203627269671324691470612) 2303040112466029390005690936703825250913337503067966323793071769655909260224 4814111997579931854124364716057102893285648096431576545648285731367509360145 ::
  Dbl 8656793426533344907756324330577925135454177548681217685961226047434623291699 6667212719151721102557333818708610937507584817120931574941565927497055156051 3423759178316066237763746647097910345179081624575232114027166195461702965136 (-3688632852364113866584921455529762340583380511464946801299998336511822644492) ::
  SubG 10617986438001983356978789721977067020260520491150809826732258860529342304050 (-5331966498081245056496045984612401289845866260417827783043892452239653832728) 5150785134180135076625835931992231243248315783619017369927453994714558404603 2002518618454065212410653291195498106081408013903529914405373378325138746956 ::
  Dbl 19177398282583985830225528408135253218950412925024861923016239890945862754800 (-5781941877461229074827340044178355904561973523869481733955916528820026090629) 16802290025848528677138107096783596435902721712706809310954042901875230909987 (-11839660389995516442292069166767167616824333571614571821478524340486545883580) ::
  Dbl 11234479084055644960878019289124214186951807985908553803142790435505252875558 (-41211461958958560324268517518873641467668954988089037087232604261854721524693) 5766270094364957384305805553120849810771282598382966586314471148939277011094 6907081905655875069475377365712798900127808012604209960872315793136685395725 ::
  AddG 16023909918689610922554479810898880680815326890043913255907969512879579798584 (-5065662202516740948287188691891051403147944899874324630967436332562328733304) 11730758406953988630123880339131946020268969925329038089622945473583833213860 2096594326292396167356880592058397019089717137929366364164066722616094725448 ::
  Dbl 48875831764831495582059706439428007810999686432194030936313992193544513028 (-2245912059890651189281371374550387998707752076263593486350760808968428293381) 109138360017812427840711369348442225688033106171644736442365408367537708 (-35234175931539509036639166453297144910189395072240665659419226336461634905) ::
  Dbl 2458508467555161721821879603098804982576151241342065990308048524955950565636 (-53589341131855467746692740205663712374781085047080671156581031740884653940404) 276142032982318076660205501985302915693747764998356914052656306589882914621 1012777708644931299423561698588605262547443526946032147680247316173351682451 ::
  Dbl 7588428865292888120906121732303566845482505055277077084989996653239994905305 (-14915942173298118938496134861353312439562654961423356432403746688119812306915) 2630830303774470525838863887414850913210096288156124736895422506034809208588 (-305168570176679714274288426624681577690671632028223748094765026088489731000) ::
  Dbl 715759715827126561121648798303899114604183151963508263321704562284275307777 (-17698906057277486941401365238556558475059970805642617556403557861596262232555) 23405806203843499731389385902697345632377234669638751000672863650253096653 (-116127741289271085920701550122388696541566954419071594498901534807934803829) ::
  Dbl 17104401403835169587071933343567118186928668835150705188430207216092577697895 (-675894421545278889543414873635748089076625264893970603202628486593187608994) 13366104766678997235016858485636874902292696893011278399639276638354713021120 300389332518654609644451963960284265651808631546632964749486784301973954513 ::
  SubG 5989154716793333673850732644941482084576768313146635119857846389940500966558 (-4067416577487758505968193200050789199881360696802462902684263160041819757817) 1638778152806272878935005580675422702963703942052262742764659816464368525814 2233629817451262071808243239477501156981712381718191930480486963300046163786 ::
  Dbl 20376690323698056551111975414267407630476252857185459378035387076999986331918 13909668035526004790806798072635631638952629548138365365691423972213927974932 18969522175856587457240729364708860313592672431604089741393091396647830383975 (-13688061663018484696473800057974760877569229244768577352916548214478852277657) ::
  Dbl 4403904633695271762387387361467871924076457469319509661106946629138428701447 (-54702393620307280955136753095620340027824552124748970098290413154186532565133) 886063634081604599498273123441526517801393057842615864945562846961743993715 1198380811617734000048349889866394929908808310744424753583431177444480674433 ::
  AddG 6114125095107362068794583333558751771289873078778766283718613357596562982884 (-4315458046763141287969579950281026912360854642818590833361659442693446257923) 1707881527882568907477630724747903796483396285639234736451773150554744206625 4285001513507141197145865079524714787740806200240278715520009350692497543278 ::
  Dbl 2087764505217943715255171529390740241989248591256114386765985936985003619521 3053505724294750676628772669000204806906980012119167251935690136644046997240 199137073485956684541725661264686270680035608764557390759090396124525530886 (-1015813889349522453931728081535464111694616891517744959002915152880763224994) ::
  Dbl 17319833234626946912642937683582061130244034912702841124934194740214255597491 5299359400645002393473753835306858726220042615932628402902588021080799816561 13704920263893298550522029171870377074604073650476763829443428600319320170598 4646376521141582318632195127778639749616601872034600707496461504531709636024 ::
  Dbl 19162670674506374685621791910584706448299448048780402162115026497585973933649 4921345673508533223191534528450569780087326928104313601339434794141004245621 16776492728524352743575251598275122665900158509856684679883788930775430041244 (-8744181402360194556655823350746704550767184810609649712510499191972123636713) ::
  Dbl 18992208738346310991650432554684531324703782150305853675068167600573178770800 (-12334565387038803741986472450931430097767843325001926070757323853046930093501) 16479348976202579740326886864507730866197222634150648970148453015524232874117 3799815710700104729659374790302329633970439669204833190636855862538218437544 ::
  Dbl 19915487559522662531254950041464246446586076499514511857413374055720278443792 723847382182101586126914850198319236405327499491627106432573007609436477547 18120533797794673681388920158524077034380016425025265031448715121794744167313 (-1121369060673305178225539445232850577850681109017767764463768481998617684781) ::
  AddG 21314294899265556743976654640610520986824456813146926858718830243853006119765 (-11420525935069031320336807736087327797947981952944251343272301670084164972086) 20755396845369654954060011192286471593344195200353346087793592602129523955192 5244317059162450100639086427234154329028893348712623210530365682870759915168 ::
  Dbl 14843701040321460719710593399061313320326729070685080448693736916747350719111 10974759216088260340351309603950229847646142811839976334837570498547250072677 10066384125238170127263065151721934402777922917865688906023600070028718258795 2263588881929687911573258185548912165230539282112376711125877261170876809689 ::
  Dbl 79318894740186443440134441777629610362307785573911711837779137572839109181 (-1114923305836514669955089672760577265468739810737153519690029926023764228310) 287436826228715051276401883906950380128708833706909347029102093176483306 (-32984942496520892197374507028516493540859319895332546070732944774865693391) ::
  Dbl 3022469141740913597140252492562246052791736092211316293657637250711003511672 (-19349068428995524777419030956745892569576727524927125412653185559715751927509) 417361949347211869474911611549672003629310506927584058001654092029492281696 576258768341092870162527943435596922455314298682056708140015987542752174446 ::
  AddG 17848832081958322510423135683776511842728538002492775520410389465833346024358 (-6469620951612562354537278938017509894231288587407368772654388441606634872576) 14554882662592377871119550062557227444010221764384243836791219855388119219436 4757118163298363001657346133644249851746201631241695806549022455338169924571 ::
  Dbl 16975427488374575649351451066758764847637027736619622673273074182016474144018 24216431781969420265827426534178917313945471354516396550558953585634639449147 13165293354077652183555661921170198593654417872684612453895569262786767525585 (-10068487594067567246404871927209669317645204027221986718480172129371653199649) ::
  Dbl 11717522602794045917607743615334094794894168200553367477131441503252587005959 (-30575835251312638753474170037210317885917508670790164180777038698368780143779) 6272789312093920786329122787216776632711082512064984581326099956107303853533 (-793854352412329666630685132288577163990615763543458764750515998118175115749) ::
  Dbl 15020661152027205404860950791890771910863437865331327179527965246446214746582 (-7826379175474284229498730645378247553115892729492265084260607740258965297060) 10307828854288490414260009262569463017486870588618179776148237132227773134878 (-2798073835307274603735319230624235467083899259323869624751534596113913571474) ::
  Dbl 19328158594160067906628734034985729622384451533399734073596487735412067418852 (-51658653405633417614061176169747209625892336974045849699599087991560363139660) 17067505913032289552391138273778017356245175415354717124090808741504842318771 15305479746573668188120455567707124976677683907401625074104601619353301384541 ::
  AddG 3240600382708423121214111010791366110329585128506930820208821276015532091789 (-490051410230973487047771267210251085380848428714436713934505057853260985879) 479777700836866452478943418142566788092877229125432026198437988351774221859 (-596890163300297930823611651553778533894887923756851461844604496253362579172) ::
  Dbl 10026611331532355587386430320324471452434115410483043332670980674987743981331 9286080822200060815438214456527262350120861478931389351161289410906089978474 4593010749298453203055455918662975150569023592588509328944763665674511576764 (-2196417764931257772569838347863268602664886803383214265275634681516735245018) ::
  Dbl 9098615841315181983353861340228408165003114551229054177362625511229618147596 (-6957576157890766977227643446554135815607962168782592337529543287552304952925) 3782158792396255328133884225012090076547569553192708076788707603084277118163 3662715988673196757165326423363728353639615196317740162292650957961457622066 ::
  Dbl 4955864162387200366201890835093234355349953628375980682002633814127233572379 7015539708974216763181170768834021865182639953459717310730704173892949214187 1122090509495975535548440520234669906872711736085337785906034326759915339522 (-2551542930659733171637487005145806727097004336832748684883742540861627488979) ::
  Dbl 2571887661121332006470418696043616073591572652123883118425816015812085913753 (-26477849160638991467419116409247761875368229352953255763246524476245642163135) 302199047230890319607814074305701905433766302766144810587672006317505436663 334250492323646372812974837448963122190482074560474477478728962657610986237 ::
  SubG 5050507406769133944197894567246580277977032384124453613577787806328150103181 (-2711138445952881038277192068815655950833413547196498891015181361698402438344) 1165357366289424276224143277009128695604492581989635907892657344550381652224 2125858622484972673913894763940327131314122562084940430151770758484654849138 ::
  Dbl 20973452718357824417278421917953906376668005886047040212420434254020172087505 93637435483630710531620669539397844303037454386617909574682790429933451446 20096895009107119501002668989265442957854511593869918903627146068801939385715 1626159070061132437785050314099889699140471272320510782827803443685512472499 ::
  Dbl 10569772271478720688688294570183929643669414709926789392513648505716459263964 4474751615063535639933934749926332148696065249610689935984102386236300516752 5104113954010259227162855936693316468300220662418497945986979500575929467493 (-549788606243359070389300876770529280725451691416332405883341531341639897373) ::
  AddG 15418757993341212467977758676953501904850264190096476074116297104654888509076 (-1393337180447763109808539846165588482691431159019496470606581167546617325840) 10861451942453082509570537469254442734371970472696606732538921009049066159014 (-12494429507444733965238579394530932590667461745355312388584181832045605987962) ::
  Dbl 15341972222289774342462497462078881336074100698935254539677801968462045583247 (-49647692409623657632174505866854188225808265083613766491295137465299527685030) 10753540750058952359226056555228331236184501306941946066600590808662683085664 10645574865863620763179320131943236717909247581819462414113214220903529440810 ::
  Dbl 14238367165231720957154558677725491043798306587630964297200312759139593893066 8684302308152242842943187891238795759740250023609732805164969277200638284323 9262100238881040974364013004678707089171010226476598340110236705702610813941 (-677570408920448886081234981076459690252333892232063332038146793602895509371) ::
  Dbl 21217511380985105666790261335147101771727339386241803904046119768364591260486 18211232821188001977267214125669509926031090363432580956341463663231038063927 20567333423617274539063105584362789838300772138630011295101095164572585455133 (-15088239870949555528623203671449366776485414881515763008042920566729294776027) ::
  SubG 9105981037746015999155541030796210554552077295539185664729733895661257497295 (-8792097200189522485636238461297157371159166887907358260940329612651657705514) 3788284475154049342965961730576225130102162776384788321726775213061166165687 440014402451174345015359583452880149273371936098740783881612991024092516524 ::
  Dbl 17873518727886407700587087623868390334186483935183739128578028901303255784428 (-52009403379339033300992987775152618567173203288340309577828126178804907513368) 14595172101599657158377104002634475112115278519601003009005135429738579931343 283988341632529526133957014301832175780771573442601081504827321317557411922 ::
  Dbl 14132476135517997110116319056987537107010532454488352853183985146833511691187 (-43147288002806794871142575423932748769284968199365941813398496177583077462327) 9124847658646369708039639298282167732540043829690382102825000228548963784341 159883177950260577551808803783088793652028895797608842274190459993816794598 ::
  Dbl 3691648595176005149967031886011202250971757132000826169586446324015668245999 (-45117774853859268744797731032610644145182546400827466317269128250031904748544) 622629666075145530252448456988265904494988944677439413466289729896304635714 2447113239890997959909673795237794289834953430060059269423789698963141941224 ::
  SubG 9175225803410208536196919857575121569974103801468312845734880995099303460530 (-2083953807522256508668578057384436662693569897922151902092783064131581922053) 3846118166564844812297326936739524180342970114990727272647066391574420048788 279802953197063302417010342887865079961449040594769650767252111458815565978 ::
  Dbl 12583881996803152101936165276781265033876450885168666170391894577866627466528 19846041023004879618387480465684233567828788660894211552679530702285892421872 7234664154480845636159661489059239265813517516190740449142567178702848212741 (-6788972616274782711265687204917043920836154442173446654128085391297139953690) ::
  Dbl 17528113161150968178936177618436512916343077411778911347713915738030236167820 (-11840356691738370522168821150356356952336918343345021215260438733660370368149) 14036519641573986417755222660114357662728798949632198575583935608906611877065 9555547284343999729572787264267232922813336136319014956625075367119873363819 ::
  AddG 2247993722633970051729211426646351245874280010067352961651988087568512148912 (-429310232121812218749481726437328615441766716040939544984863976926264527645) 230876265700769322738252326818706293987581906935585849569049214221263007825 215899773708892703503734790958823717073130771511398563412077042793196440667 ::
  Dbl 19743155012216170123351197757180395141154322238092688549875459848190882158046 5209302314633717466642301828711082934714479837742703072587533626343855871455 17808289688611360637637579808753080410765072786785624935288024590649768620342 (-1046710021303969289663646261145925475817198561249536334305992825651126898086) ::
  Dbl 18229595481157844698224021129871338523030864600957709964763670030131981129978 27446367077619426732540179012130282743243211339070561105445875566612392543380 15182495614309935850992719535389997367433845784099303246569307452845937260220 (-2118861995465873088474057940488633106167010391456649977072137951250825376042) ::
  SubG 8357760242234534743910611478616254841224584241255932225428535544565261900348 (-2207970437179974100912321716725659956369785518384273640417857324818253408105) 3191309447527460320379038405070969417925632396373450443818210767044988139218 (-4213566026058507129941636543708249466586088193919833109120195106227212782096) ::
  Dbl 4568781674598556015696497380178037050305855957851360229928090297957680398276 (-30585940472939812251389018892971571843127526561187334839912393369797820561997) 953651972539244642590794408445643386136049064575936931291048454267399268384 713536034160317962039379950242806834304128500020436741639574652846330113837 ::
  Dbl 2237873814151649803647259509012012317039151550222569282099925684541778796920 (-23917321925763161076778774664639578513058220460161233744097935260224659463060) 228802249563343891047010674549371899805389911798031414843048691022224991572 529033749333486906060443253759692135228635512606662559180250554569942978908 ::
  Dbl 18007888912021712259735146943206729877596019015311808836140599873091690132134 (-4467622341511208592933154930728456038989686037669355569865659595170698599328) 14815445212595306257244706133935981635537476059787176750643886092101415434310 (-1375251989269193822453980294084921660684748621516285350641764388804035956296) ::
  SubG 19641747968944751127682847736208558967917271623611957523539477780049521683298 (-8880525906701917830747126408960257814425251168412703096064962592445131509968) 17625821567061518960097346268321991494070137027272492734683424160493421087901 3330749335995012542529976501023208044514065558353121162005201251104509486232 ::
  Dbl 19906224448515194500412023036381491626313849678424969054669060052721639299457 32917390052814032586620340018495953623066535881782438409001778679628405786580 18103681237221505989820491803296979326067670830516992116093055265316215864731 (-11712176318252884008803398655796645401899112901659647171471686237179861934532) ::
  Dbl 10260783056525939321083543218793097948175834469830225190615927535663650229750 (-30710916590080653360164544653702386544384576675995620063827652555681524611784) 4810055770559109356610507470408834902223266490494905997019254714819929220332 (-1282522243222746119951996978502775609418193192680519506109483571733240382139) ::
  Dbl 3164555738675972045444843014096477649300937137007004164784889325242756417200 (-61646777164624533853242533139349765230918901910660574830182635493629686743200) 457524758009298949439439462848659620597630790601949310841233076275813985176 2824971810537738786601899949515586014176914068839015137215934989636108850450 ::
  Dbl 7776494104442558119637523968575177789713997871134407951234446914975868011854 6148454002525398729437706764095882286938366929151490131272462514629530882412 2762846744278117948014985054722726211499363064589520395058752687958347802788 (-6319451896293566233413412954664197044602586628575519868268291798762378091686) ::
  Dbl 9873524441915406481216132912455995838072764234333133078253890518855306200132 (-45719077099707027438043780678765230223410125419592097976967735969930119710840) 4453828727865770533183955793001901824194147851379732491551204960802380813351 5586784690854736199586173336265371037879349825563270510582907540496986093081 ::
  AddG 11029799805725913364113005962033495305985703034828927579155288723187268337200 (-3860638915548546636318425422706107304336066237965711636620395657929633894617) 5558074463387410665436345846987470970400569757056885915631477176215635106542 (-6165549471796540427694943419410917404733926034924237867693940819931993872568) ::
  Dbl 1109595622858251327807342481434880740495334495653287697563682826110357887207 (-53895966534201868284528245730281388382050086667022846143817258061935849056592) 56249487611918682430508197024766985684468909695120958603485900643444966890 588990375561522753038357550247767877097132496906848591002699253244252883683 ::
  Dbl 12934087476836783346101588601194175234898561279163917650067413968805927623589 (-142665389344945359110361153115611931529147845415967472383331492047979844217) 7642944197850479657184914506288392194106438439258844605921955894544637764920 (-6978573201744616852467693462423601171557248729781169745820758981759781256434) ::
  Dbl 582624384313651341898987940816199301496724819712092232804148931806307761030 (-54154233185910380858454613610083832834464171550090508734043285976470249414285) 15508379324207357810604675138170275641609163415887342013785132597982190790 208057989199180256406652543262039615542189670810859428746290439479524403012 ::
  AddG 7939608533454050312635551128598999781256272150563418327238005186359927132886 (-4451245134148246920420633490777992730247824880111598368616829381426626990151) 2879965469754463046717218112736409215319669280909237282420231143138039290708 293231380011870941163321401959290034327441817485334432802105494447615965026 ::
  Dbl 20091358519038433144624358851833197334680349989848847739618852437745652956209 (-10402267068998083045384640333751038222198619835072591657792382019402852198417) 18441986846732130219648558265230851170137136451077919319495461743804735797664 (-4181112070688517413792584799924168345212951885302957458865281186476896456200) ::
  Dbl 11169837575598811234212249641794757717781362749785710722328648215525838591121 (-21510693975073794674387202524632299763819821756415086257850117184378802121561) 5700104489692875384369453474699404847472633805721033374555937313611806244055 (-79046545257989401551330577624515272839131578166473408751817017975661491507) ::
  Dbl 10098116526976100922646499042008701202248961346065470092987162167096396433671 (-29022152374268155007827122773098198601591334561807720061503145288582084779268) 4658754838817225626455076950447867024424664644373216072831277193497885153211 242560180546314414180370225988313638596855670643297481270302735206559715264 ::
  Dbl 3736411193113672119037111144409550043688792202562801668569583396631037562105 (-26472132749018293380561712062418701458433529461054125350903063914647358814236) 637820435645230369343613823614295966590543450644206223762349467314304988286 1023359883188483033292426414228546456430316067186558425897878992988405842442 ::
  AddG 20673157278776060258083848988621846642878096420671251521559012351893011870120 (-9116410093147005277258893516166703396203253411948700412658982351728016403888) 19525524930229302898091535773888884034160989716967509644488339426543693108437 (-1781469504860768569822738599475655275454396017829728568974980795058961018945) ::
  Dbl 11387854425309469729782808787625275982384903311008176918529022294763735475270 (-5082821559731747723124248323740389841375095651422263538208190363709576247941) 5924789357070175584497651893564239612236140640889128413558363400668141147572 2789020924624985944561803942627380961789006809897973022235062585581860219307 ::
  Dbl 11040468338713389604681468485484634058781517922349669223388056341736148203732 16084027490166499152318097226959411931286152451599559661828841500334828404852 5568831717184348783522065654670811591658769783916864387473482163526162899389 (-6522128655401158114008046437524013143927625994813703025344393338878654726731) ::
  AddG 11651568731821294675129434746097836283720648292541775599894972483889278500739 (-10171665368488161219499849492945499301007071483658111708114034765259654299521) 6202373333814703851603285664605226510811318844580812917648642290968548169201 (-217042103233230337684675472889269628715461827981216797802424642303533023613) ::
  Dbl 17603769653247097638243221398669500159221987144724886289406298593086761530661 (-49796863465189778545864791088027802017511216924645938093045263991341323701296) 14157952642387829495380918205571904563520460869450584541546907945125144204671 10166344139887552194271075064990936326139286453355166422335195082065438104275 ::
  Dbl 5160374361373646064705060390609542263586307085387736636952206190468415050612 (-2017752157008343585221553953840250266524715286281653349442374331369780575288) 1216610383274899404149359534140291666272913060956863129788247330191027137402 (-1809803513900621288068579251010265095420781887793788858170825319691174006497) ::
  Dbl 15673900694526299727616326510855414030251363019725766037838640017019466235521 (-12493655970691865316990459538179199758892516873276689933015787696432044039228) 11223886925064451454964399661522569877055486713182417264768892865818345580227 (-3525941846718544073916357736456089948613304034702894028582602345836733067566) ::
  Dbl 9907690266004471531737961276478476899409058024731878298630682101582097816429 (-45316275442934076716865037735430850347456903159547570129061768311605828193600) 4484705646855386335706306353508707649817020940804716106731340909899398081984 6221411021150708208804843478924997226081801823933177813578755383561707984618 ::
  AddG 15030166264569496389165440852751446770808594388608324781727541901881578906215 (-3935428531638282250126052565950831124020450835683915895765844976802312348512) 10320878622525081302056558260201521250209641688518515380875281450644542812269 (-1555674990375112938463033319619999510990064053371174805967220496280243021891) ::
  Dbl 15851294859046773232568249964107868929595084060147939119981212666128446717041 12591296609747860134450756610562071667084383373669322644850496998742797764858 11479384168918850981954492559484679912644466432180406788042458109314234207279 4490107207952309357269875824635769180480051017952138863902229558799159864862 ::
  Dbl 700112415719637296418439750373482728986712649371388110341538002813447598420 769480061419886351690837910504279013711529786950384966043473148410916973096 22393638334277043428697308050465418936909479459809995760316005979313284373 (-19281703313090637030386602015057749969965829082367334584031223849306834248) ::
  Dbl 9773128072503009141501624351801354082615151220812681312133657143710206362112 18273946227705893921667041854227676306550876698374093380918724064439833604979 4363714021303726132789577400691036784939130420365793502521322495208713153598 (-2479576904611801408302822297563507584224587105999264996268437085669773786223) ::
  Dbl 20070428371246978867997112659646792023474562511226654574854480747032868179899 (-281690255737396393071237239422491178165242767474111249199026791497273539544) 18403583026923275488018190937151668833252570456784305396470570955372455673965 (-365507846893708013912850937358981499277398505636692417075079300560611849883) ::
  Dbl 14592389089915303711510477974028270506523119760596360694338508288326231324565 12029889639066292179353093445529913649874813847374112349673007368720067858414 9728410845871885223974848469668131801265148458422441623763960048375580008569 (-5969971600032918246326601508296493931755410736686925072659974090991067363308) ::
  SubG 16145424818068843628763802565315073701250317992876853824048520849759347912540 (-12765473273040467529007118013535508346849738615544617343866978535503963734779) 11909349877110934133507258287853984542821070698940606298216589923659354140620 7458363687973189232908159947067458039525386412357370156643421682041404582179 ::
  Dbl 11514855758447586839301138818622358222630623084656631336370459693054469441317 (-4851466981395081366797637692799361105262714390241915208195997548396942773705) 6057676895957789385245163430407661793462377313319553518155656755680184738566 (-4406902941045509088979911429796773638464817188130140613229291538617379944654) ::
  Dbl 21304939315898652006564151148487261619759052582628291802472945890478000657835 (-19402891140135326483999867745458320194174681498351605748269652548108302286325) 20737180316931613991174789724998823219870043137363811810637723503770507540307 10560116817450348814715755568380931098695776242828753302178841760912178206687 ::
  Dbl 3436280263081103671893008924306641774381432915391985620238761771231814921472 2200658612944898399372445159768555922751438951548355181902872846543020267916 539468705440607514598446725454992193043187367643665570965803844485643298728 (-2177140921631270068966700902354766901994621180773725963161067933219330757297) ::
  Dbl 6893049374317915678861298198950130252650451948330837220024307511428438674456 (-43945584923038399651275483090508226852008078413303940970860349981862422421600) 2170760346318835555757021923732005928572945751832557432735527822770251286357 2436685875025257667905902089143868073803497258579091124687679282067942470615 ::
  AddG 1255558807333978033955228004396347120275792371408474396259864167734901404525 (-622546248158777235478604722066444946015741483818726757994768154620377141627) 72021675193585500004887511481734248723447725821766463229990987777734685793 362284514813215440490555342306794943847599441915618256582042605544212965834 ::
  Dbl 20511793923726113522404974096270487847866113744609270156238806714105346871116 32756059813566537111249792449179744773236973005094892833496296544320656527656 19221903395028124574313392106433028035311247760975183357146564217391636755595 (-10508599782616946849700359670106595726148123244087648284427413470225247438246) ::
  Dbl 19190483015349146104303243306960947122304814804847113748500577748096756907872 (-4834733875501127429924766482238900263600888482754121660042755227463936757501) 16825226242176553172445960856366904008836987454465073343284373499957893041389 (-749011639726867647992182921143592873596996083118659961280495379200269648306) ::
  Dbl 21379548706956662225359948751330026071110295309142969044122494283743488076339 (-7345226797015408978953446287450290395505327993764043599154614712300716291095) 20882676859420433578172899527934397405011948705569857762602044090245945594582 7865664405786892480869802161299400758582884444064996406308283795740659074106 ::
  Dbl 12756602398033917530996177519805766332893006652899157383214873259807614056520 (-8308706683976941437094823318152779494863677848690710733818376945354821197909) 7434626237215649622116402078994382280287464757236976179972905019853371156767 359770174408425673959814098322158171905353408499561378280126137917579914692 ::
  Dbl 16124515213976725660249358690159467743881436250317752372683253040006781967880 1260349992114581467236973671189178785297476380403948828512660049300954671731 11878522748862344761451275165893751552510363796962530426802845103574336110919 (-7798146162148992478076031597794271365447932436750089533357747250030322356612) ::
  Dbl 18234351519118023906110657088207385453139107563914396306844257769784128287074 (-31612107402767581977596290755661075439257135544278548298649826016253213520449) 15190418768175082173167474511992903529630840311292673437789400314219223677461 11414447492811197068414978488728672827784354726286639988670782872839544343791 ::
  SubG 9176361788806928776599619616672354073262536052401042718389438898245379815178 (-2020301941377431648480996005452633353315108989953517443543734386866195706164) 3847070601880619396235355275268714029896872143912909501770423954508351489595 (-1347790407768734508618529070847351932358510990859566099866924737165298740468) ::
  Dbl 5533569396741647099176682039624717231341944323765692823289311932372099129977 306451413427650377294455425054910105242496134357253006128739822318048948359 1398942365901419485065743127536223339465120736382944083020710262354431580521 2002809244594299343743070343219134353700818533224904212053562843866594909532 ::
  Dbl 19495122404552465184558739456537755001142323079041946963734669109813326264963 6375159577327524017628507798509715076538919084368085411214174152874519170978 17363650421544639961410111865046447419218318531815389856732920901767947903062 (-7856702479352921570402909916313392007191683896412086811199514341481024081186) ::
  SubG 2386448721110600688641840388126724484938362535763179621067167487026174164924 (-973935126364432132719309713131895023251561950962880827075519457677101168342) 260191625789094580462521173764228951389869296189755393419460986533437935891 401226701183097232063735463913859193934704361568670381565419208949241706517 ::
  Dbl 18155714289419546590639178629829792905663297307172325839244445714774929319267 10076562718390570689106492083533580757512657773451632302711455983921492995701 15059681276797446873129121944561615026235233264720598829798447863093397818297 (-7733627774760171579478158759491684376902269439803427690614519460731408793150) ::
  Dbl 12866188177188126302298204188686067049920805838308763209135414910784164224846 (-21978619377910402054771731785956372221164881200644312141875047270719063112456) 7562909420371633889718242341952381619973802413128048307649215949200132106213 5850038005658974279073548136527896179114505967965919585538506271039570848973 ::
  SubG 2259655096364459941055793001876643978765616837664328985207152773504901141056 (-477378252313855013349622913487761168199393678261878959984184437695947364867) 233277800526197042509060108496071062655171971754975995885429335024953886906 (-1743494901533660006188930275279974800782168905578807403443747681656744320075) ::
  Dbl 4819133975711950158335035300177996087965500808897194886492002367399954354840 (-59409033018686773373051722011986024139679516710924219297134015305871893491456) 1061028626730956195541542388936476591012911195607261312962328773323053999349 3574398665451779300114605458699479728578556050903388883129541102931795928187 ::
  Dbl 17922590135312426484231749743359402491130273678349272204458416839412926453961 19154705785272956708717172516673186130137750622903685214392646394452475307549 14675423652744134539706241145589806052790949398567439225388626802777713011329 1548257259439723003664783534772041368390045969320736079110283717112930981154 ::
  Dbl 1097854106285031653472787791678655878321047083035100926574984483259263996707 140534987008049910428549150228945668987837259360849830746672163142446222392 55065344703278379429558304853140558145992115848091272542553471988969345293 (-911245694372253572766701665439283008847014240011949915451142335028638221057) ::
  AddG 12936616254196041289565149870498989571632266854143287750969635169141031255482 (-12739540844577767038189253194377520127432554927226121342266563976324976984410) 7645933074127399753579620780456704678768664371512403888579882417921020628080 9548715086467170354139062062964339044009595746660961741999553348405974965062 ::
  Dbl 19611980868039912813726234819201057668769435377822250413432462307024254835106 33230492932420613442916212922493435300300548452140464643670689263063921771655 17572438126735890977502304799433799791871000755874308196387125142476086034068 (-4969921657282708477738995752667540912342152536649325179330025056562228113032) ::
  Dbl 164569499698378807581409716115820976317522505398490672766379737457209597510 (-16116575925842650205556050564788637278458402566431063790661631216174637894344) 1237336427119921673618033493034454201003274302961375125326430888301379337 (-82040735373737782908568968002127980168266169805095450770441779198389524392) ::
  AddG 2463864715484843457799059443905291942615966892912352634283026009923410636724 (-2460367278130835750103969973157150602340146781958131003910213727810749005114) 277346581530374434564691994283798885592476821268766956779485394996616090764 1461355281403326536095026812891632603791324060660892724263974463032869436695 ::
  Dbl 8550075424979612436290970767731625829343786799126616536644847042864616916718 (-9900025139530751508231535053800796739969112818099568610450673946369390794340) 3339865616480952732414828920524179792481339991617073089218616555996416480727 265572581730199241757404132761595501481460975620903259689139435152341435979 ::
  Dbl 10142525080433183287884098907322835634537728101120166417619918907954575755683 (-3513583174639907763624482073703644962158397400258266646877321278547157494811) 4699820611894182967046472759860905254181143841302653571855423821650347162199 (-4939528600350297021649994673350895215709713189769884274966865532693466808736) ::
  Dbl 19460285494415091083371399382289379044968323772027126880694993967006164431304 (-44806740297370142460742817483076981340282651887803932570318425619527191759316) 17301649736871724977711765823132498946971840156086738375078423480496823922596 9011713185563361695411466436414467322131928247378598651681447926945717632047 ::
  Dbl 775309172560734864382175409025201609624399247445741135092384523432564363132 (-9853542434751095863336908462852805403484094881600530331148571751214417864824) 27462428874552248888405577437548190153784868773557814735033295898681427982 134802969508656685860546286744206441889532700441008822462401104690985752046 ::
  Dbl 3960936029604828982256066925775257914151995813228040268043512753246858565982 (-186796144658691891655323516744241771699007920342711996097560073297870628672) 716778149917491040923280453706979422144239678165961721528624943586331304739 (-1176692897412749433790654007096369002041217614569259514901633242245287574834) ::
  Dbl 17670643999602031920718142831959704554621840852725381385481489989776717016408 7693604793863833450641401331807055120380506459624065839293447419297790258627 14265725265795750944474913246005163095851417459771757009876004146117746839389 (-3393682752386141097214220877068379661465057598044912119797235344905091018993) ::
  SubG 20008093977704908147103045534771157773841046080967910578113673741363409768419 (-14277586950009909854264909397783434125325442657798703304122048339840176658768) 18289445478317286669315118859173462005528825765123262463508538827041942578277 6910386583483119817748952807672992747696613574443644653098858780920618405695 ::
  Dbl 4163000988479926996978806000423373612747917308228579531899114008630431163001 (-5459631182640417579453783082005108613524252923584032015365779126183484359392) 791775627288101083491038825002761329852915466481293633173832237479782644844 (-548700570002020570413693876753151655776708118249654067807515371306086398646) ::
  Dbl 5585989963885257337111938421593512352705878981776010677743298335068318709552 (-7708887465010150724342367962092678699719359982254131891562734923394701689829) 1425572809079708362359465991688697357428295452643606972947723254876058226474 (-1940460833384230030619321111000948702501416490889846353052006313137109690822) ::
  Dbl 20906927952131392667368885017622331588520350278320279366506934994362516880953 (-22856836584009954184517075106777886730050995426056579392407753635209947294834) 19969608294047741559576988448468485810999768040602841116194675136016220238023 (-2833110224891989731984401839200109447939907950841141981638813651538989798001) ::
  Dbl 10975109905453549858584225779492869415847817788069579823123378232305175890747 (-55560385413457926332394660287713432481682520713553883444722152596854082380708) 5503093059688026268941136398292246220821037710711208801299986142880768462029 6587916734868012193406895057569812486584670558566050485518891400357826126186 ::
  Dbl 16267262147419930842226080596681672224079395578507807606526734364361615178730 (-4858574025529408343726452780228225553460412886968654872484925395787275234140) 12089769805749824711763272191032226984885200061186461396329891047035962764380 (-2003151141568015134290766486081311640286108607466886620319196881398589109794) ::
  Dbl 15812219061393435662907510374429060980180801211505114844742336768176342395342 12216322882859454343620009069229269079567307905659242770373245475765510446992 11422857152556993962567594330529053979256243151489486861923626476517394222962 1130949378358220795302119585112551844885249747794010291378540533011568068809 ::
  Dbl 4557981801179234070660623333623224648272324426656887649059465798302346374162 (-9530712688173970306345813046022613532146533632984261555028026577083106971080) 949148738047393071040775088795807141935233323057104057177072482319975575882 (-2446540243081559272133416600330932392504681501336451501007699853543325025168) ::
  Dbl 8529870692350409427643769637766376607837498807046531655856503027074146755235 (-50971875820643100886553057841543268093393882682568609569456168933546216285094) 3324099355724323589661081270975369823503090498410821825953394798457439740783 3415705667433250220102530928726027304449179338563807962988739041515119553283 ::
  Dbl 279983086367626223601006256343889023468349276645154416350045700585894677323 (-20948299720073991847323393986855006895446809621559585388422065271380675903868) 3581398886650532997243893420642701144803948142717368335583869285912557958 138344216598020455197087564269547613944429450998491351467068238767570432139 ::
  Dbl 1493481292657527261470580565664044747810080343721579690451282243207445237041 2369788603218799353505445489683319639748519477270465128498187244792076628891 101903400130289681561937461256823208610183615819254538065774906918681920174 (-618935874656052381965946548222566315527290135014354445312093739623479117274) ::
  Dbl 13364965668049663611354078519550532453414743188617445011143314009932096617941 (-11933856258507264310102892556817531252906513747924737253645241849747148245997) 8160650827662189051755120968615404665533847418594153671227655101311350331967 2932495632398992443605229231260583597948650559562822593323365904973941727910 ::
  Dbl 1535905884618157165606455398507113335336154108238883536598122122755027048853 (-4616949204853838978122024440885223787713327392654403167816249130467327450830) 107775069027569498004535264119411446259452975076037630262632972830951555915 (-903637056090204734385913105269754961433289410060484157908225250378613094921) ::
  Dbl 6327188832274262043703818671991974982722560263217457064192559796532774422634 (-42624882161260674196543556880822990015155905396890207927697869482807721002832) 1828987313127896074791893377490872901228215883138392735364405888733576545665 4074369292087815071846548367962282691819629176651239657324317989037863519451 ::
  Dbl 17891953801308951165300861076911384589281246907109951118546635071682514991769 16979106983020621740913695783115179900731427561097162905116450418592146630841 14625295082047574369376474980272367695632970503808403485210212297144690172413 (-2210378515451143422848975272668337592448703459953039812267989869116848954555) ::
  Dbl 18003359718673947513269956567123714695180533928366072460912941147210136141808 5487056484504520257628354095955597883059336755442982506285544851997485507408 14807993636482145940415150250460292445560063691375487996457781071927315285001 682516876779681842920126451468329882076845027504625554439401110119683974016 ::
  Dbl 5948128925742419432303909317631727937544014527207907764496932487214979926891 (-423258832683890657894208266248932248920118848763724129378722618863205859615) 1616403743526291440061806546406912276777565210930322739805660054879424158749 (-3413472575466347560631443448217708171656008038466534993517820910341226869865) ::
  Dbl 10633433270119345514366135575075937368139328470864756809573989326929340079149 (-38693629976793651429069024542372125773546012735356121153533841036293250009910) 5165782551488094949840148157759575262804640987845185586107055819402133828196 8877120649101553132835768982672297301982243492828203931641898234030040315286 ::
  Dbl 17281832889049080757382165381333043171726527623282327559681399036661410819696 26587163318916344346442655842037476004148356300099151693128979637860275419523 13644848047134350272808317567121400377371939808925881235716347910152775206975 (-1959331719834133638917707479108139688576816463951253358862165315718521338096) ::
  Dbl 19867970603972715323773828462323736148228886613616204179933873673841017091412 (-212889737068177792572088277413926679988417686643522810372295901561578335421) 18034168308145885609071924834570039706980311699093767937876772170773783316717 (-9812475149567666343956691672425388746228615826302783282912746288255935519762) ::
  Dbl 15316258266074959468079980547645711915341255533575797398817058141985569676039 (-21165868275021539582101829249102831956053777822182451961983208687418596200765) 10717523953232571548589662291890423170044985814260885168793204058351769992820 1325465748350899552392859196680238944351303461628032541689061501013790285874 ::
  Dbl 17754471132257314731576877423384775167390879543724422401459205972249290264720 (-15007441645802405162747378697177977152602011302015362117184225673796881287941) 14401395627408359674695362256267488388680451921435802269505372176202751326037 9864208525416388697642405198663374020729593076733820286272803446808363527072 ::
  Dbl 10311623515298504563066433894825605709470278159130118166204844050885720639268 16733059133155614798963394553151799273588305877282433239765383569704494089707 4857839898060404883046140892314957842454921414869707207021698518710947182944 (-8917936749589159461029867803993230108262879593223824480206713056110622519850) ::
  Dbl 17783515312495743571644385248506642807220232953041009022439379794094629343107 (-16458073155166688672600604049663116224307833314568936965950211926065174936468) 14448552070694184522158856038321440059140505666657327890870515935783930839555 9606007357197707894377354860995449511409468387574612005723708216630934042612 ::
  Dbl 18676073325153509473063829669809764797034500630860709635812633895101943955301 21135189967395879931496933247640834420680704386052514240346642052264674834332 15935299918261600579377353148115387876221671256902139906619191553811310408523 (-718255774745237490467939866025060015451683817930379422367075402280876039567) ::
  Dbl 11167395566571680736522180841923166808699741651633746996441557110687150921712 550900720682892324590268918726184760807149647828900347813633573026586464656 5697612388097800420164343489021720430658590554889237041052796948014257878424 (-1478088213537214419649366315437830521050575263292990274372047643694226039605) ::
  Dbl 10211475033969310840691539376942141939013126905405402822444714423692380608412 (-6876257877513947493297658885940721363665285352112598303242575151728125643648) 4763937561362427703675807837357953670800048538666186865943447301804470516860 4850313361276727729947566847129247326361897443948651792728383267401754683280 ::
  Dbl 4506815022381354127599684462832446220185725931183647316803280947486773361995 8479311233244158041252973219335674820516025933611360395209816055768331084304 927958528461607588942551125865738934273677695743342502412140565337222275060 (-2002018087606058464111411737369946490591151930065896735441426967971943995366) ::
  Dbl 8331248017023320820175704991558973650831571459608250545798017097153126362508 (-1944540611029047050261101221414832350556381082980145612334669495672162006053) 3171094816864232795249291217577134610234389384574956258835693309574190377139 3919011826535398633084485961340254064394953196590427001453716988148789565457 ::
  nil.

Definition bn_cube_hints : list Z :=
  0 ::
  0 ::
  0 ::
  0 ::
  0 ::
  0 ::
  0 ::
  (-1) ::
  21888242871839204481138939313815403409980530550892843595861227352090984561855 ::
  337196183036818073154890140672551876410142862635595029995680740486814834231 ::
  4350990279305306406777549095904895736373980700678938900768931091491389731876 ::
  7342435432366001005739630903272502786739342431712637505477732857765932767243 ::
  14721093794376712835486073720257149613893725434526826110438769814292114506387 ::
  (-3) ::
  8170308422825230467669381525563231957311301475308665445087649235757320233586 ::
  12234003450800685438606003613733297015254053552821064775296332595052816259870 ::
  (-1) ::
  6980564721396282438273091012910965517749383986807578734200621440998724518739 ::
  (-1) ::
  86257401369986080117706554447179244075975926209009699931493872230561355702 ::
  16722037900417378022323126627446067595928454749101592198103370893244398069746 ::
  (-2) ::
  28645598036498299663421135564307602740273395886491147656782657982893197693 ::
  (-2) ::
  4138708154093513083503070163754889925887977907681658868592250181229873206375 ::
  (-3) ::
  4677679110673202093679197514979009700200799774757870666715377283734859141434 ::
  (-3) ::
  9662972559818124809513501791156263122323104093525972191855765664979739968 ::
  2570382346365660528892165198842915375119468436706669244657611549513449703155 ::
  (-1) ::
  9119936844863760129347446336763137979281129042231276528638602117261374139911 ::
  (-3) ::
  1572915064452811726610517869343140822242623052746588880329241673482841769270 ::
  (-1) ::
  2463576115844792935146436198537974473044559093342778554979543922089265583198 ::
  (-2) ::
  1711674386173556339900223753622242455065817428609196811066880003569226005410 ::
  2366221549773873707917756666735059194061993610843537522925465120305910941396 ::
  (-3) ::
  225103397507481624387341347228594870490134595416645605634119072999876437890 ::
  (-3) ::
  23069862909491214770864545705847021912293840766774583344531917410823770613 ::
  (-1) ::
  3112611122142994977608628466847685754102106848421441610435715958074220329566 ::
  5910159002222592522763370700553677602250650607807922484750720726592213460376 ::
  (-3) ::
  131000844907655488687387503449938517616380364608395114958669164203946744349 ::
  7406332799921830037575697925784130052667816530726069005274998575332341013539 ::
  8683766927700148245183820740990853203417934953032623645221283225318892787758 ::
  877371609069462604929528129016225275161716967910909381648898943223771161468 ::
  11988995165199725909015950637537432951846280925696330496522390393061091814543 ::
  20197366565147288675950410462440572478129547830292813297549415705427303756 ::
  6880087183735257146289914690367970737204700403265576234537052239209022716116 ::
  (-2) ::
  11813971858936926696933218561185784385099296590655030748212720357121813991788 ::
  (-2) ::
  2554152063949741292214180845948697911010808198717962386676599025276768949601 ::
  351107239403185542549406582534460021397174073307393939384634049149213045243 ::
  14666697216939035027394339643390137902177482771034942639323584435422098719117 ::
  (-3) ::
  2012356269127027722725377532889058267383580516222781798356478202359011417151 ::
  12825509507899634976016634639742687961496502864505156914671805968880848226149 ::
  (-2) ::
  4193350381344950577905324246239378667664978304241782259655993111201511899008 ::
  (-1) ::
  140147885875531642508661672885558197803230134431931323307304420466278123438 ::
  (-2) ::
  152815877260253291258237460978503485367638298898102532828091590505061881416 ::
  (-3) ::
  4442327006170663732672244320409539631104605500774994282317973367305725096482 ::
  1656289576337794907654642555616896033181697711513772960094098545301151036394 ::
  1130650256430154685755965415902304282140391417803294806013070536565554862381 ::
  10643516103453174307149738391587800197031800655111307002166902883886575289919 ::
  77345426857554035406098005196941862538776976824933265701648324939103441484 ::
  4831337193188757692019165484521242608026869312314864598391408240435527164355 ::
  10689269388070956781085115988144454332731457675292393250611561014798566959662 ::
  15880208743632473705805524375226835570043111392070799281295816506586867435179 ::
  873078640041086452186686576004431355769395657609750332576697653365035919884 ::
  10706188173123760270907191455179630932070070446418800433654932239285487675389 ::
  (-2) ::
  6819494660409223937949322098875912543426442034573428188126677063306863439658 ::
  (-1) ::
  17672211677935112645271901245367197747653670234388117463757305808236643022004 ::
  2245387545732172952315894640370084093566525146235273653109253086020137221245 ::
  (-2) ::
  1107980592688999991161085261624970141396397485538749363702709201860170345729 ::
  (-1) ::
  20444934482149282472564339854908176655590959510580591580853518142147714579392 ::
  (-3) ::
  1241242100265394604484914980147765984920803309540252512820241397298890433651 ::
  (-3) ::
  722842953336936370693913071887859768637741805166925504672222207777489306039 ::
  13834867792956510466067817994723252781351832850983192040705447475678289262146 ::
  (-1) ::
  19293051422275734055643963046265401130074076644753310476469742586218642531 ::
  2503396945738244908424560392499243754750046987789175889084624465341962402600 ::
  551681257069184891379921226757582258088791626324288753332911915137310667613 ::
  3352165504375847643471733197234458092186994287222517762767006851982500580556 ::
  15475883352188271727170181411778053653645880604626204070995150618088067713271 ::
  16928615276082565377794886414555031447560385868279798257243708168239661408700 ::
  4972770865735418326605494532055354866617846111470599835213419106048820229500 ::
  (-1) ::
  117776767724152809803610360746261779195791812994618453262458867727678076180 ::
  (-2) ::
  4368049427486060784865933340411161148691427112620929838261393830001558865130 ::
  576212750484068798701439495665967347697545976875119310296385477836715142963 ::
  (-1) ::
  6766653229545520005786513388898743943155772321274467345322062737987687740469 ::
  13034745544131192498824418813067280561507014705732144580879576143120967777019 ::
  (-3) ::
  9094990949759963040410236905733535497534626076932678475564657803373114261060 ::
  (-1) ::
  5346002486103636684757486000920036225267077108524262697939760333074039455572 ::
  1698424711307199170052291374946289920440788786499101924803878813894046933296 ::
  20629875886865444024153025592257306703580227971215422970049428242149752668908 ::
  1159918305750218273454367956200610128166376495642643530938784426664007915726 ::
  11986036017384236407425727580081084213538694130813800767715605817521755005570 ::
  10301191641396676386193161047921226077164727268981814786013080274431677522745 ::
  (-2) ::
  62490284080064480254315467953092724426215811053142006668368842686688893882 ::
  (-1) ::
  4947945858607979785131291437827731706174532749213242623627678904937846623472 ::
  (-1) ::
  8287258232522433152370752316499010389748890053677247059239901925047419800587 ::
  (-3) ::
  77394883181944018195643852297914305172631113376505095760052266741517774949 ::
  19186823438031075923897766594400999685211844530890494896537072580023821303708 ::
  7059057122816726016427271429281872435093641693391877317483896615389707753897 ::
  (-2) ::
  231514683894211208581483148029103784794099854598976911554865701636056484451 ::
  (-2) ::
  1250997787790326139797890544400975896409534587576468040073793558385665002507 ::
  (-3) ::
  16048425850549145394230997245088917562578149780742273780417482396789211526787 ::
  (-2) ::
  7390742373531441064465949047744060904017907708653855988405175591357249372806 ::
  3357374857893231781726182573452039082462386603118424644438153345295303677770 ::
  2268090219079570698678921536908661074205696515231543052819976324157008772624 ::
  16024601629857271278307285066559790641124235498821978011776420450287854419649 ::
  7791736158921687390358594890878715768863729495879891878400357153318805480485 ::
  2057672139155195973453716672421249205201118031298017184207952361039555096002 ::
  3558175332448548160052000963462019139000193054776656196974000732719662125243 ::
  1122695113715354343479892456214995564754059361168392457320620559648338511712 ::
  (-3) ::
  3762333025438627734326322292660690566695261457115675363153301225148072598089 ::
  4357509699650812002920161706163694377293716162621691252165399508540243223620 ::
  13154634615025887823921199899630421250551642527788035063028159021394895389073 ::
  12076584862641536440521852388184428269590321786319019126000865654710658408719 ::
  2559127947449577805213512842794264300636284524930849915328475998199789496851 ::
  3514172788979569399696524120460100423722990796537878493202223048123001728911 ::
  2734695497429728142616426992631979625090197586722129924765233784503144210405 ::
  2418839706080768743085412692922292711061760152993558442221323878026091102567 ::
  1269825238607234759459273874439339079346014852786152887007273531404396661508 ::
  (-1) ::
  14124143282342501458416788055998246396633327448203294148520227463607178287208 ::
  (-1) ::
  18660812263293575213668378351263457248145047869140333898902413114405796732365 ::
  (-3) ::
  251044782375082956591124021845390558395250926013005135830870213375152421494 ::
  10162520608041561087484509391868020837192324369556896457391272965589775118848 ::
  14830317893819996543169833591696457076198291575939135603864292893164720909650 ::
  (-2) ::
  3207171491959406573956623632875817606078578544226305813105939428713546500542 ::
  13202989858498623354109535574687133129307406026725427514957811314046715028286 ::
  (-2) ::
  7753818068401918041554156718036214254550258849455655057194815506345940443085 ::
  (-3) ::
  19809239849394057061768294405545023790535900371060785283705532430455246857511 ::
  5373669969413459445569091833920023265858190092530530352590054877169015725095 ::
  3777715803144706104742444936643874749295494915319806919433200271890272541361 ::
  (-1) ::
  6142867140973096042393737422100993775030605149833371820577928741038415783135 ::
  6373834287552624751106883037646581786634618212590229178959849581587173952933 ::
  12495499580529400847624193606819632844123045863508968717097584385698172371884 ::
  (-2) ::
  10549722852111298579105963482925450794068466260991751575162298002390979768927 ::
  (-3) ::
  491038486068094681103595521003592010115914922891195230516792789993601148843 ::
  (-3) ::
  9809952734933599150872787283138744407999447096993279593122746040636134879234 ::
  130417972335843205052709843004869628470124764727410331037145437839072797040 ::
  (-3) ::
  132033239972042494660471501235250517936965722376975728593045043716050349040 ::
  (-2) ::
  16300810559837266810728052360191057448946029069601747300271447649112938544516 ::
  (-1) ::
  8973438241071011695265581269115037536265681872327436448971797006232489521774 ::
  11720884459559987915329633922181370967523699720141619035246219447567769507748 ::
  (-1) ::
  4811062410386543097274332418908742514420826451085818573879397516668564800679 ::
  850251803655254537969341478716440593585048990725455550485511229743188931615 ::
  1023478212219949933548133836053095530882412486509637777142747519459088805072 ::
  (-2) ::
  8602081091405128067076789174966758657984642224794108311090860639764752706124 ::
  2373290043549511467081183792524637245220066747376687841600209367870170722317 ::
  (-3) ::
  601350751253766502550276143810682553313466538756696593810498590629822139577 ::
  922442751949687386008085500568865792083718443371491662555668918687807108 ::
  (-2) ::
  12349244610590118479332590902648357546590674672646159443998753117672984298219 ::
  (-2) ::
  12537794380904493398781537919650429880686381357180573099871564640787640991512 ::
  21819684860929453346103405174754855606030905490055428139697383613701202833364 ::
  5825641735006891156146383416148489558987554805585056087593466731135262487018 ::
  (-2) ::
  4733680941878338846573941831920761393621639222766751917563413300871093908004 ::
  10506187144727760476962732263248253361364232799045224150292044389500028067 ::
  464531459197806001602700094419120565971825221007641975053724150101115427593 ::
  5480226535248575716320870786312190257359765188935275203459271002530611111248 ::
  (-2) ::
  567766554338781343549525744382896624352841124315092444304410568998264711163 ::
  (-2) ::
  10318729727770664219741569119958630999082468810981164718906946545015651429265 ::
  (-3) ::
  17746658388597132333330796429206583581743157059799950229222635752992978464584 ::
  18346295101223087128180097656425327238728800420485971904317571223288825989895 ::
  19044636986991218813029799569020866074952749963843222962349921344989574486803 ::
  1567993155105519299633113269515742056391140718366093451696653029535454504940 ::
  16224245776618945710656694637713173576515796992113640417696724471990498449003 ::
  (-3) ::
  1097035999795379185417016291921543791861201845191714999126854450174828004752 ::
  705855338023563871947673123485541457322048155041492346081803423622130900303 ::
  (-3) ::
  11529266249910431431867019234210783218220450167847813031577685682213437506027 ::
  (-2) ::
  20368013623737096791861583156331797037905054945872948175180736884018560756579 ::
  (-3) ::
  17203031530717435053021295146196853050448056745336512206208980284684819672818 ::
  234859831172171740035326771425926044384621034798462970814654208520062254337 ::
  13938382163781593269660431885043836068848835581079846138474987851013798289443 ::
  (-1) ::
  21322965761981856102574823611492499507680762483083582878489550448340376056239 ::
  (-1) ::
  1402634999361729654808887292566753573054159413472764550691008707382086768048 ::
  11993308119476304528193593265875822361599106504514004804387518759105875275590 ::
  (-2) ::
  3339950477308199238914543490081596279289852051970444628127914757744344980405 ::
  169240743694773065821923018096074145194195250538034358692579506884535602630 ::
  (-1) ::
  9061710771876059665047294799097547301789929534886621412744948247395640472528 ::
  (-2) ::
  1387079956120313650844501684645732621175821836431273893945077246486022389681 ::
  (-3) ::
  1642178170998188345197396661241103005953750224640562313753463022804859600311 ::
  (-2) ::
  19912018221619134432627214768989789141350177695800108133742347981274683250046 ::
  13951608776323892942168957119838109354995494554123618860005372535642533594389 ::
  (-1) ::
  280113422268870486792978217495933151585722610984769238148596288191642975901 ::
  (-3) ::
  3091571401197852155705815259810748613010224162090829695949583382452419586714 ::
  1147446812604356775301662589986340032541190843555235118226943864350798723480 ::
  (-3) ::
  4238404165806229389514861069765840820861070134623715764264677478875503105411 ::
  12985049568235087949563763635654925244916256319693470002360571170375337041220 ::
  15006025750974770783361463910178151594142018861743801491257069989490804718167 ::
  1719405523325530246778734236173704235562712353151071795069903754981603556188 ::
  1847122671869408905834440676019583964547279205060729659629079531325191381615 ::
  (-1) ::
  3588685542134022167316422446487627068178353325893692925395511959241162316954 ::
  (-3) ::
  12524972037523464020054626536149762094512012949275875403851931090084210986853 ::
  (-3) ::
  2815507382897641176028845317782677696579599387362840928064755914718704858276 ::
  12652301251403978468037745700189237156790599361304494467838237971780796853873 ::
  3669742573815134887341210425712869437095709770342478920858135769616032421689 ::
  6438901567099203306064159774547800037938680385214355552496075714236080541056 ::
  1461430733706431728692165194020043897039328952906180101171416141639421523412 ::
  (-2) ::
  1960408788302090598229414359486849081908989505642873524300090709713617384130 ::
  175598104562160952107393803853946308231577353553160331669258199083184594266 ::
  4392942427819560701669658183153491454896312867719901503146862908360155027556 ::
  19768511029123648375063577852057409175395915526570323793578810093896100334197 ::
  (-2) ::
  471921300655042173413729488684533726649884796328484725443837578990367837465 ::
  (-2) ::
  319200998240835933424568998190466994680154949342347791473011468072554465324 ::
  5199973906038057365386786966598114693090924888314704740770149802277560763515 ::
  (-3) ::
  3582278318141537213667067095150939269971353874202520458376307813099855829649 ::
  2319039875563507204717451256982367614821276158881592182253833894435440949996 ::
  9517370964322677662530559998900856767262835847089301971765600227405435712321 ::
  (-2) ::
  19070606200843158811015898662814679433822928896129915798227941039572184776492 ::
  10880239539933001547849544271569457225681379098394187346780742567078787890561 ::
  (-2) ::
  14516989500260117116973431276924822871091742021816358467301078299469330907841 ::
  (-3) ::
  3760375693567396297730375153673954236331168741255326753218973379287675578716 ::
  3007998746600024082724666282480796378798713777773140677502771228660011121509 ::
  112698707123963546004730632026460426607213219673606735642342777067409867855 ::
  4129555434595764374730688794764599126977826845224507237810333656757571702485 ::
  4021247261499220479461405623790538620497998181722452571755736939190996941399 ::
  329066509278652556707707450545596260857779589254350759011162333238007124055 ::
  16360299548560417625164858109852697425197396916193432798934903549939983702768 ::
  9849558380134974096971083925872349344557699863235321346903004443138290899944 ::
  (-1) ::
  16786375958177699369415747107197519712610127971334079389550182290305676720479 ::
  779832393040998907813166352198948724758952306019976999362170803845341048 ::
  (-2) ::
  5814656405804929182220622736880798870865276346119619869296048480013032000066 ::
  (-2) ::
  231119208089492585450267067605500017947783251826408590190738194856064089994 ::
  (-2) ::
  18615666361003221450361049374187839120101675283831845688869151234765678282060 ::
  13996608650410314369553354689818875221855858468710069224416152179565389913522 ::
  (-1) ::
  13424467949007227100447115500083148370227827546414363735959213037855999639828 ::
  116974804418710030071982890831401498695637922526840030509586257681104965550 ::
  (-1) ::
  21152298039017276074631138218113314530658955370304300199602097081768649171146 ::
  (-1) ::
  13193509172883106540233439945124821930371964806922308991651087786856522850733 ::
  21683656966313243743479777992670144711625535956094394584661352095616846410336 ::
  2772571333370000779351457736646925149498309576664568209688205547718216854947 ::
  (-3) ::
  3149588300092677412167069886381380517694818105018365477377582099588810384811 ::
  3607343578262768117580462842006632061128222487746319564898686832639508872551 ::
  1216916956472002118358403722366135068571126982406600609917812535660337161757 ::
  (-1) ::
  4688872434588309518046214803362905934155740033101833671135063170553567814453 ::
  2005086401044025086113282332242061569977298726291385209178613673831963156629 ::
  8548185540538789840091907351953203777059329378120642765573958679591442621074 ::
  (-3) ::
  21158289542780590917041001053231658356837056727661774742911318191745601440244 ::
  4463114630015179465087848248648627495189106431897261014016156979100171308292 ::
  1265825813055409113130389233604789780330362717659830709150515650383321453983 ::
  19649667988144034057569743616803753021115469885017678257804325893737937154767 ::
  12068090998320729111421386397584385615587887708796983784086605447410267715217 ::
  17640570453870399139864703044962362363750899074259540568560642730774918783093 ::
  (-1) ::
  3265710584514541772382889872133068716802545941917528581445428769531610144192 ::
  4107202098806942440008038341181220081807041224109844948188885688686831441533 ::
  (-1) ::
  8790662717174803316187677212952494046504845316340002014375860699408651020993 ::
  315653978010386383103356087426528266053451042686869018030073923679679801380 ::
  148289816310829993071767343098957128033519297224958491827367933820332879398 ::
  (-2) ::
  48062537526465633217640450204505393190159356196236551509123174545644076465 ::
  (-1) ::
  16875649090546655299916360835868757179303600892649884110933681750808658922125 ::
  147498760595594868935644831697714412216214492728189310845671262691254222414 ::
  (-1) ::
  2930777599084691193313364900657097982920708918475618412828800865322002447903 ::
  743039223939617419786903255969226655746065141918959648330731919700515646688 ::
  (-3) ::
  13763398778789144418550804860181637917342384717356850236023760122262901112597 ::
  4756273178928912305539515270393372223211790930189936678249969953512205572692 ::
  2677057126463559313278630548854623519793357186667431621365883102125331723965 ::
  (-3) ::
  19942284018325148240712155857241008281739418722647045211660851464980142696437 ::
  (-2) ::
  141997434085395957019577636587887346843654474538652689147756157474173020866 ::
  (-3) ::
  2612889075305057038143833687517163390855479285978777313300496891955649187543 ::
  8868415564623432726368242601100217599897762723761439683740597590340645515565 ::
  4608981356383224270899230672060365440134303317159653242081860586552630915886 ::
  24657792813631553170104612712095801043 ::
  24657792813631553170104612712095801042 ::
  (-1) ::
  221920135322683978530941514408862209380 ::
  nil.
Definition bn_cube_value : Z := 21888242871839275220042445260109153167277707414472061641714758635765020556616.
Definition bn_cube_exp : Z := 7296080957279758407415468581752425029565437052432607887563012631548408736194.
