(** * A point of order 10069 on the twist (generated).  Hints only; checked by
    the kernel. *)
From Coq Require Import ZArith List.
From Verif Require Import BNOrder2.
Local Open Scope Z_scope.

Definition small_xx : Z := 10757581244433419980876822348126891767066176358163295821604623770257260784893.
Definition small_xy : Z := 1090407868218571131290792672490456117935098315782754315321796074623171193429.
Definition small_yx : Z := 5714288075527440451411109589590309378549409688957001494874202015754310453803.
Definition small_yy : Z := 12909032363112953000258054497059903721442754595940446795326062890906465858681.
Definition small_chain : list cop2 :=
  Dbl2 1107735442119568258592990164211249192561825807057222694735288214942848533160 14487369336571249614069474003277106651011648167878069594667379297739534295760 5655487394253911950958389816654795206308142839399896228887074236846515756806 32208418887310576807565117256122742474261002695221028774571263727010998634848 1466373757926754676872549823959584093505705693299715736344630801829253678359 9532825165831302048932904724994990247012685807131988974896172387948274949375 (-1919457304412315087623000187000781094486461851079592210274043033937712672715) 843316335749933497428586526894851056987867384983272211600127103328708022112 ::
  Dbl2 13405742444910893616840865184359719912083663747386297708401149742444625156711 6982485420104757807996219784784756345917111760215092956007025313081144829703 29386202069314625556787553928425261469573252996589721387796572488368804677928 25537192288391220358309795000111195612395207827367443427780440873977968973658 8553030201222738516674369354730635947296280712777669514497895570984510253780 (-5983067193840282904478205771431185751346792263924221570322343808294195957661) 465839244929812941398501811557294112653773371264146029760902495869835425161 (-1179317169819346569343637055499737127320678284162146735838794973346113437342) ::
  Add2 8841122701206768675996090582664556908413403887349845705250696403037527517303 14414275172229964656814637220456691749006462184128321600825836326389748136212 (-414184067387016458072427278195020140988951879268030482640681000950803756255) 1029509462465278220349067772308215221061765001778154209778442890461096193536 11644459191432095369377326280045035892358552721779987271435123973506135917662 5921255483221924287065502957395920953540622543310857138008162783699149806378 5005052372717158650696573553315484907134388991973100646104072818057099795723 (-8898260234239444402000378170391500253830872786065467419594518414422667543740) ::
  Dbl2 20623535921340716797123947802474889203553959829235681576040593539469252650896 13711507702090473263333344060773273597649652898640205935223327067478347695413 20454678399222922006864076658514121141660680407259994235970783389796071115700 6508855637018127437162652151538415221806788147982986661332518254394172682226 25838508215167727545985313674104181820982639449978208426159292054734636717706 (-10842569311019439034238372227947914345323659969204571271668665254489134073195) (-13035793981807593135739847794498947784914413125872815850614764406596521548036) (-1071967759797892493277141529982048749265381244418768585448473653831661160987) ::
  Dbl2 18147183718396503759163531964343395772268437482236537129029133927523018292673 15351109116314995374572574919093793328610767758065275746315861519345067482264 (-5006652316764201060145988770036542533615256419898140659509542663827053062402) (-14949983067418872124449060246194579561212690636058570910195602063719693145236) 25454706350442694932749844985541469232196705295117058394975318627164227411980 (-4279179756760219517910951531333342710898476238055481116258852874944017207282) (-2638515072708625496593360981005656831698240093173826194640580301103759509963) (-379375890240616669483029429328040477366267886407751822365867232167405975926) ::
  Dbl2 9339476320031130702726717425079892620011881534029150104936105050322891493407 11006004874606872096792345039442936891244224841862550557627909633711012789315 (-29399849545868931517713803462055252505714365420668829260763771788985813400970) (-46384562432693752034629605799099204626385257470428947718118071527865946255471) 9392286306982171765428952421242357136735925884561318258189608404662566683360 1549065658946557594585670130195227688375028485037468610914418881179976253385 (-6286492835216060545024780937381446731374658826582299433298142043878730962434) 4305894730664666167918359070925115068733276791618107836259486482511052852635 ::
  Sub2 13008159945335973076424053793947640136011435412832022500801883515947097579961 2994306161070224030441341025058842944267019263393969219537628702947165387229 (-12364045913457317547173364620889241754076662642156587159776700166336256577324) 2156690057498195054239203592765824450923167872753862967954973362433244452378 3559026066785725371263640527860755975536755333032029193233218503960892577323 (-7321115574032121344341720426404871406870124720698858695389877504857949791478) 10495020121399125232290107563564175550842323727310175944994374233245560462688 (-232037595861438156978715547785055389186587318375405584805368696546502256727) ::
  Dbl2 9021715533703166147799208077744743194547522001463187186300702740335299658113 19952426352480788860827840502248158490426408252334103006918628431169217628146 2512354377372046465453770272088021430668526199295461197006182911469278284804 24706421411192510110376457382772892963260721433613198713613108566570430614674 16447653273331799078532030246801606801894958202283358668801475459277055360521 14469318895742670130757492353986908070328231828124498694143254583321404748765 6611372381064154145589147675636075918255004363695665077366054696687262476163 (-6379913937993399905785132864407014673944779923138064229650985062211719998825) ::
  Dbl2 13563232839566584485001752306100981248358030156273693224763869770153057179665 10202870417459267119038616109151687066846691639026742397683757386333144360187 17307645690811980427642251372943958230854955402997562513949494401793694706264 (-10396099073154192513482812733360678474274636757034514865248520894946654918291) 12644588047948457369139282598352761426585423262824375555259269829568545892418 (-3648658358391155219326497991800734467540570366762623737982570537598857493554) (-4899277406438143233384185511639212963580045988207545111957971737746089296917) 6136423512799207640948412616979332443912150636806916814080617645898949957983 ::
  Add2 10172046156797837662201193117638938694626742890843278905316762255678042605183 7061690491917835122613427358983684587260213167972551338559819471582230948911 (-4319118764935478631365879949616016013204050149531025659692079483833997778251) 607856189296052346637349248462020909021118701572739719037326145774408819161 6563509190701208310136059416373524123197379598796695254876241967056958003712 (-2448942600200535135236409289400643323178487450214998401565525658183916279003) (-4995800161710451138583795303518740273937805676805638326181969631177441572183) (-7387591094065485930978876921278750253350716686455398244089296821071901612064) ::
  Dbl2 9723321192485074053394065562233261073315382206413183489078806239168193885343 20440120997662549559319417856788970505930748899476606301269807170901204843913 (-19684186613044365639924790499647151896710066822922857035919161181412038375274) (-20185899079044623549476389929036546062805990516142256155045390428431091313049) 18160056322221423900442270025242557870896773280306726180941248222546177995427 14768456896224710109726941882962036632046469922572753956248595885809782282342 (-6173040035536440201418132339519995554467141431726279678009939373118719759972) 9497132239272351511375608124185465596217586648834945227390092055036795227447 ::
  Dbl2 40966518542330059552209392722992654108896127203411041019987322874948500587 19244138675729980777351179484042892764017706208019911938546820088741884488088 (-50070243057707741377469862720216879272883473985818830044631429708374017647260) 25377401791049543145217574057601867712217770716088948723076515413786626731037 72035509520478628607539007813698449292036684363227449367278150655418286143 16919366131099842290390274644443885302902662110819953264218854388931274048899 9661681941977656198381391439909093731054551785088646546056394700721594281013 8399003715552072396698702204026267941743001613486430019679384523306922464365 ::
  Add2 15726164624002698098772191034716911013563891143845446624289257417430021426016 8689711212723358624984693114912326632732236528837575550939021487973059647297 (-2802403481646338087891379666517358890443113782416677652925714581159776574956) (-3506472010675815260490039827091341755665000738833359768181797011711894046461) 12486687932556409809675709734430456693390606440728582459817346636920333815669 (-7849016196806635570969127836401046049440857058093733168008509308331515862109) (-2281994263408677628526410387460345973481923331477772335068690861176599386744) (-8894426059115258841665344368658973406945276585756313301072413732149893557224) ::
  Dbl2 9837529894664580493460589837062321212963921078800937330904016235819122830642 10659212637630804537527029125302777242588147633658526716132900885148502104377 20943370109450500394978080873873596190218404091970882078838038610935973636580 (-34426550364348430949909997837656826191767989735377332731781755423269994500640) 9581429043003678188952464857294736173834514265723361446572495979663388671478 769445940655067216569392659918706871848862138432390188565614190811296985544 (-1652442760416879723786458669116756782370663572641583202314142110098623157373) (-341551646961160867222915688653224418750884560398803199064689445844760205675) ::
  Dbl2 5997555685784714682079863131940965953871104966612791776739622360414256633609 2842301445810429775531801917599202202438282279058519953184975938957580885277 2488136963206657441498660927594605808117879470533182778233566700237181662252 (-42351783087213918173131764779601528882195498357116637905639318096075731816189) 1557627197107394455130141264358592056948814464222129353275717765717192822704 (-1274291264883462407031751193917544198814323097670205763844637558772757055180) (-2776458524438462529538781220775077413458902778166533808919657155665900922672) 3317823438503130521782306181018377536775916988937654025928402710071630143383 ::
  Add2 17384975521286764110724313503696350335908567955975193957118658680995873498056 9343430151846946084108404228397267017514488567751332859061051797445681000785 (-16765465857845425321346762487171377858947881383093533941615414569870842682956) (-3825681288381783194500972640501546476125182138027398578612125473398193777005) 14842242515839038348395582454486437355056765723264315060218634027512679422306 (-9819778048507923702521146402245281484711078824284390175072527481298547502613) (-957113144420425639301095494060379809063182378005148781785824849474771957039) 1794221428988414032410747559169112340519943814109734025923501991470726282872 ::
  Dbl2 931568189169785787585355518577291539263797485345085650855274457248485157155 9998855892706910511081452238767471229650391606669809451158591075548352738216 (-82845430020273577632300373838108065330880460953345283911561873772303688594290) 5882998438633518242233912705345854985859520887153634276008479670301203232224 851106791191769039341493345507990738364162410607299500383988879018116065052 4527969670857295823725900624638282607585578097025194843909489573416764439743 6295959818383051981239246377956474834102008918578364495792798307245795886986 3643092960723229587180927614118879322262040976408966804233855474836080540494 ::
  Dbl2 14112325903264391007545220767325148118178062354101916004959658302648388304280 11718862151936734465626148623493053054895958384375310739625202300365694011269 12413023718617067036784116021419297508858854340321560035394660109399576613198 (-28699250232069775161202400549357163384189709216175712353174670661704544010070) 15111345654550889892379442034333299432823376853638530571115233903465053503393 (-2824621995737960364531253744818942343788106052972556435195703873956519648076) 2929535229301407281927487563075167701575140153052606418444048659620692647972 8540619900529418554845838263798104173868021303558807518197695135469833500476 ::
  nil.
