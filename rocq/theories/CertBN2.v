(** * Certificate data (generated): multiples of the generator g of G2.
    Hints only; checked by the kernel. *)
From Coq Require Import ZArith List.
From Verif Require Import BNOrder2.
Local Open Scope Z_scope.

(** [6u] g *)
Definition gw : cst := Cst 29793968203157093286 367964034671540255887301621983322720710059857868813573902364186621349184760 4594816921388531436720410475376243748544406194618186221685984649496599795011 11553780956947608777161634075327639526300538155589674762497038111155876251900 21131386772030108194467581204301185324039795010834682342014028350257705105771.
Definition bn2_chain : list cop2 :=
  Dbl2 8255536868292620944764013913115571796604549141481799957648719094616980280887 16053038067190296367468596356094192129022731063914732179120945019446884619221 (-22006615354811049574561999306099791708824209707553791194847725107669868121294) 11541065289451573896520453549235001975817770474465979205287186339258277123597 12109372907434133677103576205808824229496549810518094840764727347068049817007 8659724004012498191872984369196574395151882295241937169106974854608626194947 (-4923154781865566313969159280870934723900915984527551592956026978811022357532) (-4119913650069459078666924704391463519877752592359135376961524567773880266277) ::
  Dbl2 1318789657753731523943230074421709161465411482585043052601885455443682754828 13053495853889235415328674767199380070043641384076640128292718405874043886310 (-58132918692783969647233901769921462273827379812430874328993989418713444823570) (-14233250561323964019917112614840697446578965653861297621176776022559109253432) 1572973712914011760909183276336635038806151635918039469675217987015630835417 7705257513525258396923685501378425950867609066525895548206403583327774366426 (-2423657314042833118499437971245988523981037798810932224882367911293281003728) (-301641445290368253836989749161283782330279495523191306791210803246190236441) ::
  Sub2 16204148604113469675754640985577409095247206360189753904730099376939760461730 17536623209742075974453998258415387195967442311430204194228669937533714431302 (-11587011240158954661275052720734163987147039615984026367472482594968704887757) (-1293888483595265419604712136322452041774155096818033096559998624944416406121) 25965176845749005648175661431980951281677266029451166893629647787576140271118 2054012369997705043930013877281102518772575279074932587597865915937356732638 21041606945681190147618044786381685569503710698161415937139244075365751920846 4635779864577544893999558670914269184481581856708353440871035395843476097624 ::
  Dbl2 263253999207685837260987206412553605669041817913210783746116602090146382570 13653021335857057497738316946631856599762099348894342724956986106610726935992 (-4177513252148320167467027614761972153585755213350967813457826469183600219366) 9344104997150224145826174470691870730901776870518791905993292632902158600248 328414892778481762020036888416162372563775238093960365070568134744615457432 8513049221004525068860879277233879965099085895886282445099200124793944775748 (-3253795840821287174932596983893543261807012981685964249495496579534667786100) (-4596056721857173949111125847654423312382151906239106874116297322792370458445) ::
  Dbl2 10363917381803769724909852020564711434732148656379605723802283262282760125772 15260523180258139194726563426748558006756859427476543159681729357052622988171 581101516962540969615878421970519567536211319353915817325110503871478793816 16920787396591198259553287612337281233829028608371159468833613308095777600124 14451484513339242081471770169047170120143597380042075465170696785670971013857 5732428362249718223881579294990120772071570039199698182323605687387123721288 9945474660070571220508252134243547312202269293187356611418499184984147819711 (-804979822183670289153296141672515508112429480704106809671618566545493392842) ::
  Add2 7167033369431369416912267964078849827563481953476182225319804880139323618057 8154802137101202625170021372747387048190228225731727940097005576135938104459 5674408265663900667323939337822243791291219016231178253747261353578790018822 (-691136083545837245004189247575585467837360040297522297004783155610128249016) 5340377423617590958427467299317836105146189329605129190289218571895391730466 691441093071890923099688182950828911783372938454188044001145866139326942985 (-3201182400696050377387745265733879194781738690596123924238474624728282667212) (-4969300641791937993389581153145480665917899135602385302820627816490704155895) ::
  Dbl2 3410311501342033036394373331845894327866555916982208837558238832279740082800 7255254398189042515608097300212647431872470395242230982827061414444176421646 14235664526381545870381104458937527864040095758530357491135965931565471072122 (-33133125413346351062484260834784809327403785134646910501834264769823793762960) 2260818985258941233960913178530139236698990598085184860008282583504848007845 1873539693723699026025634019770117503953351720501613623310269817184214732971 943737097483281816796041012593682103764558214831761460330281391624014792799 2339053497044070813399553802311083819216773449843363537036716165262057549374 ::
  Dbl2 1013683479492830206839918216987054402729923011024328151706606124871376860386 4843107182243846221749754851079590504846774392314103027724596490129104309191 7264418700004414698430263993569475516870310486165499905247128383162014088752 (-5592945875998166883302300328286425200279910024375713563619909297677581779032) 448585824709566755877082186933871762335345303718461690085321449738030231079 1024665758390344214998786971245702497611002195510908913345342095583211340785 (-1712574923895486349931987833872669601539778065915795326601548187617097112942) 573784446700352674167891485528231945838849152524232903816381006881715430215 ::
  Dbl2 13144247120593376500866993966960493880059900916926249715685108044300928773058 10933414188981000962154279362539082135433838471876508759317795948085636583710 (-9143654452198372156459525077213313992218544873853056767138481107423629590956) (-8126816038352121216528705113622509985824940015085793451804796039142399021719) 13131387367476900714428233484628066299484057533347799559809823576234991958745 (-2431976237247550080304965812721377063890032211312718631162071919488588969531) 8223934824342185552506509363706408993786743070733485140818310093923863894287 (-1393158029899512647258842060268410811989646866705729259648759975990867880192) ::
  Dbl2 7793357941604677485476055368751779773930378710984110412334093691458589633128 9478102142268491382840244458341155787130777072802803291708132087853022748449 16624173526104325273709962349621167683383846761455736657579575141953355925270 (-8892197284178200786009892633722506887316652655728968481741368211538826757164) 6749399029816362124706507596994026777402691300530574033547502356314632385499 1329389132954954164623386342478790962514139615162298567171156493818956219744 (-7372421814678744955291542454654124608415723175677219677660565457553797864046) (-315453355232040758820703862499272385079656206730952647928609552213069174860) ::
  Sub2 5133477226118649355740330793248789041775391849740766952889192827464874529602 3855306002818940532897186588016263550560053732294526068319143892954016429419 385360368701805543594781770331585635418063736944501773794041202877581728236 (-173809726356487824430345852516476427486768964009919602251775611473475024714) 1808379565328397577034897442262852436034760005473926541734646654810984000876 (-524902986638946447397546667071235602535737883175444856827261163163845043242) 1982605236832807065911938152291854425954931142667539474247629563954414005264 1331540559360634284485815545415150211497712406360257047081884409340630697524 ::
  Dbl2 10760862252072224831634733485422519686539814561290966224748766193283602958194 2242931635053414946922991451452773088448768540384341133374859921252262138542 11509874216408595455794281089155911237991182498814330552613199610425152714178 9910961080454081320711407288056437204090927176241050563038424710029460612920 2205373771384581095795952116153134078458668894045078800133104244009206801443 (-5060498219848283329621746035899925077615025378499350684602244596147386753057) (-4106552611118791350055545897580533088846601891274980436854293536323607611272) 1822584733786350766693026468005143056391536085419570821377418212104665349636 ::
  Dbl2 16907447210450752128524573975197185183984728811995116447752421805204586484882 16978640546095557191752277797009761412551611595535641811093282208499591646418 (-9479600397595580138420533626050102580222378815982933633362025854099204076002) 19535645459300120490048691805634600260376792952994145416693720024841366372056 26230106310420994601643917101138873232038833474422215748377262512056288198654 110217326875741159137945546911210483514625477591081199473527719407499939465 (-3107134144452869081333192934188093456705870911808006487597380916766416721471) (-2982977113318089097629944819253010756997558252530830440557207422019718709760) ::
  Sub2 10356352190940921343886393205856375080169322466363062142440409437309535413460 19123794569451278203559566800226107973923633743491454166393895087148625196194 (-4283477257134608139400074394028504750284115099458057875305408091174616368832) (-360962188049717531619290265855554095717885702352375518199905374701872413188) 18096724615866655906979043665298118124123728405662188337302874268797197531812 11808416488483913166439285075915844045573240071237615537000207248504141785436 (-6966893076427412479703068301072237387023481995500410899742601284944209439139) (-4212130425711410834323103020064837677108712595805246268393618219339129582027) ::
  Dbl2 201892208224217278732612436921056541150160122415271808120644242283722961535 19464288186863865801133299633773479745293953872251740314732018434403664944680 (-107177162132234146262721412177188481873541180618424379205436703272757616687286) 14757806687417374833882038213551649525407621734046096249791107222090278828252 359068395445694302122381545683057610208972534684917962414795924905772140688 17306905646817433316170744011254107449096856239871621555161816572973168162613 15712859665057563934382156596544002617236696441173657571910340596940602556028 6064832552320957279305318123400162815656594363412648595779795546714938745926 ::
  Dbl2 19185872260986254821931758651065959149001314569232921109414027910136542718655 18588845282187844387199516326528891991729748147247476088100911235450126797725 51515890790575639450861651944962258578166811824453472202426576194955865080678 (-28053953642903719634987194971540542091052540884634287747533761934101479344750) 32587651110372035488293186639642530601134184981119118592226318328130202551118 (-1030348832558867278149728108429836454053830482268975982798525358201155891046) (-1676871815063687760876729063902849388415959556151592122736095291140899518284) 1744718789522185176738512474114948239974186867661097392547615322071879577191 ::
  Dbl2 18882581969309940374027649752252416509910614832025453917849784775964608311379 15630046327679064119924479790846995305879737119923390223710791183681145453643 19503072351663163104568363834854558098407136556504989683978966219379109541296 (-16569701934711127520646591537848352108426795525112412242862609434119055587884) 26967503302535441380494002249329315394193805884249660241750838185402196110925 (-5128486296482800768017835401549947674264478250332890017017853697689835409376) (-12534449312944373869014796493828163818767390941256541650700068648275590668956) 8689937561187400410663831793019407001703242010045290917389482655600053310106 ::
  Dbl2 4584874993852860710771313444477319954276940506086955146574565359027466130146 9467352818619766623438814590760895485886832932332596575575214960345817516710 (-63542057070695638510737203422015584268708562136742658633703562732846710729704) (-5032959352874949397958395333617679994553669854285284562007307162610913741843) 3966205003318724115275187844356412742186146174060695359336436476002308162249 3134545385150191295456855761383859455452881399933687981099459473534086715513 2256471232829993146679298193456396045381090128758454796494002816851724836401 (-3087773549118494245857543064549963128184207928702429674699741322080250918525) ::
  Sub2 2801366661542167076879019648716477008458415656080553930598738341213470021709 6607452958440456885981748877681938430345900785722928893958992509249512698943 (-727598837219437848769079713808192671443779518534570225537097396058729452596) (-3195489803007662682161765989097305683611460450389824020199220472900626270393) 1691309671942420834780854817213175483377956685085629539889538437568077208170 1636073742204161210848156188343494025229869055396602848154512750270171083797 1206398238552982551116735706506294694994884158071583363940728622560908245947 832066182781759493997281204846843565224804540903027002312855350094955301120 ::
  Dbl2 7374019124529430658560073456170646957365530607088354509977304978906315518566 12208520499242351969022251956361956202704607512219028399794739669734640871864 (-24326838670416877442815637894802823190999557719116853930590538899950835078194) (-27481856128482736338680846448402113843811625746754701177314947115702167214508) 8225956205872253030596487738990561343652574441264971638102278726230735892979 4325235939943663312043876947313807924453424294311875516724511412172886377846 (-3490097319880692767534939903510233086193501395570988603582517320171906013969) 5545213890159646525745618178790751309458290885255382289068260691194233711813 ::
  Dbl2 16321622187595290074072020487424284383188793502751620091110661817438707666487 10817978260075971163153029603136426185211517811244187553738672025607799639005 (-25256945284858434794944991070886044307221709670896017603734956598285535419142) (-7350561485418933748682699699517893469872548312184912491375202879645100250781) 16133497332647469054310829937365277802293919610627986222779520361020266409001 (-6824060664608990618917766677006040402286780756480917261240902311869973193586) (-4163689022469801857506579781738132499770081378016647202178152165330013092029) (-4193346853880353459468866924355954663472684251086786670381436976509716958751) ::
  Add2 170087130624069481532346646445625106807211356242780768475213402287855622142 6625430648099717254169550312518906553479847651274167264522629683048481863103 (-1118912557982115094754097217005764545088181015329854612477813467572269426959) (-2400563185864423036290150595367413710089872962314277784697960687117381559007) 102968565789617096404024275854514398828230348252413679814329229895093087348 2004153640729815238951661259927645924805933614582365209574285250753772869144 (-1740556044661056429951549013303733631811686274026550800063721470543059282731) 3004803430371782244932578015114523077310708974752321399523776191273440263514 ::
  Dbl2 3809943763021091925170244842142234217725281476194261318183530834725116709859 14234740495655303032718400170344337389794603164699956248956724888696135347505 (-39972282808496304467038210398856059379791159946821131519379522122709359302892) 66973234276400944290239632785840095222386176546307822105666209477552190892537 4955496984129400521433420207314973374041034802940762905794900038128201274883 8594210444516076665144434974413118767013907362355387064507543366128788005209 11832111328855880734823798219267495058698007488916272720487927462555112630011 274711734963509353054316396091893983302555875240344036705563697783731860964 ::
  Dbl2 18213771156536032571606569504683322435580300238602371553292001195892933310685 10102997263859272216407398402973827407164236235785705740311805831949529333520 10956901753798242394366604615724388396422528946341758628297327070128226618036 (-22776457790767437220615533955744593970270773037815823274796419750084460437432) 16813928942262303003820470535188180015622863792490984535904376591582498991924 (-10492889144820452809350572892645974484230470157687455107084426119846547440288) (-16547625027820649266123149562957639686318948921340727823051066110691028569101) (-1284649862952490433589248646016973136945260911619893358566455129761020330034) ::
  Sub2 7577328194321806542302318756299745348985637176012763763294693276408912768484 17669104907598269261974203731311160413004836612855524686178035023875806703771 (-3073389274715220898924350009516495174747958236282772407154726142742141681986) (-7446831231560879922712034451404075563123076029337148981458141035482081346640) 12233472332036838623499400200295958221347023987266381710983643952996957192833 11640101362318250086468228826398584228687050130758014576024270444881061494212 11402400261593740033511295747222147421887129912601981707281634726511187391917 11195311687471411846898749298320981910189482132551953148529667455707576371662 ::
  Dbl2 19945462338969119738224929014220082458491865022003339109259547074336519706009 18565773261145946558554579797933943647280685616331127542038035240204972889531 39930882895194391433124122116732530088989928187735362095504723715344574899512 (-26434891425059027533766454436763891768716394079647405065422855342043781386034) 33835784219156895106035582489918128050581163912791163670244085264894895802898 (-2427491847658253234978620521899032261859323332651534729716040982989454506639) (-6261885829852253985365479941710792517036817138301763543750338534089588071541) 10735819371856091163563049883607198193500000492773316344262150586295489071017 ::
  Dbl2 8427822491703967118983309283728343715905727536089832755862197881224715781181 17433382569005081224324378101580133262360833471391880501807318229428829892560 7767761938363824910553915075687680382452679598615301741954499053125845363988 28231146833418336269508542016605183361750121332241193521669449454148692046869 13425056966136882400131018293561492405766512577601454166042302622746363348721 10640170488296886243315433526802332909364736769724203510118800944766961531174 (-6756163208385782179498653327717645048547372685588639533024512239356352100355) (-105700870658473479637472474418963473265203850822761481238483510213711623818) ::
  Dbl2 3914203298322269045142504973210459908053585038100678362899264962712983834822 20080082346264216463328580262369085100215456714234444465676399197126703002568 (-19207428751992605633498827053630848204000414913148908130725954795319771551242) 88701125152421580714552785879721611704651647937226487593229414153104271729232 7181711662332773710431394410555208675601024982310043388561062956199486444596 17721327465312454839488694305673710088470368129879298431173920585959101413719 8930365527230672287800154324436762362051535708782496659241831258194992989114 47318271446471376297155658725680197224579010645546018805829908973280820474 ::
  Sub2 18980148893960949348448436304204860282582244938748263896995751626836194755193 7670996581118239624710483149038813502228955824788403481402627592103612366889 7140464736332694204672393716219053992396940638915820233306790391807578302637 3048894085912421737077088282442680258687300880177704688370114936858063410627 13303640509399652097731589287215955525853095906350345500170650431547849877257 (-13770034682737072726845941601492920864557570989215303297982500971383534315816) (-11058828743239747332314094629417271843925010946850409713774721788182481968889) 2407791198988142360131640321719643218830141694562452421108419855857062477574 ::
  Dbl2 11608460942834147783105916951328693842187853737431505892082659493870985057811 481707942337318503074569847652659825547837105386078112682886871795268819940 (-48756239748833030640144597629308001058470063641956518361593335947588621402310) 16544214297241960014472451631977677148246965855109850257989928728910769007279 510948993687393028474721004847929513343706688784016186163938683002690972302 (-6145962638813268116775668071005349205897157906344783101803019343168106744433) (-853112584768819307561133297045185473061485629644196714180745585829996327296) (-5408335924649028959626261910631578215336411459203315712122875036943277079071) ::
  Dbl2 11612394812861904432811400210447347177627132677792511826575975068899959029202 16317375969251829883513875153570074977146582395669699646638344926207519456982 (-12229766634068338922266047941164969007582984717818824954344563284850342967336) (-2017092294450319893406174242656620931264381396317820359444566169348883868500) 17313752700418118246837694863820948301522422688092024306852136027531256426144 6003636107364368400380159558531760353614818573542107029780033591841578516074 (-8265424033936582511698979352152351388205356286883788903552537434473843076017) 6501269875516145172211237109453807275593338444922081148756023595344877349153 ::
  Dbl2 12266117136919116424403263859469023430433068902945047953959973131115472834174 3002772733765390357764285414053965462184555838115412013850142407644423756687 (-58047022166659568384066140791878931813977009255803969984833998949333617653792) 22478865757458155385358727403475763530884903316777456689897125693358483753748 3365492817635030603476993923852967478490005085657086155411330357489821531087 (-6461961627260152023022792573947010276754135561867076225896128246259176709782) 557918271052473652118301665466100504427143337351226789934975154959613211204 (-3130048837157602861739716160962421064305542086669816379155539794024849710758) ::
  Dbl2 9626608937668140868224372429250821125303944461574122553307085961941368446169 13971155985525101544231423604758960525362425239923441986640901045338636238283 (-51006848863947649962195876832279147012275498713455874888772586890806926711642) (-977233210911667877933888832149585482558536423522057442443556613667236987244) 12289232705184255372461043745906334942147887902506726725533731764013479556059 4683866152864321756081793827984700130089929761322620357928140329991406920617 (-6925864494275861932552173115989659035441328483166455313702569070078797495986) (-535000858171585725246866738353898060553024997500710975098938420609097365281) ::
  Dbl2 17872344435256972470907743567785490659366836340397253970732699676976922133440 19055365100870189555946218015500463112978066041469384920581239784390782843175 (-64164084255528526189078087207417699102515908964364425508205599050970251294000) (-9671412916794973564805380718129867079437845311036731043695217993340283277564) 31118445680305041057352579344941519486400409372172059018383128994487886348358 1995877136908328346774201779511368701354941455724285661874284035114979478005 26476525153032967352375822071063274070821275111710007421921351276601353844251 (-7189679554651528185814518034455472636093162579593948115721597736782435320115) ::
  Dbl2 19049587303398826100431227614833150798044140081654954522237707137974228595698 4139278189106208725768731607953202823046948457670851277908751510460822976607 37892651852435821782931855800027843565843188269190463052702508723268790722358 (-27452887692549812523190111595307286087929730315013478530523221484989535365492) 7204921993796151768388102174398869597239988642481341969959502191017960643092 (-15796295505649679839968420162324391835186361267532734450225979750256307286749) (-5538361256581662149007060015402579883740643598655657651897180769649059917721) 15151969167202396146992234413966348581106733010852850264953329294707346911830 ::
  Add2 8037304936454076126696774682301265201508432620769148052656897785076188822493 9079873601367894670784346802247480516530748875120780838663471836417558369864 (-3403911447393222689686490909413616271084264816087928277752915309064954151282) 2386836085542539623212377728432421874079320376819559598544605662916532130614 6668211180399872109498443473534950860377516817222553496431618988623724754183 815315970302413328074397507284923828646934843978393699765219565883059865476 1705072209207739952148639651938913466979057612412618639443169799615748709734 18583708242504495555185490400377253333998461437494483291730912768961997322 ::
  Dbl2 3489257266623909903298568339546272447941250408351892483204272602990221014800 9430570754980454074675987929543652608755689634565726676259986955054628869532 (-32453345896160816026123736901672222006624373025902864407264857667859318113900) 22756325715999913630622721299278077278276828099065795701274236120239197949025 3006699781969424697906565447782420881102599057764962236045918026655423154028 3506939727480949005553317320328905258612446610630710350936923426925873502829 4999926213247458135814169592883445919677370966510378279050755905974971193581 1831106596014530068418595465062255445549550300886617745589494967222438970358 ::
  Dbl2 19059563847666594949637155570358699449417457340012637125735538220215962567189 1730502933790775430421295106073334220194065151206295275045968200468882157559 8953900176729198901267933339115595048859910480709588267863017911136065352100 993029131036817999888763126745102332850013075627675580512222189327869979803 3013730370983233043120041704404559409900658234000376954980891106373855410071 (-16459627927600165134096327643915807910805714593382723428295037303533531421557) (-11818764456872373112607517317242550557686077793996917938415255968379597488153) (-555907309110671002349604792252566950478076916930708268953524564110859718218) ::
  Dbl2 19654394961553887642689475326390450623668447406772329122084473761844003356736 3084879969268092061711415170388308553195088381557191496127035250962895004528 (-12441948715053070087680214389286780390110107128085072481873451682683976685914) (-42742968524607062516282462222448744491947186366688629503326693092806766124528) 5540092887308721879296068263679722179911043981670475244641216470011524072411 (-17213750737603292807005702902838827887115362371427199701907055231269153014907) 5492018383149694091076299828667530237332913399963956439530384479984966743373 5516705191740286874158406918667474989706740649324806820103693469366243367245 ::
  Sub2 9356760442459449574412299740641562480147796827653128886199149500938344947348 8025241402867424532472475301759168466914703806251501921855927573860925323121 175670005359705543754052971822350437162862338062091232447815332863843936192 1633004179307866930385244674466494995933404032612043628691474790562614804471 6861241602554261236251539263902723944646609809549441955284359834172276769317 (-1057392616611239675230796679458400283630626543179652225243397087060158022647) (-22116166025513519614482434256893298818885584125220519260281578295469573904) (-7723052922759421767273781225498887140001371231159133475506666587310566174260) ::
  Dbl2 1552702206417263994583554201756263035082161998000955098816228300838914630430 12234876797693951926523702504502267692113734561373608673154049991266914330286 3187421421439963373997046435932105466917465624028705681114379809467363427892 (-38953638005065309440018750196705055840823554619134655145144007224037103256188) 1735828710441063839166513701511299522493033215501318154647721616377160658408 6728787092472566327875331832897164891173160208920913200678082302019996639410 (-545099456433754643048184133255666048193612657915999408488795151201873986333) 6136780788172876712350775971739771048748090302234892566188853276145494341838 ::
  Dbl2 4875377642808320410317778303086009643869654182999172741733435657218200939013 3678799182932096319580275373418426259675007842574581622280663565387720334285 (-2976706237096745049298804882823974322597957098928446287232317592100056412596) (-6553993869894360526487928141886620681639436438510180011339658533637853235016) 1638828241614949768376407777563169223635673816070196741814147938113217981955 (-467636611654302370366124545075016398025411061312908740888352261093768509960) 1313394514676869919668411244538508215634593463890850105393689001605140725549 459786839492081639330591631149337613193414283996028887189916696443699785977 ::
  Add2 18106223326388417436813987009562659132120111312799319449538406505955302135205 19107838660015332884599706903484473524542696320031467131758123224226961929861 13726004439509852930836014999425600036445441133991253235787429542453955154419 1241410395347816086958089090161646415787012367610737595070936340888806072808 31612477629070094295759130468193815786864237557756741101741838888801350546291 1702931355905241960459866322901271222301614770348127900737028711625726678114 (-9471828378390834044409118400788445982275632160893328691731487610455110578986) (-16129723317135340033167916887925595482296589767321499884877591113034617921507) ::
  Dbl2 16026079419725452002347294174274548135648151990841704286771888775295760829711 953431184257665961373335142568759720587264312079629055478046478477328392181 9297663304993939962674483795273547646617053120775607560322218219284511264750 (-56236238476422663638257503938426569886998928080975309473808865084266798547371) 1396161763155023229112468864903003828355803892581512568142174584248015606530 (-11692404549910184499503966617812229656243988653157058217542482441519570336776) 3803035462242355116641863195439994814202526903614125835883155960792269099575 7064704421151123048590610288143572915977039058080137914838705298952887039104 ::
  Dbl2 19050085710848149424662927413460346648184697191626953048531574456588892670432 13923803278776537821262370205378610890045133131490963128109369945479630621578 18077945653233350234859984899840018525244179934810044136786793628404443372400 (-545338807589190763968869793750209026686909239571246271192948980871840534972) 24236723562944688087083439844667093789556479483319176587474384221770771021026 (-7722569090370690298502501267708022117220882579517690632691497426340390545814) 8266627624429178775788531656829563686099913268460935450288173357653865087618 (-155012829640244533119614675072777826075272680133188026756214460070284287126) ::
  Dbl2 20329996231115301211383591821663352463402956555827688620992112228079648583345 4671568931504489932729597037771365276296581086035995584047776400615032869432 (-3798895824691094053656365270023026228874530380061220856471620511037456696672) (-16120082993937050950648412887033724633206345314343371212135535496197749921364) 8677990218490389845985069447440920039453599517035923140748196121424876774614 (-17885638091993070936594648142809407392995742660684897750978834337878416285590) (-3904756011543132028131666646044088357114450610397720038694339033464001959082) (-5425430298335023196306586906351233279435817176470311645610211795654270800651) ::
  Sub2 5023331207075998079887104292285364997438932892871854619499346009984969232169 3094594552716410307101439437119275590409093592378243448465189918321111319511 1569439866987844982956453125513906907882074559894468295016436978197440512320 (-2530763180012895586570791219948334889072792542920250866571938925911934321627) 1420413094000127791540743172995278057816018265505678296571207100196781313812 (-715331105468761346603886898286397594304821094149788915854504024328433830220) (-536989201287514394703860924635230929876162086036777440172699499775937310596) (-286354891191893570130327940467869593761925616936553221731941398420214688241) ::
  Dbl2 10616221435980691724776854251856033981619281551023744998525401924027805359335 7255835178368216332518265667565665100925047223965658030347470282844160399561 19821409069598913904369047251991391924447359351757260154179161734766294906858 (-16929427292717343694128304127398871339001876783203777721138337472693158343674) 7038440993876145619187212460208714713402081004164264835528542461121221151793 (-2743802405418192746186682390973951467886921881844071220286803508261004704473) (-3627731043591307695923573465982438891919383668472567402772646662687101703864) 8307812676417492017452716804445094843888849135891054226959105211663139845064 ::
  Dbl2 20480659601955476022776119488664359613998780535670367375745895126818467747949 10368318992497396710865911498902757675138924063828442887073232335014336813039 (-9620587418712042174266017926097670864907602070545305305352518546708033906380) 37067029727504885403628333183491107929713161368043661662517286212424616030962 19403111814245444153418075729777037838098709402706634001530885774595096507426 (-14252189215349980602725110153866611800488857194644196312289092716165665561803) 13022173104021279815976925585883619604591815299403586391669769035048126841495 (-8648696294865369341300173207017966326468149140843396992800515289519889494963) ::
  Dbl2 20307939213593249725728526913428225138968092896156552538368133417080721438045 8304593527676039593972583685802059002045152184940695065161746841010295568977 21989720052627574396604357509738661062255700071575109970486181867192353739890 (-3809774525605863094856364089423426752885141254949474127609230321990605105419) 15410024600067251067833340834879468233958680376083282341264394538485881472520 (-15690895036848600896760655344239873281787466634493291095172258365808807622552) (-3314353929945014103717714297091290580778056833291694222829758438874682326201) (-920738967421915312041433290534500614781435687230068405092070124381244041625) ::
  Dbl2 20184450016385866922213374397547131673630410353283501124048014955900134826653 3416835632863862499326889168984011837807746046412041038313876593742319583326 16700596007814318872665511617469869444829044719291798053809773740681190128658 (-13796605831443010885924812395963921404111090628097260332887073795692857444660) 6301734538451920174883192045171536276885699869869624465663245779437990362564 (-18079900658956701278575357831210757460045080628178051558742364779056604082801) (-1715946145775184095451253115988254221255220588734776833390192282590549225818) 8822185032347247142630324909673475244643386597372841035642405293067677310000 ::
  Dbl2 21494720497325689034157694318348407651034811642459078759959614700152444613909 12955723165254861424424099330000635832655621899128762288252126631645228215441 6125460954607641445454582883346383355205889749005085516661362909772172887870 13387082244253575737715061642194323537259261032597306635327157868308603512842 25445591947096318167007451517197798535658626447906502677476752789176518707754 (-13439737865020879783904922246473074333146289311738431380873223196959094231273) 8838332721668847529336932166329750530570290141566419166170733538665025289862 (-7394458997576509849437654919585251391981990313837048464375778952531872200213) ::
  Sub2 8891666806601203779688651866675710069257778976161311770604234417139507527826 10310456101599253588005243226953830655850583489372851184377093585865049325135 6971564438585461891414319603741905955725908519669199047517700555729184331432 266475680714262104183689618073112383628111991205256671187004499953358559109 8376838727192474346443360399035554144853707305915970036729235538493564144071 1244675809881596376408624704811843814242395644503990208396577095233823414844 (-5816563993172130615997897119852703383414177222955117913335969756526855804247) (-8354808601886581124778455209476924740258764865245437901537718080972959204250) ::
  Dbl2 3010665109925731329692043861704294290398674188890221644225075846649461395364 18826359730099959620031842188955152819719844045070920036506034628780525411022 11132336871888590349469790596891991721204772132096864476305393914090050989538 (-18301038662776321746447680032349645244233283186769705568535811836222405917092) 5179023708590632204112255319026695643270858291620263881158696118101799460516 15778686224618996193858193162112381241467745205323707743941469188789242369009 (-15925187066839246687973731167017140941539941080436226854285748086154763910402) 5844672140139856161560098082382483074366495174321000391845990060387017675575 ::
  Dbl2 15887132939588340562974952842144397927653366804876398977051724417369027636486 5017800929907748246126905304598466374723421421719811699747375909287122047452 (-63842453899087343166883586258210332096256354888561376420364637750797679871972) 18950816914414860511927899770784351306988913252330962748866683539180409173155 7284136136884488769412101849223367310477753669215381870379531117889576863323 (-10381037354090553335599018665387717834209574576490498203121321575432506408474) 7980166574777436731951916230185881135530636770252708365737170899896817168618 (-880439540180958821620432968010819165409810228528843653401624172389309851023) ::
  Add2 1488423879969480388922389754402142766590813529204185090676741646295701538393 3338303549527499717164440801213560560123383192024113774456430499560678002583 (-432385348841184303487987206077901533155056398979847188534752602502029464482) 1061806410684224133035801745318432312188829537306030213740634831311697609307 454016409704254986028402022575053535081992059471845096360015237701546614098 407929727141875712996101661555906754961942275272807972362699903921546120915 2605540597651669200455660007186351333426130466621767920294543442250702343060 (-592356875501137654625014066025923795177604609502943166015094078085002455019) ::
  Dbl2 20579119412254028702899437760572971494199555119765049846648104445733198581084 17139252715652872654057137541342214567725132821604037331900355157789944444746 44370158806937656005411028456868268966481048205506107508812171947598399016712 13064702528441278835762225337601620910815732492781586067707854645769362838201 32228327357058536516828432479617667117294337787141746109445241146267452671268 (-5927665043397502390900279524191372354610198072760383275912226954971921826232) (-22916214613398261359880212018109421372030486613898952562029175380618453857168) 5266343108929613049637797096773503839932091049357809241165302188684351833667 ::
  Dbl2 7001140481024740517654840579155992933443118692825430430488703794795674149606 1421026771513752576250029659760883468943042324967385906345993322633363268038 (-59427239687956714185423465386216531518774611458947519359221631606233239181832) (-2863687033456584956234812825722321297268993463215998554651838071863986271532) 909054976492850529190899326865595957928023913514852135390332266866888804332 (-2147118488444266537646443455156398762708571607869147111706988248836323748378) (-379696373026078425049795524240631945364077136950312682962878476391376743065) (-419116682009333998351329005460231555073968677343754159623525959471912188263) ::
  Dbl2 8499361404440227169552142505183202532192631484345464630118653001192650143062 18953695284545432260794000566100310335053783631815733458303623298861767875628 (-18705652790168441237161593373036877074189458146375276008301377582353228105512) 2451861804839838543561370231709699052634277521953018404845800301177690425292 14719711135903471111668301906342699891067608306410580541725248100726801984158 13112218387587483177523260257164103992917829707737467299772074270815753160712 14499496902636863383154174028259084139259801544229455253778288036560016837176 5733828166853456314351907139166032349376493499740183208934129034309223299807 ::
  Dbl2 18980275632763282257771870657095626185533354898155189623782973057601153752147 12509134688944576791397102013805663075604804991902362120270949100331616389659 39376174561776725019528034226518687394045447899580776331095783011801288218466 9003698617816314804605438034280914521438577181477649785215213769640259522342 21694461790625919551003445463692825355945299606892532361522595602502511012917 (-9309674313404035590793991086806990559702974266048678781718283177538007684713) (-15844197710523747931745972837929106184071729414701960651488842444740091948223) 3723699840891911310165221598912122017996131462703002830421168293494405419004 ::
  Sub2 626207893729582474519560481016122520026351842365775568945551870234405620777 2356209205674318424213307581706468493229487038510155865713112976942340574528 (-490101228524020964094194364164175041154171865259679336913549293562689832014) (-349933183479005093606274921177093862057542016675660379092902555844455449004) 134819118419950426601043410118649830456517429956218091348615518522525292192 235724060855214784067856718194987737179494515602091283416547905842170876600 101349892261445593330973028047647083993843027772293755673306202492095746136 (-625242488707193041994254281892541591692236258382973174233493188551857707778) ::
  Dbl2 11174954139868216224024799366828209263582896600471910489873494464654489390207 5671156794994718692882438828171143438938807683916250872064758050027672712219 (-56684697451971165086874808291953280973234794374109972469697334721246258790842) (-31947883430941086261900547491830011492107991163828783097266759663347112177100) 5790772468593554519435464275195148667653677753909312395903430468348616350133 (-4235953574602853904568306455278520721792104033426917273513163536481329505793) 2744376048959346471819997359696555212826282864057442847188086675481938984595 (-3643600021088362252772888634398397267689709452441121668959676322137565254652) ::
  Dbl2 10461240085836080233917733682200158810684963169798227520842645275710130289208 21607033000590733215729693271837240793375190859089748874229503690278027673441 27425394588754598811733617854589230420553372096552848797701151030054848220438 (-26524667071530166697385822811567590622033029696813130685984829689949161075950) 20653677966318081259072014301968964072573710455459452255422479145455015415633 16329603662017419373977349523961141566557979177828775343002546793392328866095 (-7224881166192871722574451755425791113012622336600946149730150367456851465768) 2725199641355491328991958232356612786912624646903953949526494713414251989572 ::
  Sub2 11261333897825136507030136027018963232205918131258659948475371942828159155993 5288430701153283835739599373591740715945454013440188605731561710416247144111 (-4493877089352955408193251880405230605121284336614496757263697205068330949473) (-1927102873482803586315200496016555019197833181018601969817963557623826318976) 5441714464692635622054624081434407663702206917765611787327545596750029530106 (-4516129616077238979033219128867961278125234617848892433127021245635806887148) 5871612687674226197451004941283165797043190598591808609693080811754387476332 (-2588642078888347329479540378492040760702317170849663917397166929289863878058) ::
  Dbl2 8194950833596935083928738689260330138454210596664257085260702567544667606652 7356647834734723598910640322896019350912577352762936353352476712259203313974 128873817706577078748017442123910688574984585212851271857292411754985771742 (-11561707656015530283469561652630586787160999433221769812147167192214350371460) 5508652993183134047015573638414640736559127386498705661594144665119587398366 (-595614361422174103342576018473381965324222769356032918208398379303196702307) (-3495367728172979321823503032875580514681639906461578094000215114916333702546) (-567401374197716815557811129450511235771528585499876437313328019241378984245) ::
  Dbl2 12187760090398092256370812724279423615024789505036874505571298897415767375971 21673814201888344983208903744116928412298086567934330829314779641938606983488 (-5064830341371934567978860948147647796045287455264485110347629818812625544428) (-46914396939771762193310175659441781554811588930003211131208497440862960783535) 24136724842023019022562643789971686034245686336438398381971539073809932911319 14675126181560174123232375861714133791057745017476161592094744592046335449675 (-11226625560023109947912634512172692864794961287601421751621420328856157418268) 6945009149029015727445382807055789606316545584257743843654507246268666052721 ::
  Dbl2 17412297210261153049279440894189594048339792935510647225824438795329480829976 14082356285758905325658479175945549060743096135400605880692293482989469656584 (-61195277077778440917410674976855175183585049301141222329656517577527814610536) (-13909872646286264260036050946309625624770059434470264314048385759648471117739) 22405286208140348210116227004573405840242410466405653670846400986468860387844 (-4791400396709974805878581630807671489292441246827673199186731900168940763088) 11204937555357625600196137910782616942717280416687389166439095068059086052832 (-7376870765072140917073523270900213339378562423589715673471074874863450375381) ::
  Add2 19529996690420504118953104411684542521368854933805767534800978387424013017151 17939616912652543591362974532483224290318951787568650570222532550772494392370 1990459695131962997443589716131646147893970157138215115806232881943274039948 (-6894911605902064405661929464136966627964168893366003778744000094982260192987) 32013593871646853968961013631775319016344164052358719725484719219146308633272 (-2722507973985178231190648826941243450769818919270036578601138730109025275891) 2985062302877368077433770687325544919824787140690939097354627922521604225501 6176898501781768192789403120407128238932017344810512557495559957535626819051 ::
  Dbl2 5914097736633776770786647817752110452645382787927858131703148551347973401910 13947589790153153967685830846381440095523637965096271108099690097625208452008 (-4817951758848505725028814762027793893640158336552011279193586979463173317864) 20291957024430008904448980320620709976532984956866913960314411564656597510307 7537143085666949302177014347854978434860184048224221109128836096331906147600 7289699307988351875881775427656141988193686004564813730944478791547146118540 (-1639501218553397602832084287557626866532793277687080132552324116961068191476) (-3658669859430294352727158135850641383881351566056928800225487515080993504994) ::
  Dbl2 12932173933833219522279358908146803384560765760149633920508595097566531331530 14281635712390279807219467508783429414993239601093661782933172218129400664991 (-12171443845877917018559876798680909645123229685501672933156527425836027158372) (-2479475948667926196407707416156681133506081950092446425801996223743694987984) 16875963792406094432530893756611217235337979769214579980046910722700383946949 1677795526188810020595476145335950908648107323862245804357899757612155887485 (-6376943439541436228475722633616332575103942579374235065262495040256913845321) 5634268661343991205378058111645277153858705189712930730630119359084618471819 ::
  Dbl2 20786294824937866537476760980021107886944484331539586214385546238987752336700 9836994604858668631128919493759603011435388791863287319608040216064366115744 (-40733212578191713033125546114000046918541319739118491058949413453493381194964) 30684345072952959736523701819159034877381387590112539004899967626692471516689 18683516191332666155711725962437201785876547937137470830179413655554976854904 (-15318890221407915247087508645482147119568640833598961185224205938140373929751) 10583697065602061307189688304506012984228334346754046838885857943485166310055 2019411904199593085137354299524618978878629885008351634248189636671042182949 ::
  Dbl2 18370818415905859776867160409215412300761567373267460313252551438017514639648 19192381236462204976776571616174802419538096210644208258874451006130786398924 29152177020551702382529070358808009564950027932559841096503111697331289143708 51194204682162142387638917253711643564999909035057608924906416915612357205735 32216359506637599268151060123535223835335606366674643752406624618953120471808 1409913460674580585145414554937514884870390791118469912027061756928845379937 4063993872937237622690762654606695232615448130897140486499539151840653976417 (-4330975625778357160816397932599212311231107004243347291238653501240845635075) ::
  Sub2 21781740353770847348627833775219297178802011793831895501217878676123697877328 10751712080000887758093125607932270321404060198503436475138525393549822931560 6784880086615072471049858025691475667686325579886265833429850946693110813897 2249363143024857210449342002200603891913106545256977088900763321124446055823 21398794070069791220919775022171885490812017848328741792047086843751471834515 (-16394413306219792680534584344573683703125716323028074171314869288573385255578) (-6284576848385877486237537261461785543181358618420724512218035892974298137434) (-10452638411369875657352251032614085178675798477221827258522765873924487973351) ::
  Dbl2 16271777566004303490564959222628346467304599082135514019564617212661375154452 2516057668935943010032945055589201697459035155617992667281217354415686207345 18750400418331521051813746813056824738875795062069188084344626288034787616392 (-46157133112152685413970974108448026321298435561345432357227171388630453617499) 3740887833882546757497318387584658614146574511179622339897327713966810707602 (-11807261116268523980674831692439721080161086168150339263313591030342507290793) 8164212237605058975341137522133862278674240721848803608453134712666449377087 11037348113443874882028639810749218059567392180642829823718480198919117545975 ::
  Dbl2 9104686472890964728168377178177030041661190671749622683233799805697053979963 20710892772107505847318650515885362406591057148099731363021056740750263315672 30808497887386109580397219698155422218783213692244628965989405507007697035046 28203785629154219564765870651849512655923180056265586536629361638396427840156 17229906152613628471904982459171547600324957492160397506650417899565283236713 15809663922054830946442753195291101927490483209360259989150193403642115978468 (-1936736621937817604489550321405458329955231411600597949032373131600256751608) (-21628184736285716691977895799162533707382771457573411105150559691456996440649) ::
  Dbl2 7628948539345428708061597436499943644833434881443383781009950545537901602696 402164876557010775121917286779823824248020585941203941592802243486750618513 (-57708597361642214293126529784266862950481761743978379919307399002130478315952) (-56610937895432283504716085842341336590175854139060675514805659152690472271246) 280341840644774341923409641165999546580983133272589605964712785316441836506 (-2651611624006417602516703363610660865388235602238993080302450817636863971893) 4223519448558692595354019140662213753513442195099963351082432179473059906799 (-1141057435740566413479753762010778519814664670249255304648401706823555113569) ::
  Sub2 15281680679295703607410002487993054622215885244244365611501462458576073431900 8775606253056208637108943661081444589179665503875698940065070285026853074364 3309601988954948797037898046524233839708719601546012071896411002384745174602 (-2364051191337991997920191540938487066208595800727153712938659365229429548143) 12253702895354126760824106233834477453546325796071629858261260681887031920838 (-7150802382435738838475983376404980464663419510283069406230071973408707778961) (-5799812717257272261654881820900142267294561119678420945488008561530285111739) 7152746350410482766905784942566423028979004157466204142126064266261077643671 ::
  Dbl2 13244059049125835195804547867354032041761943659419991368157982026934979015722 14894488302909067106554094010922164586121237212498626943445057708122400016083 (-26391810678642768036511917217477494143059522036245392046081000950801897219580) 19189873676494815474716427070570083867187022041379729953125458280972008622644 18024606520063309952404998792372396430500975013191249293129478219798931114857 2121718128800198042674926680315427723366084000424740071160892365858032567241 18151029258495444781203372358634553268340343610037619142161058745723711000932 (-3349512935976971623197161026743991152388445075076980606143525045214004391379) ::
  Dbl2 4769229474604261010109082452258495569162716875756905580787826906270080915745 19950264744776381034003866209756476421106086083395136687906444764438626363576 26274825833672267049740040251899416733283232672982578470570453582817163316862 23582602953293079247157021588412274204183427104647087420988783664090843305799 8693926799337502875581468975497971703089493208100432247338653771425177609383 17144707128960120559355922016453660238926964978292157212757787980051848023600 (-12364990676737205420752290239096335998977879312941005119158675032367534010575) (-14179851300752721688584853320058398669274168314020774534844193580268016915352) ::
  Add2 18381412940759837971124113008342405051602785313976506237138317714959472142412 20851051638583033197654555354968814458699447990252858339483039676174747916290 (-4620466593099325905209375435076694491440578170871137731539129902786157967756) (-7790257096155747001781869707335800922597132217952187911105514624011719837923) 35020791085154415942707044601666473478851488954767597138986431203434618395567 4426577926032546071504120831657437701272638075850087388644098869990488839541 (-1608628588360151881264281231846386624484263408931592602039479556598366298603) 18628549474826290815712771869494817649598307926105974232659476068134075159048 ::
  Dbl2 12784888275650830629432806922969596840550402277030421472115601435544328377055 16563918046683761063758890339976880406817033138281983503144228303039067951251 (-27035414956143264163357885107307734946845179582208717293085281735331646706758) 45314187027170722555591726611305669250083813651715297254336866241245330143461 19349917019272686204629366583158778417941607690113915965790954412674301743190 5067104448985955239873163417081855814952069219794691666571345198365141763856 6544801895331441156885219939479966083203785426702378420517863342915952650245 (-16706475422738150734174128158989772572505643370012791766909714278418173016595) ::
  Dbl2 1629490703313558582841043151136718527066154706926578759617803157503664762069 11623452174678094322429742097045976699956059199177058865782973083979048708937 (-13540843049605504434076496279746240014648111036223155490318710311841552869022) (-21549346471935375596957088315264174468502715720062742918863904900373630370602) 1730637527182752842558397619310039279013281837891058814961703703493157010332 6051166431237330465804214517153356944820165332423057693983301033348054290621 (-3820333302637480420304533533707125686981832340469659378324269438394079570434) 9504359811535114673670164116315797506331841292961678816558281252169838917968 ::
  Add2 10390655351549656624082252070275829956373139970374397491354455252961276214215 7796006651306711499973211751912205013135869808864906455687000217306772625779 3804288115352966734202074202431230125061436688188126125657695186544828992666 4888333696296288044443288689326173876059612497128990828425073215718460613890 7401747020665243078826185438253188693231796717451910876206167704105030376690 (-2155860532239416431404397552805920923285087469189644505206732405615411746351) (-8508569707888945160552740801945323320119762707466672197040724314891574497899) (-7384416374166262903697404678179484281531001900918488215265217148620358964138) ::
  Dbl2 10667039755043069988416205126815525689402646555446499946757064208357009235907 14514684344151654660824253582265358495206389952859538213387792769131470888269 (-37162892440676111579184410322307494532471519288381343836399199831926858402028) (-24321299914480130873524368540267173887788112747297666843316193947725806025017) 14147203668885153293849931240697949034641729564817154257301789538516552617694 4426592168316437797357165241383032905899302953652756440451332382298443717114 11123595219611210520288460100081312957391469314881642374128173066530218183000 3975877836566234340871592417691286079972533047443009200133616414953729947468 ::
  Dbl2 7759721023932563375595390495473606128489672390303055001118953767035252665254 17524905452728902002931530389846927322753983033648130650904383053832500299903 5564797405294785107202203353414572728829978692265328521964287068056895548198 14834650781766346955920164072529167630475705089988596097057690029557843519686 12425700690568382465890949285287889961373009579662791738689138450707908610796 11280441385977655480298141375086558603786706950798531632734047836663967424538 (-12001484732408486223545947480809411796297370097469718472450245693766764795088) 6146745108427866859434278532930389362022401032864746296460871784579553270629 ::
  Sub2 3047881889874499505373835128968497185660717254153882849457447797464099826768 3040012721070268807209682161225128106762357866740475789180924572190224829029 (-670021396920714624041399277899368182945880687460312437439531332592084793222) 1758589332543308689888558628012417675783704568307400529115400426676272296573 846628006806247545723878687855853550501723657147346275028964432008159272891 (-2188694206126795543012373212975319939091542008691814494566109007265201076) 2241140491212334208514597239192708410712392144167923667899586332551963756938 (-3021754061799026726965839380674303034906756830265264713476505649777680875623) ::
  Dbl2 16237294027868958791497816508505139724953786497265522793834385267752429120792 12345429898923555005284405392519711762365853885145892190125502528251519075591 31501387131282304593535001356342010146390690329476316325957394696969372917358 (-1016126372546967510278900918367670439313792693033311458903376106235199734616) 18316351508248950411692970566123747277565260330003511081003685900509349719626 (-5082184011278095016792157130391382668774222420465882485754312191671639285404) 4380027956321261305528095263097852251327740370252176390019002183429204116857 2156123448365532400982549365944389673361999171956027641349953086150414752757 ::
  nil.

(** [6u+1] g *)
Definition ga : cst := Cst 29793968203157093287 11654622640043082330095839342484005086684875409299202012114409968898791944778 10578316692200658262682190751513498312124325421021976035011612831488744688531 7750079410820353093347652043034816183367441139547979308194592834457012626862 10719164899871350426900444258053379225615233720032953649365295656967164653628.
Definition bn2_a : list cop2 :=
  Add2 21423822314181546521270929056124438044156669917164985312908875811695322479728 7704998898441588735118899985498388221683391137370041776784266187720769916451 10069034132289641604885111655393035349903649219711272280920302644366238526441 (-8749901682326557369512637946233220460468764780465038790716387268361601407767) 15083031406194025052370155758345346346135136848337153650074184433476391484548 (-18256977358322662539768647050632790446188819941356108814672628780272348521782) (-9829620828317300373150300689385714008723597651544267343815760216574308667680) 8940896283235106121778805476164075315685100040812123314653156565312359571695 ::
  nil.

(** [6u+3] g *)
Definition gb : cst := Cst 29793968203157093289 17218809124048394084409246959600902292250051600929332071565373557634179599751 15193526612818510109848602027452740195327201132720406789719719770166547649998 976928630024961842527891879849412999112137750903160772941583907100686497968 19048401663742657246534167741295465337113736860901558153279758263468394419126.
Definition bn2_b : list cop2 :=
  Add2 19741555549052262406914225960848658264172166890708277058307414959840082226582 8283811530629994519219502850883304848372505349388476183817994004542798286082 215481615316054209509017560029126844174837218234820933813259665489545036681 191072327932965262591139425607294929858684724027214944675121130934665723482 14942755016686249348859432460191824196047937738588366470903831149606351067497 (-14670317937418563051150185648155100108446267888444778894156196978695207391001) 2521869025587503533756468211267637590408712955743252452728018766777910246211 5916573014813743116152297499198986330739421493239978904043323159844861962512 ::
  Add2 3052022459230498624576859875402310512466336081374851933938090569357195339616 11913479279640895893529703606658348069957591220640210282362705007231330607348 (-1847862201883413605062951893593282111652478801573467794824566113273848964856) 3371536906004666741520765706693776775448482148688621464117959946299965277492 3322350409024480814009370921330646261711362739719124235755045453916545611302 6058784537035877965914955314935734758109391618737082394545671609575691725706 (-1836962172270618733292109390012818133966327738051341604762133425648890891233) (-4942742500097627437369618381749453421940995334498152116262603184435622904992) ::
  nil.

(** [u] [6u] g *)
Definition bn3_chain : list cop2 :=
  Dbl2 19686155991798264748928810850665741628017403409842590760827623575147348082354 16544276161832830585819494086505378705370927939449475646228833374938546496449 55013327528265648011233178423003030302817798968314319160674348843157189131276 8286507714760928992102337635447996968973044427193640537403746011611292583965 29759647971766358992838622878822490582153774887156649715819284751804771450365 (-5200584838213619367182888755503332486777249486228253899032088472392672011483) (-16979121493886211550816090059045622833437369940890449280132894137322873602647) (-11302951672746083650680850618609657795259479464567427861595892268393707721301) ::
  Dbl2 7422714731996607218366980756203080316712322650228380368183577389045750294877 16809412825970029305322123370183436356579357618985517130281992547679976749955 (-1566850825419720720235256374752809136458000642728082282882592707096017467150) (-65522952934971481423963728326420708650068280365885079604574095514656941427757) 11400775927981639369357793561580417995283622014404756565719523637556355836421 10391865025123999930275635420794801478853699557244258379581744480548212691193 5577065918001835531280573221128683806039742021697777070516847310955183304027 15308840046837276565881626566031393924970810944556522235086353483711323929512 ::
  Dbl2 21527709753171660650321346866745251773166344764661366413101865230772364014648 13087763305198880989411446409887782548763061138801229574202581910346796208339 42622947615520056425315271438431298931965209847698633310997593533057328699990 10323459218682738842736765410592374308150707031050010160561139579210366945024 25744375316213459397254914347503117605021366567108700021026105475063644439995 (-13347473371641285503226523958211867958000905108699405086533682833363456133343) (-1927653179053416991982352413817306913296409210670788177688564146500743206217) 6208154986701831256363780491879932361694755939140469435132322188903206135562 ::
  Dbl2 8156520372693220334246678018554374698370903138319761321199774378400006940153 16068819051525556387789107015915298283107684118273586146078669723822519974587 29491799193846006334838915948547639288885967284328642830426180460030177899228 20892104195893918396980380163504456171973127439611979609369101155319340697413 11975895070820334600526402535348550958691218873779585063841889470152891933226 8757126930783382936337292182330675493629593513543953622261177559917439362670 (-5546736861441789054716715285835427415258253342313199059843777769122076819087) (-7117888459274026375127208516033273030775686713390165412008438396901296497119) ::
  Add2 12768703806013599448005264699950064416718210757384334637925694012089232955566 19808431877562844345852038467052430008785629168190566158883054853054401111074 (-14014399441212246315084562924414207546049890469405079870314978758868214529739) (-287951615959530244774414984009425637878252699619057768318127938100357771786) 23110854625211328277253008899940296036847200524595581673368275154426150609199 10477505111083897392301766768009662442874276894301980246981800306620981156099 (-7658859307185878695021561890862713220387509620081015058772064436678206844975) 8337912105004978443124720938217926530183709232680352881635409873608210862818 ::
  Dbl2 1390769431391917615019982141652854808813793251874417998833700509262163964471 11571475515190636180035283441829808073599731754413680624586939365971659028643 (-41645503840668669942170070122332643219633463789591816574013253264470743515166) 53993953456015789880100762999140645247620894015449224543901035432083259350103 1470493042027805068344216135027065968374039432442396139052815800259372214258 6029026942000171679264092618450686629545516436343688573648504694352242380013 11609391288098889699659187084311772435670901387548131049089160193666012594916 2796732941084149237704404822057598090552490009121109587068813615087921722510 ::
  Dbl2 17655551749043694487927938822124907107431794373671174663357014326458924595571 6535068371160580313440069953575657541918865165746347093756736390565584368478 2161884924267257553350593847178165150944957434558454791443473631059475872930 (-4037767885014535927882724799130251955886995357928603141755234918274813854489) 10542667904970014383970680059255128132040251005879043373437621860956456183645 (-12290223135888082203148464864291287705713884767834170270480983130277536896626) (-5389939571803325277279882723543340408686704306585033378873558842614067887128) 17431883957110093136429402652512615966736895160857313028179927521578651488822 ::
  Add2 9799427116857330312354946896723687974329662880096113623219730756184040011822 12873928439525679600024055570606972830891143511669474151604631590351457095670 (-10479823455033338782827201640496974339829193114988469329536524486419454838264) 12020805759720454995690851939516893719577323390032795372973918045282854170853 11527387025943366761816855640273474640977448964535114498038744267320893628557 3184781074277783798683102854908970200213403388980136900831522765326176417932 (-8086180822443413494740527141129731221481282751467112919804341625170057875201) (-13180138331028880716078121905059704226297779218222432613345722188825964107182) ::
  Dbl2 10022672510037348254143749519847353156712788754215397824420982225907006539702 404166746156930986552019233774438188593020727272977054077325120776921583551 (-99993060194944232750806876646918390066107704419148779741322449439178421722758) (-21162199799386938831141877528467646897702486308730119095342297643345698115188) 370137608568843772255065222144477643468685721763120036421540268339644694060 (-4581939905911315809200702724016284320564528378060030335773231004514990184813) 6105751065028932250639313374176230479454115391720989277154954435039464256333 (-5469376366764550112588160405525730457409928575231051608754781767733651984783) ::
  Dbl2 17025651968261440992587029789161393273453513011143619696219491163144668936685 17683339792692428796104820126337947553888189111866931781373366679635017280087 5764866207108787785373186837304424152203737273291578713817285641996521306726 (-14693906781947305018112187319974002493142945673435732121164283206311522027422) 27509781457536493659769674203020797722675211662174042112737724244767741390674 1042919772643066181879469713081612570445406742525638593503171487555855629735 (-12620130147275316483677407366966930354199842395118123749436172563861166323347) 6267417157904883357926403759924098884318806623565492453508603593874853462551 ::
  Dbl2 2702620991459405622722942632086419371658478789869015488825418230865040475580 10509926329098994155456231688715498706615235612689285775639094179360261103890 (-42212821686697322811210959668179427328914448941090679056011911082184578055520) 25261125709871102558466991172064028146719531716579886631609710275310779596839 2595397691996462175415545552187861890959373530553737227927995225466950447367 4712776252694382935326545748233583814870307221950384843110852711995672379523 9458447870971164454444780800707847629019117250648596674468245946545226050109 2955712484890604262773134602162558710011901885003097872911887702441879353284 ::
  Sub2 9372402119163856143219511746069282465134715552839595794957195188942099913773 7937574520110582433546123364682963566794278897571749653885918640578129669649 767057335274156215652110698391169740816685635292368553215526652654713638568 1800251223049121767058751263756756316244067689020510203212861200850635439061 6797634756604296640191933337889137282408400175573068495055478619567037216560 (-1134711103418570229807661117251761493936421377150802301415403049753391589568) (-8187351265322095586102730442085343971272139264310688423011127636662388170107) 5058910655995236607388480154566437413087525474113469731597727456592251727215 ::
  Dbl2 16195326996885855123225160986500150188262713367437994343110379787351362789629 16533498374156396010109655963346344316956718312109250100760862180197209704060 (-16823408588228101330500892812762821871385719524402019447103042837524867484146) 25683958700070669592651706468797870327870861961417826847810527489177136387647 24466597354549828249847579843376675423488171844246242218528777429305380258677 505657398676440047614385228670080959270450589716374251062942925688953920760 (-1328646270175456212368505545613510539000764098279678877254931211191052777741) (-13080181974560364464129502002081991399907336516308476101948367636808039085955) ::
  Dbl2 19717355517708018427200048179921698710705060099679808794780031138469218305995 14838430884598277683240578476948011187489550601832581019653210589092442263682 (-19066311528374725584827122806387793539997620811316232595531773631830985637894) (-14635181761333749939719511356678466884685387311024460135601624005447594775438) 26733495127009964113011896810074094876955338271950313394950706453216033364523 (-7702540513729402066748124107160621076085969356565421050662390799044733973574) 12630059361119075362094778715191860495082229654335959070390570501188098124755 (-991233265034637079438875576531661425793831191213248593813430919256739926670) ::
  Add2 9259303195602067997607490377795814875474631588262148485521276844135701441550 6124270462288972103307061765979262665313513249174501688781302855597372216143 (-2223309915539224736417034914598383044745177459729530243577440724332974383753) 157331721189037197065623124351553381874513107973269954340207204022803247945 5181455395413252046163419993474707947821851340918331584162898456174789171611 (-2203374992465481318317331632586599904893348004337102712136456911208890828274) (-8197726773125943897495430985927040255897664096671590460121361663604598418119) 1506018587350330970825726723737924188145842479623683553291166846871529024540 ::
  Dbl2 7443217640225560402893845270703854762245255378352231910990802199246261028280 11985620879111458671691832472399147761846692395296264426029165216586754063598 (-51879209105597292350703605611529846850019272184179383463282900750607461980084) (-29521814654983262325499557836266454467564150522105406754679744823210754639745) 8151552893378665580923508109489973437697910587738772408803892275115380952828 4032010222783661892366961871549415484496817958409539709081322754969897166564 3270310680831851324836183943216630535016173121509697398539195224585997732388 (-1279230534279614452801212911839066176152005510508354519690737108862671014045) ::
  Dbl2 8692745039571797296391717540240429032519919474782549510929003753026047239565 20495252366443447768311333764942231871534999528309428089493710883762897388277 (-28112031216655738585678327634688691140826803019160733796115600673112543831214) (-6109740113608455385443564508535511676705673515607677261016677508085229049162) 16279059437191139429447603850119661575968768006055524303236288249083347623991 15738657290047601508186870433126085169047001531745609247221324302484423080285 (-11731218042474078744861997779690615045557776724086130884336210208211822005467) 5240176944171870342832564851039056517414862555282262055238851315022551366396 ::
  Add2 7668500539829762503089787926686260158393248368765416078618047679166283192083 16131599519220619666850518506173070354419233147703872642102059990551742473347 (-20669238596693199645590761431345122302957842268716883305738384345575741562014) (-2912594101849348125183535793837985643219307085026003639779461102185865609295) 11303344936894505322674218778480668083946689069031104179218222890541961822251 9202319423195616732299311622694832709339765539214123960858688846636955622288 16016757717683662972504419577505299020580694077279440559330902468862831341143 (-2292155780265656086935270440195757657525346066553154307280984883537838966726) ::
  Dbl2 3730035880188707967820266170390316108899766177008542197770952133585618666244 17409128562088964658447507792892637212117463687181265137822734902457200593199 23146074593991729880098884924331980469996559177338028884894348995289497313124 (-14078960712577363224880478332933098524323194955215015675395636831222645685310) 5933475296270160598178183616718115680638249606272241652985130813201364319275 13210954909307804605341495610791389009938195883438768119078782785060443378742 (-11276652646103328471600072363533919204584338153825778029344416543904929517774) 2888058572794484987855801654276593164273780077078015131313705932146339691489 ::
  Dbl2 1454717194942610591108087399149202589204192215788812849727304222997980423676 7227232250701634806473642715654406889738851144739487221252715346282454470302 (-49370804129647738093485302375314306663448795786137828455771087550011336435502) 20331534774050689920559400264826481899748767479770991165773336795855196944140 960659938625397148632438263066910134243247709225796523990504581677630754425 2289662271282573790017347012359509228935401803222119136247119466256064699253 4134218005416507172736405706111200961469898049664606204998685532618032330697 (-599070156619276892202080558672928461527090525900511828925657167277738314736) ::
  Sub2 16210925314697537848113524823386054837134141056444731316810983024229061991500 5190572589117954220568087039250412476195148760044101508250959610961783824155 (-6182395835265780926338466217751262076668253506872272801291460122815913983261) 1552949599783986895872826676686225320228707772886468486027103817447126146152 7688509769869594203980106567741179877756931308568488018696223998692245923931 (-10775285030267945347295769933917086027601010825031734755019682190934281691007) (-6934834325784887336144826565835523191253936442970442144485749261638605190908) 1485245997980613298170876316569518051520649170189820288302816007440318349266 ::
  Dbl2 21683374964415779591183478940996527374927097638612767952541692095826588216439 5826928311905471998244632637273517078556898025310518668937880079254216332935 (-31858418999485301513143701471797822121595879577675676593828431125241890972958) (-46462813349918601970276489729220060443017721018191529918394501716902424632586) 11544779744779906023336927909730307412704569568639268478315335910434311953401 (-19929222224438527196017997798460250559638885926493770563796156015352598523293) 19800642704426766619071564802556831648293045857649996238198647872690750195619 2450547906842769536902163043278781060430366086176970859075194305504722413804 ::
  Dbl2 1974245902841678073101086041170699848684280849814319297977935993613722073320 9584590371686909542888601457914325855828810373351849867369600864846267104831 12158709740529047112220290050227222617416716902214214617181754789085264771042 6105521456411942552766113114492927054425406544091977701990430436314844392396 1728995642319335076480005606988250261230973507558774493050954300014051199885 4018903034986032639526024411993352549773405509503941693460906630890533166846 (-5306048300701849293052855433684895638720847799597200794062980151368773920639) (-8632541047805817532409943855568034267847205637925746450410712004237885324673) ::
  Dbl2 7214970157619902881448508170229392128360595927686563561254784642045925526210 20406792735230477375875041774822302822247504986616792744339373443674139559300 (-38530767683840683315293629641689919991956095699614550925802555770179340401978) (-28746372642131099925095167583693718059535864851588295451558763757984280167020) 13453286447844534374068926560011591000407395929831245261893359773985488199975 16647357099281425811704338881051062425951522381342026914291190548207413015284 17544945467796025147844685414609043193348773328378566441486599311922066453149 14325925459610702284829158249433351675746782656489425116560101961589630267091 ::
  Add2 21863265607114601899600051091450295484662632491253474594769489564202725175969 13143251928722189744474149770637962746151827405282622026262316012927120001010 1456172382316147825385322909511393026893562345646635890864257189291201781813 3584345016654070844454249367897239076638602396262253665935153988055140633380 26256507618395960917389396357721197119760009313530609196911092489674544419981 (-13946177111279915329988131110278021631132259553354953684942084880177561805649) (-7752559425402808925580957693595080348580164230755503337923799402815124335180) 4957372421733858976898780127896946340771453318633393976791860494971151799253 ::
  Dbl2 18132829636597665609425073149447009980917420124642503173060520733052616960389 21085775007653303011117110220378815834026604793524203884485973860763135405054 13148361422543450265613204811477332472623595818223357829631136546498733523816 (-14336990833657858898807201293722133361532686315667221299189289486706677399783) 34936085843721967408533771068910611173258055836768923864736874697161234187769 5290986477151166610845667133270852819777506402414666124250103344864452226835 (-12697787153500771748005292457483634337268235751631930739095103079302521002966) (-15766053040921528815827247517496376169946870166231264884111929635430287814887) ::
  Dbl2 11275226170628705929026595634164557268178357885443172539221031383083493134425 18862970462459167328645530303506082178852034116148105295930831681275965830193 (-17544851251476772269839152402898571442526424811358911866799816068796118629008) (-41205374168147142460907423889017193039624784208120261227999067392370855553267) 19433652985251615967874227155556262062942126003083809404371629276822713583749 10447660454416385867061899183869994755254869602759690684921123405890820599937 8160978299849837230393432710628130052273331023059580089555536869723987669391 574233412146865391677057225179346417511603409673364963626167616289952272693 ::
  Add2 6062958769660460253204738052093431005983551868106416094375135241995801003510 9024015545613076759709904561792410966521958481081009177426706641191208589209 (-4126588722650203121131382499973934827545792518707838343669925208084696095967) (-4478261318097098730646140681858809107712539149541027370450069295843265989103) 4999234932669553510177080988646965629553382753250863818947642783549220639083 2040976417633741111814986280598415835191861896599489012109643731730724817500 3352048828472946950325475688680608461701571930144109501539413769852998492350 3602614968244061543174193578147332740709455732177037627761525227871163519643 ::
  Dbl2 3319362941284513686239637547243714839825013434656466827479393381066100172484 18022871911392979613230074288411504625826559414688615651318844869214524636725 22207492368396144498040863307111913817251976765450305514761483804081587892962 12202133386523996227147024623205340900312939727764291115921561149932446289057 5466355017027310632216987076091799062574674365118659604013251840914908842515 14336726042191246553710866129893787002807396723427616264432829034518010783465 (-15732002671392164144131574816660359407692547415285034284411937682312124069785) 5157913338605983714046932897913122329051872232322711146965436529250020538890 ::
  Dbl2 21270643620054427871273138178380831597237858046498530424891033887703334442208 9666075276072932383218020524394552037060797468493568078746369875662489757182 18364609144335824500638977611293721113511057844833794867276953796210996282132 57843964669623422831523292407731692874861049528984503884107803944418794913749 18786674070259859985709885215700680325931899649242988490021264990899852812790 (-16401831379098099255610292843650534120921099596873199606664398180295921544359) (-1732478330258535965122096499744309585997467573945797894257831121486459177608) (-24547344787503789525012686547319956902639308849617336783469767656561721150183) ::
  Sub2 20490193202440599473870140397477782446434155504135473022914724576064662823944 2991603971754197540515606500034869357238733330473153535204243517997756271237 (-9939149921843937404735534926242496894448146209650038703720474143538766911953) (-1794118955254887010675855111059769578852209523480975465856747858815689766880) 5601047441345502916276258918436242420669627179166412143199951399892872897260 (-18772558654225109936661139970454010281415832421312433196727553641256327884062) (-2475724009497633805810250864628069516554198227078964002848822197684217514434) 1166150791045032433084079451615713135208341803030656079003226241922966346721 ::
  Dbl2 15318443725369496058089307455721471028265623089648765475352227380785823960320 17900993618595102881420109332446201056710031414464882501544337614416256607033 4597064004874042285862496348038806013726071336347706610204607743410236192286 (-45608263941816537228637856279428849051001912172878920970434749647847270512261) 25055950354739932516009900430596563754099982324311301099732750785076257842947 3919494811346703648340552194143215749038675066617288816161058677380228734553 (-458314813512041419504279840919070546245902822511951619646083211669637150580) 17233057504609471808882689145744125539185773809281904776198365466895317733400 ::
  Dbl2 4910344418176170129446670483135738007034707443295000601827386294914861121620 17322179879838432004901039881489159441839120421345265439975510739267136503057 (-9337367064277340950870691778966371527895761570156075206311791882381960252288) 22559071674139647302550738992264631697615074338934271596359398040454255170311 7772014389792886034604177466277006163346150722179836345174119380877464273495 12607061932750642366495134115054041732738526885227769614011048129007807114727 5862346003125563812717980223936010497702270058615374810721142187563063944669 (-4144551909843127077726168466631900159438980894252758998113810488636661985977) ::
  Sub2 7769461458552713527138637659058514565548568277985660430386283713923044927209 7552654944249916645702253591861428753951221049025959949068660157781957554684 (-2745329951837560742308276011398030076288683401806792623925332061583845374042) (-86034232639364546432193774187102359942886290986748275358623323819214291816) 5361788229661252706405076666170300679110179885421593737195597826974503241246 (-151767991084713509305396687241548677703880179258246183376418373747487471646) (-4690890430540786509002462016192909747760923905168108049731055985579019198109) 5223687421403344167459770506061814494909045070875150650827669430735962693539 ::
  Dbl2 4463627328108040125792295666471309950343538843885969128044494344698460377906 4415313099009609112328986665963100016230804493346030103789577508024177416293 (-35201799451881809569130917420736089868341762933435914251237818128533627476388) 32976514929904633074058531129907053933399935004339195156318036307175552144955 1800812639579103584487580151898706237594226051580607903700326869980218524859 (-19598611202317848731863007027639421809981136126946256265084153727106965064) (-1386398148854632223109670085632546431967081110774663509235667727809087259111) (-1489781979708554611358897471071156611636736177858004033209447400815982098812) ::
  Dbl2 4138851329377315892991859047525416230147709198995776070280683784282660486696 4401255700253865950545724999154001196643427088636103581613794345582618673681 (-69120203521392329028367665498628276275563557115194820663041605386725664830076) 10854773926360802881418415856047788472745097456167116088145205007269594190604 1664468282135293651084891934638859282731164854711181154201071993994752221398 102381969418473667219141107937949962393201800754211752621414242819809790040 2103348465501163366198750881640268522480874630089302713757390618911538030773 882910374185141527027198830919349506723800424799583826758592961406437139137 ::
  Sub2 20373038727282492658884793586866384140518203259499751552756779603199306369509 18473472476447509603682382474411672102951054397819967078651411959519253449278 (-14896671748808621306066408828583144519322385190419019362633553748937571942321) 10676273315520242287585950473319881980053168363069525670513377136927399359684 34389308670753672720288301018165894595286526132367203056552516481706285575294 (-3371285766397741119453964950288022172766976796019127546598587944273464061919) 713534204930052658043794714780406651780629008360005926622559664317020404044 10082601587677441946316968166895564627581248406110966161275896529067397757119 ::
  Dbl2 3669102404478007485567107756458659983032559061405172003830166328895008204088 13305880649404012346832766558083974646508547142775578921343978983444635670934 8738242511070432078538698747654026922688899779757001984065739364872357898280 60491355014098473880999629647963804807934817129690661369307732522302855841864 4460900673506026514831563853362531769941876356417485823986466573787836368851 7473608016845430007113159653758621809462263431129709356237609491879397216053 5788855969915095107232174010907383634296487811601274081982072824488172020956 (-6297478734792642667826606560367679035254141157857373942917803345722518428632) ::
  Dbl2 7952321921768859511275855338694254019620922796642538065532398500328297629017 6111958818606946389879069133392497518166343662460870505484594649604989902446 (-16545202990369162893899762878484877973106455911801142894943437301703084418830) (-6154463481122095950598009331224111642853426739674209385237308124248536241484) 4441129823233936923872642955769190885041965600071351459339512549131602071402 (-1182524494937832308784662982469907771530696631923315065171292874294527538875) 139506162002117799496938864217411138988420203900285894880786203330825435152 2688307127394936300205896687495130195977231836338196776177060193374363988152 ::
  Add2 18798725269966733458478794283390058002803453821307359951540085211275927465737 8141178261392909620690324985248531926977588694911371534914962311829446523988 (-5299833919778904766863094393063514723392376812479083627850052265855242551012) 10743150755492255643363921427059640881776595893798661607451909260062885543616 13984107761034763699657880424999925054594511697370272366272023470223995713506 (-13117237869344929582598528435917527098706615339409927013288875404866742803532) (-3151351692579303908782461773069654867896173208049712331051133496244900439381) 3310409076705388953855072967798297955942363562518349708969489753942561727343 ::
  Dbl2 21285409079794985808130832146463049259658311661643930132516342748836716468057 2175176458725598343338630523764132714227710395772243670922016335246422105933 (-19077723862069184065442151360740451233256521284174253645458396260784943476100) 20057858577634066337856897963016598972754457370553388265797763602959506833636 4230537920819734798072970603901775296657366627308877712624610432855591141670 (-20483016827469572232356397276793683686119379892230902733607199069048045306447) (-988272849559199630171321246937169005647225248884167616519352022554402316183) (-1028985581563712582668521514663787894041449322099431048625053564336341941971) ::
  Dbl2 16289063142606742089154889692560353917479503573052672019696858027495835211596 8662850850731665555971741895771008487520920272176640228480527063618275023219 (-23721064138155943174491509979284987022631792476732156811078805891078484156616) 20934543955770416425831646708142945280734015835500521267039377549508232049167 12893654856516597434151769021154809424147029479915232858619616306411499720465 (-8693644086279141635834997099767460270309784508115676413999556126650816678113) (-2897708124906054002678389620441841594993038631110723791678210466369936951265) (-15391189030456756121123961718968678398744031953994460827803153202890384611728) ::
  Dbl2 13447859337113653307671712992432150617154628950842710903566501247579813026046 13761213496048869875555629061903802998059768206056427998812274761776000098630 29477462892801451780808571123016925931989988075640140826888269081518947593760 (-39913756255644887911539088666504950764900542556169140389731459128799527263539) 16909430737443628000720868188338608826354800039284426431363520581657524825006 389527664827407137468083393034190926251986248900801232983724320234588244199 2029718518117349534488555549601715575926249386828141629863891330258891796943 681712527890581356605965708324165328868111683924215719004998400253463195569 ::
  Dbl2 1315659008480520523959657454779417531404215467954055216874496553256055913083 680981156283272278214421615229954762187945497748111605235985992350703961592 (-2223166695394737591026747209136094146549959129141971716840033515834895127060) (-42670332243652648608190415579047100233981692016944314942491123005003087358171) 81864862165090037517200086894818009487801949056401487344378016793640096205 (-57895158547121820306140171692863091114986958240537959493484878350024175380) (-564471513969130506541014985279237429564658900935419934026762439266968589888) 667362190937982107138526142426524899422048862337594476002900762468016981977 ::
  Add2 12958995797591053013071404484828144786424793453844258734412920126553151554590 3091806335851075736745446304389719424262103046849841162470645936646745543225 (-11215100867301809755126744537491381413772950047796825233463884944958325285018) 5707062235365703292130775012820115067690099966324800550559299889258302857701 3661025286301811379023200368568828176179532987148958702096463928031380293153 (-7235679290973862977021126849827924656080131997970189541787057915698726324298) 3678159157556917380831537665375580236219000338218524993693324236277751962671 (-4035631703759419837329709435147100612451672790442749063848313223221630684334) ::
  Dbl2 16295847112942248007345105090839827845040433897074940788004824431193058772876 6559084535460789358602947996191537610339954634483024796631444471676695959902 (-11705244779849062935245728349005272879701244006426251655746549259759712066748) (-51145741725455263122305023522095147463373083664262670196335518097324221846245) 9766507016262032458955714257582256281703574390700738559387271215917611945474 (-10166784263499348047971066801881592380002427232378533759763208378005357012032) 8783072047231462222094749089822449535631487062824943048676308121785045951988 (-94006688462564834798122525718729466349946821450794849227037195744180199122) ::
  Dbl2 17274161804218074487918114583787037069337145092733184311062356855017003778374 18370966720511644227923006274149657454788081850786399945480626598013722646639 40994295292915750369011982410597562870252243505741415099583687420872933490574 (-19663630545129954670796109937172871056669562275501401183994728108157258577676) 28996667616321748268517206649459666364405044207237400177751981981578266795585 1786153070246633602299462399251822906801498448517864269642400599393006601596 (-4188908141168116328798799129954378569701644781221697303333296163065309590399) (-2320939423732703712447934968308422561252764766951557045901593822458564238238) ::
  Dbl2 9438929952486682779565372152816533684544024033502883740737518928464352615336 11184010787536301873702983298209870256671522519752990834170874837826717280496 22367977181058854309488070768309259541340955521807241490127073826809744723198 (-9028370724609756625286699895808392094254239314196909971185853340206938154248) 9645826303145356943039268557450452613700504851687707936833717462827427304289 1644202271443179537310415660328305393324334191911763460072828918987193625572 (-8849093606909759904128741718925285547387491100955519734456870136098210783696) 2003099641620325929079226821686214282834219275438908809351210664160980478937 ::
  Add2 13468121691467345626136226273469799886529607778729159915456731559177199861190 5975455520522083309517735162799467618447206577561542443232825011155309323191 (-11081884454030073210084801618054795103886914521581023896768507112326845097022) 5883167863514962061446781508391220639189451739419023711606284127734297202100 7353551638069809685495947120585064365934596954055655370234953445943044589297 (-6655821304224842339479608710494567306208041501283938729574099093959738787602) 90335951151683306414358745021258526979788857040535547581861174044671632126 (-2785159346275275070163323094104853529563048959492074538389602960221930499138) ::
  Dbl2 2089655717653901551918997458175392522342958440981955612784959698629458680493 9750693201565762180030844318994173984217958768352156927181771504063289688402 (-45637728325262585842298447813957914625570688667957307176553626213796336338132) (-11550555114257032850560932482109497114105196857650239360358010612722051716424) 1861784147685561109798587418525886550638911375683790378670624095178019721656 4144204604447300621476843351887968758771200725653701437578754346529447504416 2895734539799089171752967671899020755974999530024550366297978794637487654071 (-1765784162292660740994181114232667186694926396736917631114391595582074472387) ::
  Dbl2 17981083679054873243645278002379153979261632581001735534118410751047036997758 12939875057658087608231251213328202364407749350556004383983549688883571733831 5862795470357809606150845565132218749180477027449426863108878881075224234280 (-35266275796414188698939157477254814427905325664777497300115016449109597605311) 21260087214000609282689575286116202746646652344793356571760311620679819613564 (-7121585989249080506741929553929249509421393441756213645520430022749865561283) 5473005123059716351764959711443432295096833778314247506208068199450958996895 11426063602658520127904504933350494478004477832165533189834268487992627484082 ::
  Add2 3095271845200931993515221957324631266670831645716768598739547449467295286016 17345681997737888405500719559733994422711767083700023190499393161014799274437 (-8412320740552956026702717667955515092022619564648210938166999183424115322975) (-2205718894143512559138877047580934815327702494937344931517422071127266560336) 4905793620600043150752266856876622207023328359580890575969579685138477375909 13308148026158909942852144827143868742110299986841922481597224421970095951830 1969550089516746085605804492284168454073350415835951335737711411192672867156 (-8675429885789683567077679319183173823450869260420037079666906266029844724813) ::
  Dbl2 5555610404169233952700808604523077882250792084181449065068719970502207462721 17242704601986197746728513818702487423576595746504825144810628122000863205483 (-2620162549230360971712464454704139400420188542183051879842080050936369610030) (-34765817282101482761358748522723854447601470262140764574442078646912421295181) 8752986673595117556960349242093456134813256976902575104086348912257871969682 12173021680568232193704653392568704447111020420241339187066012826630550355992 2133289587919632930038976386210797057456192749083449736550368952441473147129 3064438457668940116717765958810467592765251177712517265286600302732449358842 ::
  Dbl2 5531692505437616533421538283977261995324982891106340655772182238423772963423 15554691936069143906356729087312516213943301633965439167480811189282733326947 (-469143370990085462579582690020288713309986864156564797256837406734488163612) (-23547455878821856250550642171669025093771964638503343292150211534370151275728) 7862099603970113510884550975293093905308202333624172170098865413216833501399 9655814790104257295553812934050003728174593829610739700474740747142095656293 (-8531424489302948278958584172787594582209945227040222598856616829259785111301) 10021730600264668879544289061091772443985411898298116982105570916745269470674 ::
  Add2 17703054768409892635544759176229791813437533366995739277358358092864050047043 398921720836056512268007791472225789752816988309200347596535300697092272796 (-1701837754206601153125592361632163460998669791504969511015565915122463234287) 15576222486704820807574046626753037293484265264713493413057219209025844593364 645290086885407190967300136621916715407399799449257020865898985886973072888 (-14310833968174251825835989213700492815729252097105035205540401105251779321097) (-10720670550583498060436969284121401278761006434393222772399584622258916456777) (-3457142686349829792203932989821591698987964070512710201816590916205481517343) ::
  Dbl2 21491706224524755794451588812215572060541638757381421154490716192513068841531 10921003317394121312218935111847930581547939457833712836286870612282845659850 (-50192164000606353965621207516472236620886295882056514643784004238156212200474) (-36679076866386438944838198025340272054355293554865873023959418514077337848953) 21446307622661344595116575379857735893199068817874710594284304670740925669910 (-15653386385964925305786746459460478304175230889780496593696329714069897020858) (-816130596933892421417325143420035198653549289951635631668355453436769816165) (-1446670821785367944637049107010640485238666628048289307078024150161015374913) ::
  Dbl2 11673017977360129837310357152947106127308676779403173887108236794235655407703 15970899540295003790141361526729979856550814644046541038414704217011791403714 (-64143824168919069399447541530455956014732244845870468228673133951711758533570) (-37861215540910587453792320741950503199291114412866229201489575569469613233419) 17034587795837132444219595746323957840793239475298470485185214934257163682354 5428041169046052580920379802652539994354890303320557057296159263178220746500 16427128441229024852596318947093037554813742754550807311336555210517781438333 2692870731384065456514688709888670646277536438580696664798515722136530149547 ::
  Sub2 16921239034228170333150306897970110893030540619261245673453152613598017913760 6711296118999804196880419812415024932088997280762008783937875233495119269260 (-2908170748744845518650058784408453619726022533425858231491153691498268408360) 252103854837294645405027875092336680076066821109954922355881717736320353169 10376661710492135643877011862015725218879090412277316837237437687567211991772 (-11023581758909360451843487385182660276122595360269547049798007981288005647710) 639483482242705948640104462552442035502647210881811585902267661917915353974 (-30454048277023145961544252552696592033811966478253527954202415250051808295) ::
  Dbl2 1163281329813993340391777057267953770151680241903767641448775835492337084327 13806456942772948828241509883890768213001376163990942664005015084945928790865 10391713464297608115699534441397199589417961364625680411091827893602635210118 15891063446097195382442935230625808767025713769466226559400809786004356667274 1467526990306916660082189079480441886190906346861866293495376715372043312847 8646880929115236658631500209171933525878919197798788338122144161562105653917 (-2836660734953742695106809521061343436531605341491753952398809401385457930480) (-2286242644896790196669299210703704485634976715116295093820772094838451374092) ::
  Dbl2 12809028773988803906130449762221588554106030480491777030187489341610916196227 19677031936579296313679100858517878694761332178581499572047318995075151767653 25184126586291086826317706521307178422945142986987922523604005646321839134060 6000296265939277900641172768032473273678597150604408976666261409624218010258 23030050400858106266367423894873923080162733767042047897804015653642269907202 10193343020116995260569326557050385723949553434144843692208293558901079493609 (-5843360510826995416926064593708205072773369037495331767234115479376134343947) (-8601567446047662565646647393459368783407905114526403427784767970068043550526) ::
  Add2 17636005850389265659588548469530316414502821824706247871108806327832003809965 611269117331287974196284763911061581820271155627684205878834762116031128233 (-13132837040986418835864811333912603807364884217962324568545667046719407717602) 4067435811435161311966110319840179379481138336962394945448060827146179191847 985035280587692207455176292896805312814945727620704109557112266231571448961 (-14192781679192734661859404821088385049147343634984087486361128831930630867420) 7754570918937466996888404502879809917038397949334955999828707569361343637419 6808352823266398964768160158076856800855309899916763923359608524825961593691 ::
  Dbl2 13096339069416689716658994971659364720642237380506368749271550341764816935805 10221327892155846695193745267841862583779340107254320300011356416695726616351 (-11027030556691053643152812791022803667171693543119523939683113927157981403588) 12464888902152048653123206004460621590987511543072634675220022059466637332605 12231404466694927197677653205514950108229725084553808260129426323977039753700 (-3062765409480018889012041868969251248735834161502175814937432386918872179329) 2534940223645042071931657401713776543567993617490641740139464426527522007466 6316754516827608264186782200648994353325172022063970656024861177449272672002 ::
  Dbl2 21181514665746440035590917633162563774283506739466016809134625605587516611109 15187019793524783455914161400326565694049397691141261973313879419261466471697 19013848409585945908604471729162349838569726779718727772828041682973997430000 66927566082144508919146917028982172667911858739832961521960267526360525599711 29393321736154097071491543878039599936665081619099712128788392159376711499975 (-9960187055800813204902894246132995492013262116035672961345531095618010981227) 3701857616783620324583363030697492599461477074823369695588370439939861223828 (-9494240673937006224991725849264399186705943909823193581900444887984339670620) ::
  Dbl2 7360916527200290280503059853939862937121747107618331193333266018008126157753 2314631665191482505949041592662097362321341521944266426854182531108984770658 (-1704994690557139995017968404339338868185800797052661624343791540945990668078) 8841739755505429855821326665695718347751185926676333191004183429747825348552 1556800203511029517647264974490230430229678761112877181696341856204129186425 (-2230675740432354770126805470915355123986658080911515223500899482628573788950) 90947874073555379531328352037940592956375279174745641690465471966114510562 1845488908453528684967498060061412022143835457690632395274026999809262926786 ::
  Add2 376457203989923648035210422186491174615338548519899590800939016855846476043 19984681303979975371594074095341969243278087141642921798967695966415094808696 (-13531617321199461701716641975353010406003073121654401297329500705917066424818) 1397244640787850346711959859247375743527648443246183316105195678629605117250 687435468472925566146946986958984519503807049237806462940604843768001025186 18240192651958732738740809850055921917104877122273604403529743355894809122029 (-4448448639538656090013918930053247867558565935739491927288375438255894770110) (-752477663319665245971710806318664354195684141182216447284304713727925035508) ::
  Dbl2 7617695770384114866317883223911096949255691932145262793792445262724117130587 7963209125023133268141910969539244419643658702066471606061041349041453203014 (-10077777488347021958388209177152027767256368675681586284635369180933879257424) 60020403014700804539147894801501639439587027759916747149371481384181889621723 5542820849125156288328152857692677772345573098042121794886158514031063511763 245949880501819053644359355444868428526258232996439059464583314825684967588 3256020258320182901278219952318757426847287339028667504622148211581338957062 (-1345836072010050996933647428538278773737585493020401594357721107813762949651) ::
  Dbl2 19344559712289779654012830056427958180821788470548950041840477663686017706038 1755047869886613953316844091769833258321965466189544102426795155962459505327 26420744586663533191955415711680289518582428410985862228354948254905397938902 (-1760510274434065597595784692820541648877964754266393236857337156057385590510) 3102179422600285372332958319231200756317162149402055191251981301270613705381 (-16955760204682203982938227627455208071273908370491431841103151788410770707270) (-3785617951337813512090647974734702283618776027328045907517261802480657806583) 4415056553483917361410547327616587483947622778792772130794688803472435510986 ::
  Dbl2 6815456251374773488253797009184531977268456236446815886147172821795026932192 3379820705894865724745120617280545924108365129102653243444188334992390442469 (-16762347964030460122362169436952198457704004308976254377998669246899974416020) 48166201311494784931316006030059288340420988825554898538283809649919484834314 2104784773578439657275078414788270356325059694447138271463001989509880935397 (-1600277195181929238095831927277019821272769965680035618122789551374382141851) (-661456889257795630435131350629755798921690184147188561767940269384445729775) (-7126405689672808015795928092469417118137217202975054029492525843853218777592) ::
  Dbl2 15527470143434089432382558584495068478524225167894100495612217009843965663056 7098019516127221678314443971405156788850867383322153970723961654177347183920 13122510976842351624278983180463429591499285687182738470948071209320072370440 (-37928254845476224664684460735438318439062986229852841743839701584762886552619) 10070638082691978034828216931121855713770432499022813955976913251232493996281 (-8713374075782440851716345474182339614737720715177717232244898145214712390037) 5210344359372890172812718297094109264830421545061642151835016378826608429754 15158205369739155786241092949238915011004959473924843982699315147003786056125 ::
  Dbl2 4835936665112585228236389285743196539185788102852900791756972753208934760281 19491500078946093187989134860468205476019770581128230109741089590222291353303 15067022592659021216242836667656607920331521638923501541476934857819379971016 61144020351707359101897895585578474746749349754531094226857082076195090138894 8612811950391118424596508393828866773408547218876724411810360145344102106045 16288758032618440862446428637854808566050153619853675652437249629680985712629 12222137004753028694042248717761774968397730666160819884907993300426081017363 (-9287395646015634528266430744657052766821271344884494615830091396927409137590) ::
  Add2 8590007306743542004645288233688252339386240896892761816326861966007802059734 13400886406599647521003942088551228286171015323071318349352802873825655929625 (-1970273760884926166083485852127176984056233619305676761997078965248933567916) (-2366441176254864390088515901032611171841197517464815359815148242534552177004) 10518314587749102682056965391095872603061422890260376168815193600752389794566 4833441020009558447223981210648033977918650057784630738237084707863228293437 (-9272287498529286945973040526316774789582998161550321738402569524073219595833) 872773694651462348432222988057888897308228113579953347791812136350755779881 ::
  Dbl2 12852701335336689571098983054412527532493461314222859020242245852580895809853 15614740955412542090876159993662305693424921639616246082764238416618328069103 (-20302008432956029397691032884789458632088699284397985460204554215493994023654) (-27020524168294733138540034565681959408300239750935507893652725298546078302165) 18337844942936993619513598099789420617785215962039923451770271367023932946185 3592257448423730618422301355047879367988340381859076586398471721246532954404 2676967758831188729978206448692805870502169269278106413704457724554928738935 1234808856956609920214910310350369903712201803752742701063593410899809500505 ::
  Dbl2 11327321807326816990080348590609526049349477351374811670963954419831853597364 12366722260131028621937251114663420469263630577402282187413594597871460436835 851980346833563492129568081096585722859260041092034685488552130881243769998 (-3831226649449734462549362288213593782472960506459134994260560757995818720359) 12799733954209826014797375084099979397219708749721369484037858445469069815760 1125151994917039445265663733122788671558917388160054574002777644819875425917 (-2532085010289526942626239370536926055028035055715516297916169343645666719540) 5524846746195027245367064743063373899861673629198360297385110971220157375953 ::
  Add2 12986265308753907016532356141565790826855251369160020521693754031895861349913 20401673892385949270099182026981681432247359912995280859496401284238343950438 (-19056622085388774933452172664078995205518520592158493045938218882624458280031) 6742311755786968801791301099023691249380359731600775551146013946286906121074 24208571831050669466735479705995228307545516807178726289578600322972908578905 11311333321344519004663050158363473257086242479938792437377589252061317702021 5200808115211541964705668842171157814351475802371333739831858137128931560866 744216484716588515177762313085558317020137220608539656627404593032761187331 ::
  Dbl2 3816345852099762926547655977967345355885530973674057386319397288845429152672 11843576504075180890199514668198192670113795224493750777133894332701820871342 (-9618639247869393308585014035803400001284381719296420194621031876205527397478) 38508055967151239292816024287824657255957512143066502045583783890135465106116 4129996576701492654221029784478935072501972777784902779507839175546252850054 5743074466099412535191297471444340145534410973267536059213955071226335315674 (-2902545251827641981655016042008180957694702392812163968032002993602180630715) 1289955069680908016695789583055548465594584045557670372186629011390001785905 ::
  Dbl2 10759135259324467382729687137176505705097226852096628242369585944704951194880 6089835210181088714674901934055631382559204147693615494581416837837511251827 (-9049016583806024406599414021661065306879466524610212103121453253907047563956) 38427500104197914745461478340177997125277015430796178589136795193754381173060 5986900009925666713310437644960668866832080025293336204940840832534461846702 (-3594299419187079002488707775638235403904473405287903026639509440825315057339) 1839955241761870270558923855850795305519277626169770128001047359695765024574 (-3982314697131879260234385268680769029181455871831136987939874952201914186017) ::
  Dbl2 4216725212567381828758482794883633524055814935228911573052075745809396066600 17966605149760000018184989309366008815373670563660967300339816333867825636609 8188734417123330506978948987132131228732273391676744901050674305388341246284 29730047251636360229895619097718405619104897746210655264855317833535470913946 6922459455775382579647610286421099993180105824710563559855215605269759341921 13935249662343058686697696579594266384854562493707326679567020100365620476070 4788731310535622982827370227225311578498863961581847037229394491540831090680 (-1781419325434968821198412484635665199105608025968424129724440524727980481391) ::
  Dbl2 894335477863644378433966356805017378460739069506415404361682456568709070391 8023177127662130343948734990526171257815160151807352738460572676801150973835 (-6620708257290600384869449565602666649397420411663982451252235661886766304006) 4974083097771492819227552223209881382236963195416180679769712286531002387524 655640746721065706943825436539480217104252276241629828624549091344030799800 2904369055437716138920053628932643418265523652070951128973017663634452766908 (-4014310448843171535355458624643474204608021078808315808990715778889001446359) (-435576198295603383413302163163443392161304240235919910498307441363559131431) ::
  Dbl2 9152003125237129625062269388846209727831117032863343989468536635815207419787 16292577925424371075696375026814067770271584541721837765599983997594627716235 (-26455788756558482744102939368836290112999436466778237868937476290054220133032) 42723052451103275725799529744782556517475964631339315477428149894235991963620 13624640859910522525910443741690445279401597675309046425531348026447688119017 8300754670692665934813400975165146324374593766015034931436811286584928499024 487154636087819730692459282239711190834152615614554120984818282130776211030 (-3297806044037020728982545235407200119151708726566466331478801087747966941360) ::
  Sub2 5294076002972645965232115923895159061502111944493218602127992952614938259865 175678413212762826241441286954594931735429813741576269868524704658139941079 (-1877913916535569799075763212625395458467830028747531442760580911801506483465) 3404457842036657619484211405448924729555883537852520784733565249561316188638 84982141058620986063738712829504663080997098045050707843865293402280705083 (-1279060086472319445974963730757736330282433819063525607882881236768943493111) (-2139416977999175968055803000498276131330058180596315168746745310056129336868) 999752979604582090467442859867568780369301982553950611641656993526067602741 ::
  Dbl2 5134324216277621022514344213792070663637684389014543946587468874453273537813 20662617966827791785071478172955850669438931710864628579362038372752113791178 (-72977668891119108569274282868361293737725353692806481253801533002014910623614) 9174884215631788453448716885642023955757343141907341716862857387087686107712 9693658866995415416658836819669002632111518784393850066691851132943584868516 18301263305178173971472599219903374079504752417058602171032603496875130633926 6580687428820529395167393447364601906758834385398816489735662151918849997325 7884687554324075803571880406780627963241169375017906084666002731694940811514 ::
  Dbl2 12130089914018750427481763232201671278350558889164234064980169274073566916292 10861700127860773493187170771562277708731049553403748300136534456204178475629 (-35896670679469221931571141716136051188629513091132089163003470753717201203352) 5111985456453450025909144527520555265666930856489917311397796744105787342397 12038736954949446352916316055591656920626160457448830732797921412042856084553 (-1332338636105335551188084144797789247142067748155462765071957741334624373139) 2093910517039558227664255385320291834603072320787617761866067156711586858511 2823928386224097177911524662109414692797425161769340219886439596177783363220 ::
  Dbl2 18309842588998848115887187807382490915698352075102523323061266277491349055182 11651779386740863360739134618305962831058856940923044084888792825729268649635 8144842656050256496351277317747799762107408632334545738713795843810963019500 1578718512815187791270557394030463079998772754968434483660410628919525925977 19493775512464380035954413351200448380494401458931327311748297915236157681146 (-9113859615167631555646319090399160140211225619560549435996129403142225959719) (-8081247719836603021956678320207442297119824457676898520090091134622611427038) (-9757703586904173552134160466595938100714309417165787923146285069794983998456) ::
  Dbl2 10970201426613669863738583181376666763940238278923625508301370534638150117166 9086301165423340888294069998324849180531032724729568973679523583413252222175 (-39466398774198417160010090642550020709847074752823233452123370466518638540714) (-37856417004217179476609357402994763455691593231018774814009186845147087442468) 9107953945066269113109479080897012890431051014397682105855129562206912594370 (-1726244116210685880253200484210821919624356112770249448258753662746344513715) 1523584195016928999914177862032795654929184083290820188561190857353096249918 1665650954241591191296589175624175587412237165227057377048183202145663773416 ::
  Add2 8331174293079832552331741179536760637747491048760023453363452602386473415094 21191705706232131582953785292098585215138924970512577778891255861292152903566 (-15288521594665717686981414784655858799625342215981006957864990243107810326471) (-5820623477521547706444495366134962726644607668852691115868571107812350082485) 16132112096893836728350450432226294050507420073140906422968799030528957937118 17346295354131029336070862821798163398489518842138939805866679067600527095169 6254596695512550664543322891004232897921351472103331091759190452233491500204 (-945311404590844821757556598640789361368724473223950029588051320142333570249) ::
  nil.

(** [6u+3] g + [6u^2] g *)
Definition gs : cst := Cst 0 656914083243620630111749422406493604542289178370238054412457308407252600651 13854851842889636469179514937776373300951608160212842050282150970104253263242 17433745387871711895879218671347759924853060938303632549758443212871773389751 12475491455043188130767810645555152189252433452605288819595795675017768735845.
Definition bn2_s (f : Z -> Z -> Z -> Z -> Z -> Z -> Z -> Z -> option cst) : option cst :=
  f 9800498250969516577025166573475069245411423266427989870661779975568454824956 14025246976349794056593250472158993689308632348414328062338563797795723437010 (-7756487401065780089383130500680278171108316834785941914728715614784868086351) 4114830237167657205840117711040578914577476337625316857383724874782301736411 12559656731329144354200852574334091269476361524017456745656094694427673370802 4598714815516581706166783846088713120525106263486442219852400987253918199572 11211697052242793735067070050411973448225406568908176991028045893975036566199 (-6557839290771060877688368271394109657262750418210903540512447931252894547717).
