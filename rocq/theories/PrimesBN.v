(** * Primality of the four moduli (generated certificates: the numbers below
    are hints; the kernel recomputes every product). *)
From Coq Require Import ZArith Znumtheory Lia List.
From Verif Require Import Pock.
Local Open Scope Z_scope.

Lemma prime_1637 : Znumtheory.prime 1637.
Proof. apply (tdiv_prime (k := 42)); [lia | vm_compute; reflexivity]. Qed.

Lemma prime_853 : Znumtheory.prime 853.
Proof. apply (tdiv_prime (k := 31)); [lia | vm_compute; reflexivity]. Qed.

Lemma prime_639533339 : Znumtheory.prime 639533339.
Proof.
  apply (pock (N := 639533339) (l :=
  Entry 1637 248876995
   296391531
   (96851492 :: 223506056 :: 103886036 :: 314681730 :: 332368330 :: 242225274 :: 572623278 :: 84591911 :: 469075630 :: 51423588 :: 184149217 :: 75359704 :: 33815864 :: 141891806 :: 11837596 :: nil) ::
  Entry 853 256057581
   303978671
   (102520823 :: 215146647 :: 68304208 :: 434170468 :: 251664882 :: 566658317 :: 4866138 :: 2704316 :: 84579483 :: 148478008 :: 52815057 :: 128561894 :: 212295515 :: 109679626 :: nil) :: nil));
  [lia | | vm_compute; reflexivity | vm_compute; reflexivity].
  split; [exact prime_1637 |]. split; [exact prime_853 |]. exact I.
Qed.

Lemma prime_65865678001877903 : Znumtheory.prime 65865678001877903.
Proof.
  apply (pock (N := 65865678001877903) (l :=
  Entry 639533339 8595199928015311
   39033286818209505
   (1121638219535948 :: 5612054531243013 :: 49272871693409161 :: 426470486169982 :: 5259093418759782 :: 3585931294155095 :: 29039037011862199 :: 35635434184421551 :: 63791688952762989 :: 40002140595916967 :: 57025191431651969 :: 4270546016108860 :: 51896123270387331 :: 5485567026732897 :: 9611470876657096 :: 5350194041969359 :: 28442793311971879 :: 406908343749735 :: 4684008398454788 :: 46458408286782710 :: 1765544575825524 :: 15757161600212 :: 2286816488902135 :: 55555497738486739 :: 40057151456145759 :: 18805961086870182 :: 26498279738793255 :: 22456438028403256 :: 3745239219771056 :: 17601064792557961 :: 62465572167997396 :: 778313152257439 :: 16595046700215247 :: 5742637791927834 :: 31494405804500891 :: 7125586537081813 :: 55804294176725281 :: 49359749193896012 :: 2978180442825847 :: 40033264313372528 :: 2203555839839122 :: nil) :: nil));
  [lia | | vm_compute; reflexivity | vm_compute; reflexivity].
  split; [exact prime_639533339 |]. exact I.
Qed.

Lemma prime_13818364434197438864469338081 : Znumtheory.prime 13818364434197438864469338081.
Proof.
  apply (pock (N := 13818364434197438864469338081) (l :=
  Entry 65865678001877903 7935281130018080704632618576
   12281824895882260584345986666
   (4556884203790953644048480649 :: 5017657867678860257462704564 :: 2626658154666458512022102589 :: 6235455413640637301026581811 :: 12148439916717187945993007246 :: 12292607985911379118920501901 :: 3227929667924232023739200777 :: 6282347664290678482172820614 :: 879999424871565427703033557 :: 2197877579159553238824627821 :: 5823353613936214452629922993 :: 12318834183271586178204503029 :: 218066780238875881708645688 :: 375489476416926927519801274 :: 7913059196821277262825356721 :: 9707709772458610131767890683 :: 1427181835548658164227207531 :: 5068570390649222222447822820 :: 6208243277799203197439006991 :: 7846986668837679889618568807 :: 9640372273245219505906826722 :: 4232418328815130299746654555 :: 1210080557208763680525159596 :: 2969750500085756279170655275 :: 1109055515733298309438705 :: 494339535377795531552937444 :: 1155513444986667017935628325 :: 7430160050756767463919612841 :: 3765259175111960399778577035 :: 5176402487340607091201894021 :: 776027583842131564554195909 :: 4383902044145152776301274455 :: 10660309049614580476033707195 :: 41053714139785103145534241 :: 6503711526842239666776851284 :: 5759109270696129881246703817 :: 7692654319156573966798222008 :: 4588823360639311893639651885 :: 712834170252007700279149200 :: 11277697636925491626123609344 :: 6894810689246460346796757791 :: 376660300561203939319250238 :: 5145553972584220841260386703 :: 6241283026006494625360125555 :: 3909398619257669835214187983 :: 9144376109008709814932628929 :: 4120599904576697068930787866 :: 7971741213603122672321489891 :: 4520553294387153840190844953 :: 255347119878347713289285475 :: 3766904424235236668690114342 :: 5080565997746519261641650059 :: 12049782734103079186712343744 :: 3762405420424563936962765370 :: 8162792658097975055380754810 :: 471428557447292700283853517 :: 637796668980676221542498 :: 5496380835655396344463637913 :: 2486550643226126051195222874 :: 4038791758188599709026623487 :: 2364435928482029727391501744 :: 6280386855539157330383867780 :: 3478086896138170026909664475 :: 6702650521794682898868994983 :: 688184901375131755302615449 :: 6561976397748665609295550381 :: 706351639730284556117162526 :: 3997114070369800377347964494 :: 676687891952362932159807334 :: 1078013469197015318761326081 :: 2823370130928126115010642214 :: 4207146032464250442699538742 :: 6742851248411215048459293869 :: 2394195495074076269275954810 :: 2670737281591122951914177504 :: 6163454577781994231476112614 :: 5472251716154324542910593800 :: 3765483389889942359474483577 :: 6401066542102789263873037327 :: nil) :: nil));
  [lia | | vm_compute; reflexivity | vm_compute; reflexivity].
  split; [exact prime_65865678001877903 |]. exact I.
Qed.

Lemma prime_31 : Znumtheory.prime 31.
Proof. apply (tdiv_prime (k := 7)); [lia | vm_compute; reflexivity]. Qed.

Lemma prime_5 : Znumtheory.prime 5.
Proof. apply (tdiv_prime (k := 4)); [lia | vm_compute; reflexivity]. Qed.

Lemma prime_3 : Znumtheory.prime 3.
Proof. apply (tdiv_prime (k := 3)); [lia | vm_compute; reflexivity]. Qed.

Lemma prime_93001 : Znumtheory.prime 93001.
Proof.
  apply (pock (N := 93001) (l :=
  Entry 31 52049
   79405
   (29129 :: 40447 :: 58691 :: 45035 :: 74065 :: 28520 :: 8746 :: 2045 :: nil) ::
  Entry 5 28198
   35420
   (8549 :: 40874 :: 4897 :: nil) ::
  Entry 3 22786
   85405
   (5582 :: 17203 :: nil) :: nil));
  [lia | | vm_compute; reflexivity | vm_compute; reflexivity].
  split; [exact prime_31 |]. split; [exact prime_5 |]. split; [exact prime_3 |]. exact I.
Qed.

Lemma prime_661 : Znumtheory.prime 661.
Proof. apply (tdiv_prime (k := 27)); [lia | vm_compute; reflexivity]. Qed.

Lemma prime_12048837557 : Znumtheory.prime 12048837557.
Proof.
  apply (pock (N := 12048837557) (l :=
  Entry 93001 4746995210
   10304344409
   (1870218883 :: 3465634398 :: 2010625881 :: 737881852 :: 1411553568 :: 7779489238 :: 3011350981 :: 4343901025 :: 6985631890 :: 8961066522 :: 2953073581 :: 11270979783 :: 4611961945 :: 3811507752 :: 5534154801 :: 2860231872 :: 2742597457 :: 4432669750 :: 5018995671 :: 49987386 :: 24083522 :: 167780394 :: 3317483033 :: 2136285297 :: nil) ::
  Entry 661 8877273464
   1826643224
   (6540546652 :: 9520553282 :: 1805985025 :: 11498100834 :: 11215358 :: 691427367 :: 7174013885 :: 12782900 :: 54342347 :: 4244740266 :: 346134391 :: 99354 :: 54894539 :: nil) :: nil));
  [lia | | vm_compute; reflexivity | vm_compute; reflexivity].
  split; [exact prime_93001 |]. split; [exact prime_661 |]. exact I.
Qed.

Lemma prime_5156902474397 : Znumtheory.prime 5156902474397.
Proof.
  apply (pock (N := 5156902474397) (l :=
  Entry 12048837557 4746712836098
   5089286551700
   (4369150446462 :: 4605743306237 :: 1018672198500 :: 2575462907225 :: 135601785514 :: 443732931357 :: 1171932332389 :: 365127773534 :: 3439159853927 :: 3080175724160 :: 1176144808748 :: 2421878289748 :: 3954785533653 :: 853522610811 :: 3025003284539 :: 1616150624214 :: 4635425388923 :: 4253963980711 :: 272807969526 :: 4586425455909 :: 601449376933 :: 2413620445116 :: 62832713746 :: 176276279244 :: 3623900179975 :: 216501551336 :: 1413214248302 :: 1707345295202 :: 3444018970921 :: 2310361631121 :: 779767962901 :: 928733794385 :: 888601500861 :: 1309698949379 :: 4661863137560 :: 2836412097932 :: 1098077606457 :: 856954590666 :: 3906228154820 :: 4069821359763 :: 1103373106199 :: 990972431638 :: 3122911189830 :: 4737180105883 :: 2085029806743 :: 444435663950 :: 2200830814060 :: 1406937929298 :: 4051014018134 :: 3008221664621 :: 3753924555033 :: nil) :: nil));
  [lia | | vm_compute; reflexivity | vm_compute; reflexivity].
  split; [exact prime_12048837557 |]. exact I.
Qed.

Lemma prime_1670836401704629 : Znumtheory.prime 1670836401704629.
Proof.
  apply (pock (N := 1670836401704629) (l :=
  Entry 5156902474397 11046204280772
   735766788910399
   (73028471780 :: 1654036018330008 :: 35438673154916 :: 10853422038609 :: 527306363254709 :: 406486203270633 :: 7180036666394 :: 42750618833187 :: 1283952977951 :: 1466012482274 :: 56532370343248 :: 12146621982035 :: 703987899885447 :: 698689778473497 :: 1988614695399 :: 357586067288026 :: 394077482055311 :: 8588792235391 :: 1373125202328496 :: 742317748643371 :: 8334130030852 :: 1336000120418039 :: 9902930375915 :: 1293986319017825 :: 3988192508960 :: 272037258986466 :: 9744670128330 :: 1113918697692395 :: 1059037886064036 :: 4732639056889 :: 20688346657414 :: 928470017180417 :: 10921362234358 :: 589503762811 :: 169900892267813 :: 8271939620721 :: 68683252083679 :: 9351334430174 :: 1045167912822373 :: 3857302049231 :: 192319203764044 :: 443302343429816 :: 1633043246272839 :: 1557210257421042 :: 5940702904004 :: 148462955437748 :: 409321499632189 :: 447872900467765 :: 10188888484609 :: 49527963361216 :: 68041948065140 :: 2604228954898 :: 1281812676413979 :: 1354811767048762 :: 1661247520266744 :: 3689140552335 :: 205408197741881 :: 8292423610938 :: 541436199049513 :: 1646308411716 :: 1669451143454768 :: 8981672714641 :: 4130113614431 :: nil) :: nil));
  [lia | | vm_compute; reflexivity | vm_compute; reflexivity].
  split; [exact prime_5156902474397 |]. exact I.
Qed.

Lemma bn_r_prime : Znumtheory.prime 21888242871839275222246405745257275088548364400416034343698204186575808495617.
Proof.
  apply (pock (N := 21888242871839275222246405745257275088548364400416034343698204186575808495617) (l :=
  Entry 13818364434197438864469338081 18810536960267738281623319138564098156538132287104634306360290224932305588168
   18830771696733986827343121108258373716716634563029220880262390084180817631389
   (16165587288362616707920763639162090134193059927275503713066419440776747514958 :: 3771395013950787002268134367743755588826109318081692324372043765197340430082 :: 15519811117607095879998092674667399375640143197388920738719532985862578126608 :: 911341215618652005137420345027206622979839573017459824326505336229837275880 :: 3216560399354472255912688325387478303424380436284573302904162918481323257956 :: 2426842926767541311626789636639200531515174708218646150036372641114102423189 :: 12153940865779239510031226977251839677690878650351456811375368740009898863110 :: 15789232719067613696551283370135861429302168974356987293062113843438204733063 :: 8484019797316921114000445929253229626309111235607606888771757480740919470823 :: 582378630146065902894608831416026079250985044495071087512893244922072084841 :: 21770960606586310882524703146249678386185646007908940985950994434108090694298 :: 15541532629983139364520358542681159857345098545938235434430744919055504253785 :: 3680106249697180029076657033249580364464634904213392239054211851518805910644 :: 7113014244201506168504204569478467019710498849538043398615622540046940827769 :: 15547822603683422451051869491161387902086375451316154145199059268047079546375 :: 13300886912984480952761928661264914736157994234782855583182942458411965080903 :: 14975329670102781472015968848271696765339112657517628025876478478584554484182 :: 6217026091781225891109006903994424820551570776715448430557966986915194196366 :: 21447369400191579579991368237037903734061533038263226048078092457283566232694 :: 6940099303696332963636943761681770646062289649791083469354465070920694381209 :: 8256535628803336664417254433324988240522602832708060024891683897762001988462 :: 2031847347851771920487702869889095631793837876092946143172544216571752371127 :: 16357097262839765889303433318050677465945563063911755349047410329040147195258 :: 11762630284496405185508292194685564354881853556668286914760706256663766070298 :: 296384847170753674941240559321564754865381022830422149383608925688325747738 :: 6667414825177090833808853446819389043799720513958804015240941996717063336377 :: 8628914313531304047534734275065139648607415286848936412766034625815795393669 :: 3904075724676737642219686105299520169828401213899959479170237814808089629553 :: 8081574667471349621926412993758431402780796641124328093204937921154345156027 :: 11646412378807362054253403256438198174365215823680990224085140686966649342621 :: 16641929106344635685984984078360757688310234858492233260867896983389257761519 :: 4942611565843206230977617443761563966368812115360605552649308688557258019623 :: 159011103523412245436607713173189704703000955583029507066152576612051946079 :: 17656255607278982402466520253316257351360588396545516456310675226773002496839 :: 7996633481970165216751668100432495815310743233650628265404197083899690361164 :: 13917853514345097954212840714337268562077314311171321343575017109163872221297 :: 5888550724099541576883547767475487789513303685080660720472950489395461768094 :: 3608644921798307121767745166259491959964940598456169689437802006032601044274 :: 8331794354828773150025246640423761777533608604812926713687542492227752830282 :: 17922219340621389611429480212215078534730090450171855943518715687895901667954 :: 1252344895627958267363493706156095119909780195743128733412896367489175899115 :: 13865820855922064058356895157517978689816666554941036873654389120032443565 :: 761915495104638361879212621355096783759787922601730437354472840174162603345 :: 17247028811022200693049494250247081033863702869119007202405151405708757179614 :: 11219861391826587861077850229730342453758541559825899419718489874857590219806 :: 6782717654364702449211159429841820541495303896607658331771654756084199003999 :: 2783698037632911834472311364612918678432338371099115578114311032884418699597 :: 11153043000735863555140672373884633812489928587082465194454718112924027279864 :: 2829293641071140280370524532298254256667029220277697137143992924284249520684 :: 10950722848328347169859961869485672276423657635680853552808128251154452703651 :: 9330795494043962216497208833137032782738688299322656286342707702033511664274 :: 2929043526531709798649416089966502553188731459046322744781822967133374944228 :: 1238379887654668451567617143593623636927584392306041531921921130960159198396 :: 7261642288391197596152455675007240970957607803723803760746218463530932349410 :: 9161434269660672399031902016002724177848930836628092323816924321041857221204 :: 12830697363262136353817184232089687902146710326771542286018517374749058858176 :: 21887923479055428325165119310323208245807268505016009575706837542570065452798 :: 1879185634143104249763634532372404838294428499272825193813080079633312474819 :: 16754457409347662792587752302818273884202824045428752394230044088275573726265 :: 11642599777823248190274714291796517986528536312899535635074036100474633687445 :: 6096682584705130830368985332043033808394824174104281898430550164656090274937 :: 1166955920744280506288609444211575475255546565829550055758509173435723670462 :: 8631652757722592570991214273479754470088418199143808204072434301043166881722 :: 410418457194825452280761692980795497732548183225762155842326499520578499513 :: 61355648409021102071083692638449745128461023957535654751450209891654285762 :: 524911285034674982657748571000430660098810107963838005110002155086015494129 :: 11070424309786411015739733790173224298728408343921146789174980981515355445204 :: 11621685009253443644971230658357375424064495795910483681147378491322911061153 :: 18290364652995598267184074214688138541314707880616468756164614393495454261959 :: 3734683364198543138282117290146260604832430178586425496982427695251436593519 :: 11555138774731153286161219469588189932515424725567212638293444793669852192819 :: 5461755877684689825601811728851465899020332063550965770516836914077906977722 :: 11505742291410259869167850136400207352309151629235686211718190071152185158199 :: 12385528211069385124017167275177156398893732455794125582117560967301842335 :: 20474040632333995284581804604997899166529881873729586611353604277090575348961 :: 15238534964170777061808643166221350131054404996372756916798325319718171757951 :: 3019720831225005547094232470628248828234061490518361149546099927808837560013 :: 18610470446447138580589612050744221915871880903869242542345963370792951581169 :: 7243603089514082583840080736260828207273696189514419833931723719818498891724 :: 15820547111000921634681616064056013888094066478756192614549600691753798797301 :: 5581220668978239862858952676201552271443220671179692548489085738292038165585 :: 3935949421747015593148536016949531370582101947425335419603828299171793679220 :: 6569446108463759039331443088601521166249448111184382463771228040480899556349 :: 12656045235416216708841520912472818952890881739207300309235566691318999361741 :: 269168110320117786234587425765623136667875639165864516494194438961322022663 :: 2952095081644961293485023851521963068924975086041687275365328802904251792577 :: 15931850204084047155344343519310809226446584634842888077779395214063563482963 :: 13784410577245235549159378572637687035068958765476082158219475590596454412707 :: 14916306110633922502307248417966736072765872174175629081371304040891786529068 :: 7325645275053417323134842811890177309846708341490866249922260266639486420311 :: 2531821701773309252851457485969339493673773135481970766027095384789234319652 :: 1317488520051628841112233621611967593070996214153997133751244271251000657264 :: 5474921289983950448834336394183595870957566037436124138343799133193731348430 :: 16188474696434765338971484987368579472880186979335508564218022207255658696696 :: 13554430964945722527787893210104601763525937814436829012505358887084181981579 :: 20710356730396599206496257084562054730393422130554858629091839835385338594914 :: 8655761948127716689790027140138236497932974430773977599066825646767708690594 :: 61389051300458513013694486103888845476876140601059068147264198915079617587 :: 15669788657105111316313653966204204813604382748598666950604291464529515317093 :: 740759550539710721782323044809234283053201906698356930495936538552512053301 :: 11914690423927625128654993935689581182402576383376946177922702755702709485598 :: 19667778789477614948389879650687839790769064437748288135991768227163632969798 :: 5114572790229371577651991347645218832896418562480838851512501039536811240387 :: 84802535685680121793939041974074006322247128113790685347690616557374614660 :: 15637014361855230429633551544874059543822966803045813727210168968950522503675 :: 21629932382043948849679912622636575656141409232911495145122697903810895464810 :: 1716269025989581274533871752924916579857310419320606888659265758168864964528 :: 18236266330470042761915414172652783329383925645310043955212348205303402910634 :: 18594298349173563291024338133736443978120459572249153369470657640866191067997 :: 25575435354571661081566239045145436101040718725026000341992420830491836011 :: 14707559699738262923285110895770166514566680483213106287543280675298318579403 :: 10289057003028625429852172612806119411159418586173208659105699148284696372279 :: 1614159068388552169931835828601321855843163065590648941101127513137590836308 :: 17528019806502624102114683286300760130997545645739216606465126175672409688320 :: 11735746102388818172859498694968645287729795183389184574613248985201366889800 :: 57513011892752776962328868284857583012770508564194364207145979607338296 :: 13477470057957058177421965011213507988751787845236011456181322912393103369405 :: 16007549311442685490580757715774910965444354983283477742306090332490172985004 :: 9391527842076055093935820154573845197121055110231824512060247572633298342374 :: 7360401978227345062479407227191430739038117809217953605470938385213643392913 :: 4352819183099198957555369587581414792136223782067670113302348946629336429537 :: 13073122206411076468252622847766218861604958836508904199667315634396877448612 :: 642554541735277395697236792577142911445915097991100602623205107955250463968 :: 2870733524408428056177735199473157241037482568717490934753628613294960145905 :: 4736110802233047067357934937341934211238535857768661318549689569749260912562 :: 5983272170578872141141474219282647242548194453356412052513881177069284667111 :: 144072615256196675356280341032133157352579184578093936141344206662226748644 :: 14089055085116565984460202745967130468690255184073583032947906372017706137744 :: 9269535134210294826282127096542739066348060566751072589197375400620171073564 :: 7552217121585559463992630574679884701160798220029344838268624283758611723252 :: 10245254565077664903228153999007247418994447751291042262059173913129255300177 :: 5352196588145240248669124543433936453901743666413166800959812748503013027654 :: 14364149507596140210945774173263882572808159230806300592850812744353875397549 :: 3035375744673626321207023792307746919197098551416039638808228603612837902146 :: 8001348093749302557284265149018403039013618504238086914216423782174627871 :: 10405949048456815536825402638649134808531759039770239439439286703664692904139 :: 3722493127069020511451937664586127890516367301343543155603530534662067981773 :: 1593034933270393094089505262047765471362562134506684932607242725009065065248 :: 1983838725571585187814529848561581238862665888399718445442553752470577648485 :: 131489516100919203375034960463920269589835809010794528461264380810026069584 :: 13231368708663678652623418735523578136013185743167822885014883102895407703403 :: 31020717452500581225536528621486575053039252315858113139694046186227422639 :: nil) ::
  Entry 1670836401704629 15379204794002667769298530452756604474647348591674452342013272253614090326003
   86052601511993865195709936845511121156384965108811623497653747272590813794
   (10805798413365275378017505650065565143296730370520707959145575708765702171753 :: 17124952445869154576180569387575849800433826018047180084067040512231923604563 :: 5729232256253907878614263613189221801704529846405706669000658857391761912226 :: 829357515460117357822043102411395889478670921099156053831727587514975690639 :: 8032932031410770468442951649292263761215314121191376069698321980105972636070 :: 8637864025544700103571084216947188234321521914732832020574752954694821465040 :: 2649860800491660359235687113699085170861412517876403578891971760442785766500 :: 3005737646074193009895785203796946789745002769701502477186960390539068215159 :: 15211093500040098840844961090770649198131804216481802834229828395605793711231 :: 21064261529441704253001895323479070319410641552636744190691035935705476850998 :: 476210359700080321381209117630711035493605916195657980497879153898029762521 :: 5687055819579771966702078739167265725032498488364790039222638872857038108849 :: 119045747054469753275274229272982563225065791991535417613189361628312022445 :: 9938425495438628749595640329905347661570795216152632926769675614225410444485 :: 10495494638356343321030999784577599681271506386475518258735735622321236590818 :: 13182168406399019505094052788926603856094536222953772127046776251157605926249 :: 4214553137564288144597800223335217037632772821300195901807657426107293406926 :: 3204185915089968118806422136832366649786981678789975419980256979652492569183 :: 10897777664285089585062448689335361617383122159413972740952085609112763965686 :: 6634563715025959877331242110325642018295362135340792263197602291917936810509 :: 8804007685864471499107286431035345677305930973002807543347575211559877051643 :: 834749663419126382553410306754695859825125423070500102134864610659491464172 :: 1254087836729561043397377000793309081463465959776816080212383669879036171267 :: 1403534315477548943220993819458103323295188900315258754728977850923874359309 :: 7718623356503414748843037043166206240921596839513324309864537687133323235876 :: 9864560723774680089160227637801250647535035853300595663527449339754001855360 :: 20271938581330280787662034605179198319560347755218142433982546572047810794877 :: 5637142751452504191757731685328349493607508831169334046946220578024236198277 :: 5063570915498739368392083987777649764136942494558928146015139275757754369252 :: 5942072052535391477276419991034562924454487699696777165499201968187493399364 :: 13616830814912426729172995975677249327796081799812966999247120194409925068926 :: 425976127253529069951902364648947430261952569838640585162961364033279835443 :: 14253941353542754719843673291201024087183521097335226754632975836651674181887 :: 4767717585803718646758120436325713131934532268541412259662762076340264134862 :: 10647948230067351596172038344678180519571354510980185544829017052166580817914 :: 9128746252592732672506676959344057212314706674807722973355259896495229202466 :: 13991699439068743677081939133119807328308418200090469338910752961491966832885 :: 5025160197701976941028649598251450071492486527648762210130225713279664129184 :: 9869621486030811969722447533839963210953588014104655046531232973305906343212 :: 1519116337128706490766234801921768116003547558096769723863277979108705742141 :: 2205572338014230573044514664843157161502621317691268801270682534915915303373 :: 446366943642297016693913901638458202362512789802925549074048883998221438250 :: 4483024135392414301555265991667575231337026940201322867488097456852827922735 :: 1864497960018929466492065608373572176208043066031280184351666192531460711720 :: 399075139151681062697218772251002267691472023159277032225191964206300058638 :: 2900552734561635838026589182443406536687663185810063237187119950147632956427 :: 6795786224484830880515753499348545343251551847320495651509704269429202075581 :: 2949562829996585895150766467891417927342586572692099932275294169787545514602 :: 4504978595889609135072459097935757296537882889079558602238006442868694936174 :: 11539684392646069476709417904375943388393513449629232864741674505914621918809 :: 268605575548801331334441873090596178732966611669659091930374394138339877381 :: 3473031888279821532822853352509057144502152372305475768321802882749978957938 :: 1126463735827185123492148273146815713983537880652386030131576910136145334071 :: 12604879861993651234866609052648115901613798329174948011865008565000034749017 :: 7772466871286988286069298197659891564567500807512768062207816039547795289 :: 10354071471499660453710462678734786581762678131829843656409549802134923417468 :: 75317068428815202318232046140340509505375644594619631217021496697007489905 :: 8486550934411176537280401901096065915931197700783677462610054915917302271040 :: 8599860712369127704397775466054916406485339430222941970044815872984694765312 :: 1099571340076687813249946584777459614825109400372590027648011422760075803395 :: 194111696455731623303175837882917482859686674788712764043246328997675 :: 8006362256283533004397343222258210517716560106651242556621808860799398134618 :: 6875643882737930218858090517606648869469587506550330372356339561145896647848 :: 2293382695034501687260456980064488197067679855361222306764520772598301615618 :: 10132778534216581677253485921475658611471923312856579564849974424168031822817 :: 12566325667021580945337140454227320278050587313808525368253550996156778619725 :: 9558512527310020172167756658154952865401629969640665206136660150361538951241 :: 15043020265357442218134920589986088238946877209168153804771619733346662521369 :: 3809351313155063164848353463100549123982577668592597829472755858446009241277 :: 10884145168543903464528229485364800520768569040952440092556095006785256416314 :: 12147808080443528705107039532104086826188920402429025186953212972585453871634 :: 18945312129798372829579426703252127838377966719463943836111840678584336746808 :: 13208913557615080315787677667616148981316594200539568790616533203351391886556 :: 6797382997044077885078360276626995480989623271175848669925032464423164303571 :: 2638739867957803796263238213150259647480224762588904819857285535967451045128 :: 13138962270867260789887555575143803498517717035720998797639114150238357285 :: 3668823233837642787747167175181087093717960684014173377691280550673642284563 :: 8664953810934409836076303806132780824714661895750380469516674883675063564548 :: 14414488982296248702834013372959711046249972403456451500347438984697184717688 :: 17167759536697542263625565119223403536927953528804086138745597665656777565100 :: 13689548589120922422763427720072467204490252643561387732173879022534395178347 :: nil) :: nil));
  [lia | | vm_compute; reflexivity | vm_compute; reflexivity].
  split; [exact prime_13818364434197438864469338081 |]. split; [exact prime_1670836401704629 |]. exact I.
Qed.

Lemma prime_3557 : Znumtheory.prime 3557.
Proof. apply (tdiv_prime (k := 61)); [lia | vm_compute; reflexivity]. Qed.

Lemma prime_911 : Znumtheory.prime 911.
Proof. apply (tdiv_prime (k := 32)); [lia | vm_compute; reflexivity]. Qed.

Lemma prime_1263766531 : Znumtheory.prime 1263766531.
Proof.
  apply (pock (N := 1263766531) (l :=
  Entry 3557 142661317
   1084735757
   (16104439 :: 40576059 :: 338083406 :: 254418781 :: 93188586 :: 496865855 :: 90578244 :: 1060022906 :: 6799446 :: 128486302 :: 11483864 :: 1242498785 :: 967774210 :: 903230387 :: 56500920 :: 92247148 :: 1486780 :: 70000696 :: nil) ::
  Entry 911 663035740
   979652892
   (347862031 :: 175161462 :: 41481134 :: 642197020 :: 227508735 :: 282562026 :: 1207321064 :: 960703987 :: 565851213 :: 453497511 :: 620845475 :: 253688238 :: 65827188 :: 27433904 :: 18903829 :: nil) :: nil));
  [lia | | vm_compute; reflexivity | vm_compute; reflexivity].
  split; [exact prime_3557 |]. split; [exact prime_911 |]. exact I.
Qed.

Lemma prime_35385462869 : Znumtheory.prime 35385462869.
Proof.
  apply (pock (N := 35385462869) (l :=
  Entry 1263766531 268435456
   30792025501
   (2036361 :: 8639407313 :: 9115939780 :: 212669273 :: 30133052545 :: 23423611479 :: 199202723 :: 15348816193 :: 268210955 :: 11950083396 :: 21992220941 :: 198032136 :: 1713687460 :: 20103875589 :: 109934353 :: 1550493047 :: 16379087074 :: 8350256991 :: 26804015 :: 9211475 :: 97645190 :: 4681788107 :: 12326923 :: 12419611568 :: 2146456374 :: 1330138798 :: 25731522893 :: 38893319 :: 923866081 :: 22127314 :: 8345857354 :: 11734998422 :: 6932029925 :: 6343911114 :: 7470102245 :: 12100283940 :: 4103613096 :: 32001932832 :: 11140833924 :: 197042300 :: 17484923477 :: 132174595 :: nil) :: nil));
  [lia | | vm_compute; reflexivity | vm_compute; reflexivity].
  split; [exact prime_1263766531 |]. exact I.
Qed.

Lemma prime_2480874801745591 : Znumtheory.prime 2480874801745591.
Proof.
  apply (pock (N := 2480874801745591) (l :=
  Entry 35385462869 1241451147209469
   60395260069513
   (621232861014706 :: 1075906577909810 :: 1870390321689641 :: 48208584167697 :: 65641838402524 :: 2390698760709875 :: 157874694998027 :: 1562302929398960 :: 1178403356069424 :: 1114245255142746 :: 48573106783375 :: 331938757224863 :: 1226805456855436 :: 1706838145914348 :: 2167777304624643 :: 617579125006967 :: 28306323640371 :: 222640235082119 :: 4102978077041 :: 1037524068168237 :: 751166739999942 :: 142409781772823 :: 1105896470287056 :: 919068957770264 :: 43361887169691 :: 408769570555928 :: 703166652495078 :: 1122973915689145 :: 242730993130998 :: 123123028934267 :: 160808515544361 :: 98352039886245 :: 689675959196148 :: 221328718085025 :: 116475545923975 :: 1961914031446933 :: 497005923833550 :: 61146061769367 :: 302099633647428 :: 740838977379995 :: 439839399093100 :: 533493880257184 :: 319284492886333 :: 192691133245412 :: 158001472205462 :: 274548083745688 :: 3172991321215 :: 34603329765254 :: 401908083226763 :: nil) :: nil));
  [lia | | vm_compute; reflexivity | vm_compute; reflexivity].
  split; [exact prime_35385462869 |]. exact I.
Qed.

Lemma prime_13327 : Znumtheory.prime 13327.
Proof. apply (tdiv_prime (k := 117)); [lia | vm_compute; reflexivity]. Qed.

Lemma prime_173171039 : Znumtheory.prime 173171039.
Proof.
  apply (pock (N := 173171039) (l :=
  Entry 13327 16359965
   35859620
   (1545572 :: 13765822 :: 154886597 :: 5735388 :: 6402213 :: 10607719 :: 104667247 :: 32965544 :: 13280087 :: 147029519 :: 172733204 :: 1699111 :: 1489134 :: 13260549 :: 2659398 :: 48220196 :: 5499980 :: 32228178 :: 10743746 :: nil) :: nil));
  [lia | | vm_compute; reflexivity | vm_compute; reflexivity].
  split; [exact prime_13327 |]. exact I.
Qed.

Lemma prime_13427688667394608761327070753331941386769 : Znumtheory.prime 13427688667394608761327070753331941386769.
Proof.
  apply (pock (N := 13427688667394608761327070753331941386769) (l :=
  Entry 2480874801745591 11079643483354044030555362120445414701546
   6785926852418085198570490017495330175623
   (9142191389670395144015446400242595837569 :: 148536654181491706743341001206609668129 :: 2272805594650753690836647412032428085764 :: 49346645564942485667245810358841552058 :: 8352577592796259916095285138184621028952 :: 74618904335511985787391341351440486109 :: 8762192531740775611800554031572208732895 :: 1430592663249443116131840150909779041470 :: 447445464436311838790734409143668883039 :: 10690497364946128661126474023237161942955 :: 4178097188562246003271391862560952059099 :: 146273567018397684170891818474941359624 :: 12566066542665552336168088976098959049063 :: 199350949837499622686642920378439087844 :: 6034454135264078967134728746046347023129 :: 8560001988985252695322513308588147775883 :: 2460779469180654481483620367520624397710 :: 3167133804850208390926813001607825098580 :: 8199725332105965828512475733899721848471 :: 8906341727177637941519696001701963488016 :: 13234318517632224931662339278572247464464 :: 9828018598011723975116941940380657739504 :: 10868983752310668805327020564980223943348 :: 74430029777535818168432020188594317295 :: 312381649473727935665717810022763376799 :: 6310217559820925235455515622792584885051 :: 60075639057781548792140103862468091202 :: 223485440946783550451813834273374451739 :: 8659978790606626245901939910388759275469 :: 8415201862627063351677150519903632054889 :: 23908630041444252242663206814765718469 :: 3742103488036588350223488274951019703043 :: 3103611311970783916072765290745346026899 :: 6037774171043637881325769286980203031154 :: 7525562152465616432028636092781053422916 :: 111460045463603242485429048173347536061 :: 10485101370321614654422342382944887996109 :: 538252128777985212283990615101456799543 :: 6824280599932195045091861246518336917 :: 2330266726718601048591235828767330687303 :: 30911258239692733546481073260684445526 :: 463760152046918744575075203055699538459 :: 6879103009434915800982178121849019634629 :: 2862444082589124843589159407098499825328 :: 4521231478884798367967936337626865906 :: 9014308144062262551101375364046614505870 :: 9455039464275073725841962893781610803518 :: 1575487849645940716738018708328286109901 :: 7518139272315568766823594855238995569238 :: 4933310532280242895610090537870021172475 :: 13025599586602640746509307793827475811810 :: 6797136716768409205984126574793692357917 :: 100560208078511560475349251405620127740 :: 1241610031201243645864466880036870530728 :: 5768584087167342287189575678397932849922 :: 951555771496187578890182670359029325001 :: 1538253242319832530707443713185460973127 :: 9565587413689039589865888697899235009642 :: 4153864296094511350752490870540040083519 :: 5617687876377321779814684977255554510154 :: 1237137378365523879433370984605979518347 :: 7836561351841278260393820651193964797628 :: 11408694341575047413209158883062664767694 :: 1421040863185690293382569182287096022512 :: 2564481811146018808607205013814401361284 :: 10185782245048179605045779215853157858467 :: 11948534664827230729410898642135358383545 :: 9847173447877849505042602587190029617554 :: 10421659457233801247316683913951683021410 :: 11043427814222293621885947309073675724766 :: 5246883860805363142767985956486525156787 :: 6684135105184322103629677404140193389470 :: 169918791444928492585075744842636658605 :: 3383188900852732943229235942689021967646 :: 183205400277693637252080876200267305694 :: 13363971160600629365800061596085530856629 :: 7702641817969804814882625026579070078621 :: nil) ::
  Entry 173171039 9785822746442342713677375315050249518427
   8400704698881656509131354358865537047819
   (7131705924737473037298335693433143117105 :: 12416368552888864116314404055007683639081 :: 563656190006525416364952969323100447456 :: 176650775121539495295811644793945808469 :: 1860169130683244761997147653265769790001 :: 10850247421310806488573314954330514507641 :: 7348975318000040607939526775931763312289 :: 1414130049171820688095383165645072415950 :: 530567519178836657571242045666575087718 :: 4260202907349559083639056232334052474543 :: 5343883860291443345762903029634906658921 :: 7390359442376032910221122023643270863976 :: 7172999573017631405220276544155358018419 :: 7146920983169399056045934361367076301715 :: 27245381092973242895766794656898699751 :: 21591098164546503589913484663600504702 :: 10657927117896583478959903460465561696093 :: 3845474203799285326230454400812139166820 :: 4187476826063281595312240550672203639754 :: 6647079129263528680835057531106492674662 :: 118956474462379200942000486783961267727 :: 3263401476593300556128415118272686326697 :: 574713084693598317367545119964669402169 :: 2156935869918382999545038993033525309265 :: 473875724705875078916604256619651942295 :: 6281488864563160086383939477416307689456 :: 3115840337686379067044512311284315871383 :: 5457461741992919586499433852934947690595 :: 3270317494508432483858690985184624732478 :: 423681589097697066275828215964791216901 :: 7669412351770612933541130611195005101940 :: 3321872518323799093285697539479377051857 :: 8521328251098851120135131109753411957558 :: 5943569210560626610364388396826791756839 :: 3636870460086452090007264013152788191099 :: 4505134456242692535440834074835409761409 :: 860734116334034985850174663140935409863 :: 76786807016822886138023365820136898501 :: 9177112394036473162072747527389889174929 :: 429920415067734424220460684267169557663 :: nil) :: nil));
  [lia | | vm_compute; reflexivity | vm_compute; reflexivity].
  split; [exact prime_2480874801745591 |]. split; [exact prime_173171039 |]. exact I.
Qed.

Lemma bn_P_prime : Znumtheory.prime 21888242871839275222246405745257275088696311157297823662689037894645226208583.
Proof.
  apply (pock (N := 21888242871839275222246405745257275088696311157297823662689037894645226208583) (l :=
  Entry 13427688667394608761327070753331941386769 20520420087326380218354900027015874311863624918437260220194913954166250002289
   7760040696430108728351579495285625070970037227808537281002514205477518194167
   (19238074203850603232075934733970503619080248404937198273859482994282858037284 :: 62364246092568038487843797424838160046389053177325094074683747031571159708 :: 6672240505728306605573235773690991160564166835151540889568402418069339256107 :: 1620682096871819815405055300783697389587096132150360566998608716917243440679 :: 172673695976629647393611546709552966557130308767821777230812719950591596253 :: 6193728292163846686812800520056982624145203360743723426857896631072321168465 :: 349937087453244938650308336451998425223665288634199571804742323686370281678 :: 7464155399221504890751328277347198580542443196201023125577143987089850818388 :: 19854764971115567279117329503899493399406501039129702697745576689544002590458 :: 5663891875708295668181057207827350864117154958506018584890447652899248371 :: 19965117554832470942377181727841006688349343770633454679777441340208259975795 :: 279837445587586118661721248579251909492847035076450117132476337806636222088 :: 17986484502493965288937086377846749084862141476873496206633107193652807344359 :: 687608210074462491014855789301031763240037691955976282778192760406524298936 :: 4123943877081162673224691745315925051670549548939246087960999641294192346018 :: 5897967110490847702481916213442917428185585319778630810893887287616108168628 :: 6108959828353281685381564891707885821262293835797632271754686220033393691784 :: 12892141837262942356407921950708442964700299733257772819870889751282751014321 :: 6239438180570536747078891855689180623657337318819025567727433179191053618605 :: 9962555380739875074534934224330088226105587402163586868248156122687682612206 :: 6702178885118583806937770743407644043415873567183889947765163420881781550853 :: 3458227012184922284839528414708959601758887928437408207787552373576743595516 :: 8699285425420821982834053381504210660900895074042192060081083882090107941930 :: 19315116356108265395111629224126942476013670638973219919201155389444419246110 :: 15571906855963755085423840116431251471986654786130596036371447950086047280038 :: 21194005487510731422657742217138350790254362867380875197387139333402698328017 :: 9144506496054763573867296889749153565710618951847533894936078956727863421217 :: 2180824995227846006036871873198812429684194158939589129640818385817678241637 :: 4938949011945588468428300545805630932285149671954375090282214673115073357175 :: 15280706256013004918913276455819825321429940390872571712418529819865842360938 :: 7556482818583578235286014967001956778792188161380629686475687497912593279386 :: 18790229951942331125431476357133814641550061072947714122585734347101003582088 :: 4926104180925075392735345686188998595640290508588358927729261845262335609151 :: 1469990874840138926947989365116606997307946882740236001837698184206611057664 :: 9568166621942434385609363193396710752876752596361220734232758990171812299436 :: 20924644415637126657506760525399810180320619555548884225654586933325434554709 :: 8987701339351765350350096006393673971466405543969388229482586698500360100080 :: 4958422739241743980627100800745221126273732440669513901839709751192645120774 :: 15102125094109034397389531952369932062205854058431131586119289732206317684689 :: 450066030900351227892106830109971744467914419011059414580099453239902766627 :: 963413879485533681182588712563871455351703194006315502318617029392071353383 :: 4892827911436993069150673133420649373922118871360394634363504552822454710564 :: 19499271224132938553250126003188317863309648437382547047151077544790567991380 :: 5129195836748225869769082037913243307568850468412546617561568613502978349495 :: 16032858394347992172847972846626207653612161560000781415336737773026004153987 :: 907860766308439626582391642477264449123918873367780896749832541878605193206 :: 6723870951407384282487541732196194806198985071103615595150091138730434053609 :: 7404112142926461850110519060004694102588577797240888114441798879800628299362 :: 9137188512645844943217837957960918890213554409874081787930850223840070902158 :: 11482734788550941509660666627336260106068880517722434841841362909354419157048 :: 2321071780105949499890967879767790742486383036561060660251528666414901835963 :: 12662643479188283631359183689376182912141768940011044409225083520376807523828 :: 6613717529882038894412730327731415040616910173672918870282798166615644668267 :: 1829365289923200008393811304950479233114588640613105560196853665248654795870 :: 12354120776248382891055493941639267625312916870295669747538152181767137814836 :: 9767993500666202015141802842052170594987904431806262095675085544658258904598 :: 4700205758184492240987341554931100619864109980272996424361905717364446603526 :: 4415738324402897667567198305437252281908639273062632948811110424498344473032 :: 851701382177683740956011396666044351898481962507251339152800067540271984297 :: 10067156740665155007684768432670727184752317421216746194054381285232807639648 :: 18572115173250787427024658120035435782165731058139924106095178496769594173278 :: 9392393087026615753691017082759978613235945007963194130504501553843809908119 :: 17415469201697549817141237992086921883081925338346866568329622204441673640810 :: 19064661624599511254826792748089232416028843853139935312167439641320036007272 :: 7301415809677176279163021061459419448440617767102737028794028159269230331666 :: 5444691450178891479644867054834576829764523345372610353879728445299734467263 :: 40509366634872029770443794777074180924923682225529808705602215545448844596 :: 18858178837886826085379285979636893057061120301528351183767177068236892831696 :: 955171540853169302162730554104992885723520114362382528040954753135176740270 :: 4365556191721658214282253983072585607385799004976928644246979644860316132722 :: 7788071482708632741787624447571197023910315396237013001726800323698818564603 :: 21561373594126230540149537856979812758925909584033190926355999117114872046405 :: 19254198186371387250483390240733781795283427753976275108715386113840314176306 :: 6283494016837552361838597309692007265318914215434323170786912529641310596798 :: 15395906436259847249666911523846107585828288165495049268466475548699459003434 :: 1850526430632738935288379929160135609874316287158722562263665130473600475117 :: 11554792879921464037571689325855731782631569866938519325911827651190745523501 :: 677290036752732995294574402146561265706280722812869556942536901065701776001 :: 12783002693209350560933676849164065705166384565282207595337440753693032577964 :: 76171978195010040657450954022198031595497735187743186442926197317276166015 :: 20302976931999738977773237868125410999569228460172420719455684475101312380136 :: 32983854089765381702750112081150083665697814665664491387319612268850459384 :: 3182581322879502704319461452935494540426496531127194630299055963510714370673 :: 2433861866104323029454944885587996571420341828786385559948572827279626042861 :: 1592677727509604847314900013954799997281953773149953433056867908160791902377 :: 16709189603306564056393206128225529765630063901596020018046100875316653125876 :: 4384421002997996663833707556679490580748641463215037186124302118046052694596 :: 21505987595168315945517948898248131345487949195524684993633379211208953633905 :: 2678765064663627614501543220170773684886367454307520077391103778866803117184 :: 10682616688371192115214523616028420625612141415223203328722661353644718784107 :: 2386350723827135845020757122342868980068125409588939410835479923344438874396 :: 18495164869162363597908255687173546117068407246763522236393366997830568061825 :: 1295747388819023334798808239414364408735133612246713365803921160540456062505 :: 745034740852984266489079209528652416605513233664805342817726045022700935021 :: 12240347738538345450654531373809669101196247704561648173666111913396571214897 :: 5322921740442825163500216020777836637336675798717771679715164968731312993566 :: 7978645153318837242997818644362297053620749598870608895034982027964787740331 :: 2175059641960013375317264288928714209949038776174526500276569040368180091903 :: 9535331770943615501440808578201244279339607112751828398777838249236737048249 :: 3659292321267958452121918862028843841402966501978301948402503536154524839757 :: 823953617861042566618496833581890983308040934151629774983674737356257637383 :: 963880109071351654930592705854705844042450112492046285691606478143951959669 :: 1218296115757117053000603741203788498437853104064499575688101749993856945228 :: 14785163984819280263102475327028275371875702510387846363389832663620802224826 :: 3909479627983390655988601633494928893704392045402078763544697977998111256875 :: 5450929252189867467675342252833644798321782417832353754808804404235223540473 :: 11303853372227129695438648374890368636995761288218205234035784675120239499950 :: 7120715964694917635992131446528931594481228767561731927987953351956133273917 :: 18546636347373520104485140633419213514635367982889900528611420966712544562282 :: 3787096976699209870762188009325060500417415445656008241337511840812206734561 :: 16715512805194495141792168073427551564795367097859177724047493203348792188884 :: 8554154729014748311369961734273684593733185496451035845171623277413825792977 :: 185620808055645200174682363459428113350878400289229466007211219902767515352 :: 526337382526921626704996982628151946256812218816037210893624670674892188 :: 8523824738791789153919151067235307523631218332366883300404615633021592846970 :: 5904166835943583084908341912148361507357367200126943805053730559753699829399 :: 17072236266671437927908503627433000330329010614370675342194650592396890526348 :: 16333151554714923648973898793674199649181026852841238574525999203311337946822 :: 19033774931408586328590657012650909417139505508439406342777376478276651495023 :: 6523216273066527575602857276549263082816687190248130035343760683545133275724 :: 2199278233803547575884468412030535620987976982722701269354967935154639982645 :: 3416224906134977451830711586968265498220480881415308306556391818366557112989 :: 11668054268917501472572933044014163507726741308885896217484100109252847590925 :: 5212592348175796062563310966875455804880926791856826954637046511084994428949 :: 5019539951369711161215805878736585252958966730779872718478754469270962675922 :: 2890174081503141114608465737613288490163315514887643572009804580085615124403 :: 16252506390490135405993103841417790112661898686886457734333296728498434173960 :: 2408047988674285325925982512805957437989486813744520086676161955352436226351 :: 1718755486910044796608690407539220283690013760082362903772320571101997132533 :: 10708839126935610345385959449386548882647503017350290631154147377007835821937 :: 10620919825552019306693935448814117507408878477314990827142712678069108956337 :: 13655675902901194979197592046431184905954620242036505923267751941573351840995 :: 5725725428790796351459267976252958661421855653836454929406564034205282156990 :: 3454798889529573106887873420343300320665263365484166065471591711953653735680 :: 17489274388757531908865743796447719013074622347467783732695172089998522809263 :: 2618000173571616838433891175299141640088154947299929106806198910807971297448 :: 21671572047955157856291648727172512520279883525453656153511330613336939409340 :: 688769857737741063596562408189700140638438447326989646988709736969541764564 :: 311987515755451206885961714427397115587633588949679624329465508361341280871 :: 7102475173608369904749770043673829852113953090559332351698164920210305674868 :: 13292950980049415244627683364637424374143748470972165549609460785696984374772 :: 8010357146591422839749691643429541583475046176961193565006916367017735844711 :: 133517368051772554852429096783763136864217058726685332089306973155506767 :: 1066663422942203665218290409288589960220476504786800792474279466703887066446 :: 168150082308829478584639528919322886666491355271736020360296063193601039556 :: 9655686347774374026281927638470838173248469585487151318243607650422770423868 :: 4101175662373667187651981581651254160756762745515951661644363202455674075416 :: 8540839258896610928106735260749794291712858101437881347228361479897290467780 :: 13885960405131746003602347562748184940109860229408243622811386945293098825199 :: 1685224918023440742267936951875119150722068153273506057705919428738766332901 :: 93251216014653473933867272712523088248610329518626801648453679697649504745 :: 9510807493150587967163484469724788048859317779295491328911814166230918731724 :: 2994849673734582452181355406382343169415165509809169252616725928817621769959 :: 20107619275393065740999202706174162895508846328415833558169986901956445599159 :: 8603412903470251371062279865971035188840889995792712998547915207045779290281 :: 18500001262220718912597828774489444619388264172971051496616756600861358920526 :: 8671177651641391839759268920993010087502380363977451159063881816640826785971 :: 19126265659414755275084729830065677893252764179751225139495310987983687683839 :: 53215320132522112559814836234283067823282020628744430759498730406177162710 :: 17935001786536119495631075654644037769318467546105025737688882380970293688198 :: 15262667509675788151924604910758561268356434310987674712855252453398067676414 :: 3416630241611980719111548291052145103851931104319690712841552389683821458651 :: 14956431528598659751191806750566807432062823831880598012581318370127986793389 :: 755656361680585840350306939258471452247215846012662140587008157158526905376 :: 8966643223593238630165603056282073885380013748700399932415113486684389788438 :: 7028270164127046157053033086865275620635277549119812653173110337954298904049 :: 9845892671694128103872225093346830921972162147108690209485619896730590966400 :: 352288315014795760943081401432589218156818234043364646364073299154932511570 :: 57072605584174843100654519568595943636054719103765580814662554803417136881 :: 13613887308318445796373270115465867295590550635568688509717348514360219246438 :: 419688013354223935447004355898314198517871884088799918285900916321320437467 :: 156264995040666383025236983757878171932804491399449968822042152458431457629 :: 331587507122853437160336184056892400177988366665167313932671049409591473464 :: 179721599251832338961716297542650636346864036778577625937486548978550337589 :: 12389441919696980030106987417106485159537664283706006246556901580528593797427 :: 699538150407637626109669288684771194050315576242991743495931434948164848386 :: 15363979470037798579658459979905344018366134499033012780550712294351277644861 :: 16947306086640453144223232824226598343026565172982692944698055051448357584206 :: 5651474360768321710305338293459694466340423398197956337050269957150900356276 :: 11471228337974495983648186100306632273564861582216511502524952715249748499143 :: 4568286480865395551264295841621856160306412964883492514906413095687059175693 :: 17156754443111089301058063097859230659437927445104809505300604977937365664511 :: 16006992898113474160611250365742257709631458706215110925025541800392095925262 :: 11883882668078120241938128956579845405102002003977683314278682845564117760225 :: 10001743184678426699824874721294157629927942981102145951602175267503365002912 :: 459041016850928043757344223505840925311637389904675239839110644544864946562 :: 5478744315521327809963852810526287202476199693461451919913284635371489759795 :: 11797030081693659673634948062571002639905453841843137363312605358757386072636 :: 3696237385951330120328038913009976660879206132691367710895447337598683347774 :: 571386820176648375601120324894201389603744155232952989479521362015802004821 :: 7975628175663656077914145389512817919650687663466810797432486412924774450014 :: 1268124104188175900228147410610557532388015127599390454492538017530420036020 :: 20640130296094514229340867760989529319617262028296508058712044149234174122695 :: 4157751069980098114560835425361435139478456644670710280123052455280621371933 :: 807706780728004634186289179490024930730219207764371874200941797143508517788 :: 7767014481816712324395367008780593448643405055076675212451459320561158913616 :: 3640922097980666094516011571895792265579596148601278263011623489930139288459 :: 4071909010538316902090147926377709276541058872909308670776918893023291830549 :: 10045334125319058982299502594446416921053576633424456009920151963599505590964 :: nil) :: nil));
  [lia | | vm_compute; reflexivity | vm_compute; reflexivity].
  split; [exact prime_13427688667394608761327070753331941386769 |]. exact I.
Qed.
