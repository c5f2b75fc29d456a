(** Certificates: the order 2^252 + 27742317777372353535851937790883648493 is prime, and so many times the base point is the neutral
    point. The lists hold intermediate results with their quotients; they are checked, not trusted. *)

From Coq Require Import ZArith Znumtheory List Bool Lia Ring Field.
From Verif Require Import Bytes PrimeFacts Curve CurveField Edwards CurveFacts Ed25519.
Import ListNotations.
Local Open Scope Z_scope.

(** ** The order is prime *)

Lemma prime_1224481 : prime 1224481.
Proof. apply (prime_trial 1200); [reflexivity|vm_compute; reflexivity]. Qed.
Lemma prime_531581 : prime 531581.
Proof. apply (prime_trial 800); [reflexivity|vm_compute; reflexivity]. Qed.

Lemma prime_l51 : prime 1257559732178653.
Proof.
  apply (prime_two 1257559732178653 531581 1224481 2 1139842034583224 1252739704402215
    [(true, 0, 2); (false, 0, 4); (false, 0, 16); (false, 0, 256); (true, 0, 131072); (true, 0, 34359738368); (false, 938795, 831946752760289);
     (true, 1100759481586298, 1034265417830448); (false, 850619598535320, 828851905356744); (false, 546292524668647, 1004589674489045);
     (false, 802506941234211, 983518057514242); (false, 769194293284805, 191049562566899); (false, 29024414843316, 865881535542853);
     (false, 596195007210629, 303718770876872); (false, 73352453503857, 365581635939763); (true, 212554408536685, 1244459604607033);
     (true, 2462991884792129, 309773509903941); (false, 76306218291486, 65956866483123); (true, 6918650661206, 1150503519230740);
     (false, 1052561014711525, 1105728802871775); (true, 1944458230039059, 633230827293723); (true, 637713295638712, 866017303586522);
     (false, 596381985619053, 634873743380875); (true, 641026680038741, 24704258335377); (false, 485305281558, 79716087550755);
     (false, 5053163242902, 783499602899019); (false, 488145105186710, 1037150469860731); (false, 855371772495272, 1121547834025745);
     (true, 2000492719067348, 641376370687806); (true, 654225224218967, 514303799075821); (false, 210334659241653, 1069899211790632);
     (false, 910242507055400, 1139842034583224)]
    [(true, 0, 1139842034583224); (false, 1033143659547655, 1139977755025461); (false, 1033389706031293, 192395673674192);
     (false, 29434860469345, 658053996960579); (false, 344345522391675, 543127140101466); (false, 234571036879296, 1063224506480868);
     (false, 898920601745929, 1252138906579787); (true, 1421088308622220692288232658784, 1216608398631704);
     (true, 1341583370983014043506669486963, 1063019505097145); (true, 1024232406806900545944750373131, 293983316432057);
     (false, 68725316284310, 851973636416819); (false, 577196500950127, 752171299039830); (false, 449888501215854, 405881082464238);
     (true, 149318516326049492650535803973, 259249366487887); (true, 60918815969427089003474689994, 659687457177174);
     (true, 394450489821397569827034878528, 190863417531040); (true, 33018811570381972592532594993, 1104034023393971);
     (true, 1104793119634635685109328801631, 31802007860341); (false, 804230350312, 887747802346545); (true, 714324026228439112790236606883, 1)]
    [(true, 0, 2); (true, 0, 8); (true, 0, 128); (true, 0, 32768); (false, 0, 1073741824); (true, 1833, 736020130223003);
     (false, 430775269143658, 576012532405335); (false, 263836722024486, 769983143964867); (true, 942896033992595, 337464441580843);
     (true, 181116246675894, 285572012690516); (false, 64848907248985, 345654423429051); (true, 190014004709076, 437227538966574);
     (true, 304029965240027, 435954988051321); (false, 151131391013581, 1228761888558648); (true, 2401247018554694, 575866011428626);
     (true, 527405028378569, 704972560008195); (true, 790397939195312, 383109490241314); (true, 233424906598565, 441172771460247);
     (true, 309541422641966, 661069035450220); (true, 695016321608810, 790812897363870); (true, 994600928503958, 550491089145226);
     (true, 481949972592230, 405070757515962); (false, 130476759390420, 162049868081184); (true, 41763677816933, 459073045152463);
     (false, 167584930872783, 266113543665070); (true, 112625136301550, 727396395397650); (true, 841479736506588, 455322723579036);
     (true, 329716000445184, 227252455921440); (false, 41066581094208, 882974972131776); (false, 619966417070637, 1252739704402215)]
    212927577457398 (-192995844966701) 790900187493841 (-787868792026441));
  [vm_compute; reflexivity|exact prime_531581|exact prime_1224481|intros C; vm_compute in C; discriminate C|vm_compute; reflexivity|vm_compute; discriminate|vm_compute; reflexivity|vm_compute; reflexivity|vm_compute; reflexivity|vm_compute; reflexivity|
   vm_compute; reflexivity|vm_compute; reflexivity|vm_compute; reflexivity|vm_compute; reflexivity].
Qed.

Lemma prime_l62 : prime 4434155615661930479.
Proof.
  apply (proj1 (A := prime 4434155615661930479) (B := cong 4434155615661930479 (17 ^ ((4434155615661930479 - 1) / 2)) (-1))).
  apply (prime_euler 4434155615661930479 1257559732178653 17 2609735638054814816
    [(true, 0, 17); (true, 0, 4913); (true, 0, 410338673); (true, 0, 2862423051509815793); (false, 1847807437536592971, 3996459298470155740);
     (true, 61233457110650679667, 140846218881238707); (true, 76055105994079428, 3268087495215455421); (false, 2408665099316605855, 1615192517183932696);
     (false, 588352573453270700, 2168716242090163116); (false, 1060704798472339170, 4034856046438267026); (true, 62415733761259899232, 2661434005211547364);
     (false, 1597424984156536968, 938598681005900824); (false, 198677619900019228, 1695296228024628764); (true, 11018670147762391023, 2820981907235160815);
     (false, 1794690942473872744, 3944299428490499849); (true, 59645508324713372412, 980864861392842269); (false, 216973863731117172, 4312804369445982973);
     (false, 4194774189569283734, 864219690472390143); (true, 2863428248426031978, 4358093569193670171); (false, 4283336266043958492, 4092687273469491573);
     (false, 3777514947661278374, 1530863261263853183); (true, 8984849196308249417, 3906135455800654570); (false, 3440992044837219795, 4347917139529253095);
     (false, 4263355887971062405, 800389497686537030); (false, 144474710302036806, 2243301765890010826); (false, 1134917952601896709, 3608091230500308665);
     (true, 49910625325761728277, 3923702031396943142); (false, 3472011125818431205, 323117152426634969); (true, 400274585537769722, 3888666122476569499);
     (false, 3410282706065918742, 182078114909973583); (false, 7476607228684406, 2260959224354447415); (false, 1152854580957316017, 3759638965313000082);
     (false, 3187728707484649485, 3281786117578853409); (false, 2428899897760020535, 1650821530328535016); (true, 10448122109494403902, 353180731877715294);
     (true, 478224691031278802, 1696992799075203254); (true, 11040735094863012534, 768391427993580986); (false, 133153961608511542, 1992539234267643578);
     (false, 895370605865219351, 3391720869397142955); (true, 44104022208786665427, 228213324097394892); (false, 11745487937235577, 2308669858568240281);
     (true, 20434389007368955631, 2653767224608725088); (false, 1588234850741970293, 3907106560311347397); (true, 58525954194085123883, 1009281243868955396);
     (false, 229727758229252405, 200668624983964821); (true, 154382098698186229, 1895027886421381006); (false, 809879264866215738, 1999897659845893534);
     (false, 901996004770351892, 3603810789992892888); (true, 49792273142452028069, 3039286758462054197); (true, 35414518933008923502, 1543863085457134295);
     (false, 537534861929154924, 3989509270756618429); (true, 61020666665148072894, 1655270514088940471); (true, 10504513623132112815, 3484356980573942912);
     (true, 46546097734653796932, 2078877883628185220); (true, 16568986680609612227, 49873002227256067); (true, 9536060895193886, 1057378248043392919);
     (true, 4286459600846240504, 3483760337966868121); (false, 2737068146531271064, 1222156713533710985); (true, 5726533246085296699, 2506064229838205004);
     (true, 24078109557580200201, 3161036217457053993); (true, 38308657652268869245, 4434155615661930478)]
    [(true, 0, 17); (true, 0, 4913); (false, 0, 24137569); (true, 0, 9904578032905937); (true, 376105727159900, 3855541439810823373);
     (true, 56991323355247308835, 3021917789840169228); (false, 2059464736938257119, 1100355402473285983); (false, 273058078402916338, 3243860117095010387);
     (false, 2373085063165704247, 4355680758048845456); (true, 72736110474661849768, 1594889067763136040); (true, 9752118126224350656, 1521741253106942976);
     (false, 522240679426809440, 2609735638054814816)]
    1531103552592752282 (-901135605760004651));
  [vm_compute; reflexivity|exact prime_l51|vm_compute; reflexivity|vm_compute; reflexivity|vm_compute; discriminate|vm_compute; reflexivity|vm_compute; reflexivity|vm_compute; reflexivity|
   vm_compute; reflexivity|vm_compute; reflexivity].
Qed.

Lemma prime_l88 : prime 172054593956031949258510691.
Proof.
  apply (proj1 (A := prime 172054593956031949258510691) (B := cong 172054593956031949258510691 (2 ^ ((172054593956031949258510691 - 1) / 2)) (-1))).
  apply (prime_euler 172054593956031949258510691 4434155615661930479 2 81982237619807054769897707
    [(true, 0, 2); (false, 0, 4); (false, 0, 16); (false, 0, 256); (true, 0, 131072); (true, 0, 34359738368); (true, 0, 2361183241434822606848);
     (false, 32403588718226137, 16629868878882634406364437); (false, 1607353413646725202964404, 96871806178257332331883805);
     (true, 109083362628910064148584441, 4289815693316360527797319); (false, 106957438679760198985055, 65145982441971570876864756);
     (true, 49333167231956733420292239, 161937696246404929504051923); (false, 152415677272147289636874225, 81846030359905255095158454);
     (false, 38933994912024171843644822, 50130339001185226473878114); (false, 14606124896705492504610781, 94360963610943572245837325);
     (true, 103501932135112952657178436, 55958470222262333125651974); (true, 36399497596861932425191982, 96942170747293602065713790);
     (true, 109241889485368857412499141, 92208385878681490415511769); (true, 98833588000848012223238480, 144576786183119954632429042);
     (true, 242974588732936064969341499, 28564586967552342608609719); (true, 9484613108736534070829754, 29454765347053383472617908);
     (false, 5042487862147320448264096, 100977994980450929754846128); (true, 118526977232327469733655985, 67348371964003242274549133);
     (false, 26362581212803008616915188, 96050729320176486892776781); (false, 53621018717439318846156540, 67166299682207802843152821);
     (false, 26220234573643529689115434, 11413594539312451538153147); (true, 1514288428022016873091950, 24086237507163597950969768);
     (true, 6743752943902786217579895, 133885302935231773295790203); (true, 208367285405230544193955829, 82610680913197084003294579);
     (false, 39664878711033152656238948, 4660513788403658342194173); (true, 252482520489411652898335, 155849974018653924336708373);
     (false, 141171554000017815831314475, 119267517564558213077754904); (false, 82675739246156327383345701, 150557999360806761038659825);
     (true, 263494401984074388432222514, 95459349180429378164076); (false, 52962766854570663850, 38984972136842806184713426);
     (false, 8833405825239386454831921, 166968813139647092558090065); (true, 324066726964427101941286381, 85996909291737008522209179);
     (false, 42983266169696889701927693, 57861796522635521682388178); (false, 19458867210964704667701754, 108405263524598049665707670);
     (false, 68302164386500841653193699, 128196126438500325411492891); (false, 95517628770991642779254845, 66479288483572313897489986);
     (false, 25686589911173309160624660, 37946554125071460122040136); (false, 8369093418888603291258318, 56297240282281070749220758);
     (false, 18420776746076400036162115, 22337541034681035881423099); (true, 5800086216861705716434256, 145989962448484205326896706);
     (true, 247747748498436736611871891, 14438778751472272441414191); (true, 2423397446594692211869760, 53456983337355773972764802);
     (true, 33217933933930258957270525, 73957778471294336128515633); (true, 63581597801530686816766563, 97136866904823086263956345);
     (false, 54840563655606587711707009, 63015141429298263379625806); (false, 23079349165005244645249122, 122207402847599530185786334);
     (false, 86801804981574533982851643, 167681491909110434518744243); (true, 326839081507469736890776437, 10812518559508506035898131);
     (false, 679496867311732758050784, 123331931473104187824361417); (false, 88406621242403641541983861, 106608286813168061420289938);
     (true, 132113029427660378169333727, 22058825189248436191712331); (true, 5656248491152388724953178, 102016850195492322727481124);
     (true, 120978318387349917394671121, 63871845798043103345152141); (true, 47422304651644809737946487, 68625776404960854598375245);
     (true, 54744219016752092729735688, 78424465505986826705379642); (true, 71493549209984286947127571, 116489120944895938851734767);
     (false, 78868660153197042568838154, 129060605540996093058839875); (false, 96810201457713749208484853, 92030085040024261477952202);
     (true, 98451733926249743610876808, 131640696559808112041343280); (true, 201439236143615213001131525, 36213442084041054292683025);
     (true, 15244154281742963190417773, 107603859062788066169390107); (false, 67296026330823997308110574, 33191942752588601960324815);
     (true, 12806459140203562844635451, 43880813624530125528461809); (true, 22382730505211749332225453, 57363751328337979720286939);
     (true, 38250649294494287986040369, 60147213792478197843894463); (true, 42052783873037055002933596, 51166245551536598435041902);
     (false, 15216011520791808179267916, 124590959096109963656487648); (false, 90220823121150603052195699, 152051311594972909760853895);
     (true, 268747271737012614396366759, 56901804737414909314821581); (false, 18818534907602107471179697, 91901234100244506806698934);
     (true, 98176243190649739764236288, 56359529941164544335317704); (false, 18461562357357000631801722, 59344311240781236886621714);
     (false, 20468777936511747744632327, 163971234199517154342589839); (false, 156267641721811203970121198, 123747702650551333537318103);
     (true, 178007381949970930049590254, 62986063444089396794631704); (false, 23058054405665403805498219, 33466043495908907808984287);
     (true, 13018845257410255909811492, 132520914449198278749135766); (true, 204142096559648900347385283, 64617141317453307249252959);
     (false, 24267733026104122792163663, 25865633804477598663034548); (false, 3888480956679966491760812, 124986276829901698524723212);
     (false, 90794259174462198739751237, 42203025079099066766622177); (true, 20703839227707206906282848, 172054593956031949258510690)]
    [(true, 0, 2); (false, 0, 4); (false, 0, 16); (true, 0, 512); (false, 0, 262144); (true, 0, 137438953472); (false, 0, 18889465931478580854784);
     (false, 2073829677966472774, 31984044512296906456259822); (false, 5945665732273380560698350, 29024443532358241270411834);
     (false, 4896226848661359734432396, 19808387174203048784497920); (false, 2280509885969109424278951, 150010420116626843684561259);
     (false, 130790614921432972698007344, 140535356440195322503150377); (false, 114790229982582456155186612, 9305664854811807573173237);
     (true, 1006603734303181253662368, 118875755576714418193740050); (false, 82133495764408352887561335, 144280111927389765958270015);
     (false, 120989217545099543588439385, 90133693166330921620135190); (true, 94436102599833808036158834, 131278503214799028589577906);
     (false, 100166145001173924076201018, 66351917947308499425261398); (true, 51176512222759079539645847, 23146504394297308454578531);
     (false, 3113899218594167203600917, 167480910592361093104214314); (true, 326057616572731665733124296, 44645500580478167137132656);
     (true, 23169630943894914114272249, 29295608793347465632114613); (true, 9976283397491568503194961, 27497632718918193860451487);
     (true, 8789300974291271736830324, 114262896645587233754028454); (true, 151765893018544748163420371, 28969258566049086852573871);
     (false, 4877625889379437891713874, 81982237619807054769897707)]
    154275350521713489305385904 (-73510611687487158067405653));
  [vm_compute; reflexivity|exact prime_l62|vm_compute; reflexivity|vm_compute; reflexivity|vm_compute; discriminate|vm_compute; reflexivity|vm_compute; reflexivity|vm_compute; reflexivity|
   vm_compute; reflexivity|vm_compute; reflexivity].
Qed.

Lemma prime_l134 : prime 19757330305831588566944191468367130476339.
Proof.
  apply (proj1 (A := prime 19757330305831588566944191468367130476339) (B := cong 19757330305831588566944191468367130476339 (2 ^ ((19757330305831588566944191468367130476339 - 1) / 2)) (-1))).
  apply (prime_euler 19757330305831588566944191468367130476339 172054593956031949258510691 2 9148758478138211201771971577098600188172
    [(true, 0, 2); (true, 0, 8); (true, 0, 128); (false, 0, 16384); (true, 0, 536870912); (false, 0, 288230376151711744);
     (false, 0, 83076749736557242056487941267521536); (false, 349325857287178071418934062587, 1619361847007976702014523425326475170303);
     (false, 132727081592145878700922027800538989798, 19562361158645873597581409104891251722287);
     (false, 19369316004619452272808222939004939638299, 11703182838014489695100769160889534803008);
     (true, 13864675684403610263405268401355368275044, 18880617727888554791907352021290245512212);
     (true, 36085616859018785335353913275709199270340, 8186063759360150637770811242217047780628);
     (true, 6783471130462442681752612304755979291173, 15137470273834310244178733764317756093121);
     (true, 23195745856775332080070445360842985514482, 13336465597306171292088369112389604199884);
     (true, 18004589878788772587530515761001622651431, 16658519595388914898900202686708461235803);
     (true, 28091474993263385868861795165686074338579, 10392783780435703415783569069555303727337);
     (false, 5466829426595511803713355242870585680599, 9731061256971484152178024118141860264508);
     (false, 4792831405920344425028051623995638830607, 8445612247177216603463075118926881974291);
     (false, 3610222895783468269446270307527004129896, 7742269166387525084957806299243274421937);
     (false, 3033948965620230608190408766559355666510, 5342816821726778074614170052046377125079);
     (true, 2889630445880743548681511175818486306933, 12439973860133595534260708182925173354195);
     (true, 15665370497463430245236467571860310797446, 3978678905118092496381558421918923565856);
     (false, 801215831541741355132612946980309921424, 13138802078496741084939323099265587826000);
     (true, 17474842742995215007131299764514134368566, 4175370477986640217187608120925983640126);
     (true, 1764784852870191152591949718050219653330, 6884451411422439117455419951372607032882);
     (false, 2398890462556425039006310723064013584817, 2899717532777486813747096178095641080961);
     (false, 425581879724678029498043171561441927793, 15554825367944987205289407003058023693694);
     (true, 24492437842763604184348678388673382241921, 15326265273001920157321719593109806324053);
     (true, 23777950115972198044299613516321736117151, 10581653344545812732519539782957955103429);
     (true, 11334667768457363402433055105465560189142, 436537712718503123566775228154779404944);
     (true, 19290579412872902427785408583652956637, 15085588252406633529453414902829941774329);
     (true, 23037016580522301258486325157668002355043, 10950042474005030808164944435227137972905);
     (false, 6068807289572084979381716494949928633434, 11691828580684039707609597826712772820899);
     (true, 13837786122323624739487871550822792226725, 12342179655867855468476310845060126376627);
     (true, 15420038669167434492533005827929477313357, 13209754946270787462754927364534326634235);
     (true, 17664089534305217712545938803113247055037, 15728154782787925552120978473084188800907);
     (false, 12520661903309848942476227545178781383219, 13062752512106526018090676591421712867408);
     (false, 8636566810961319601584751883887455264007, 16954463015510559380800672376034476808091);
     (true, 29098447178308328890196983028721823226122, 10115390547343274290876271029563718401204);
     (true, 10357788662882300982778980268007194831613, 3602777628843355901757948682728231594425);
     (true, 1313943376151682330310867456140887874876, 15902499285523653161523587471940071602286);
     (true, 25599560225142082876940005391855885947481, 4952337138585441474911418425578853699533);
     (false, 1241343984970157165950930951382113519902, 18460587600651156974321413410847427819311);
     (false, 17248954655615917600497788026957760565531, 3074910640844818053279930998090810043712);
     (false, 478560377481259318552294620760140040205, 11158197767385901331818491026167089529449);
     (false, 6301730825411498617992850329882980148885, 7463426772326548444198858830457048511586);
     (true, 5638690888256235522614138892024987243644, 4954415581713227535779016964535582331476);
     (true, 2484772322612608633629894871994213194768, 17012444883971741020900742563841058082800);
     (true, 29297812654855486234385452071453660684558, 13808093328164256467970600455367950006838);
     (true, 19300526782509465583264272033810609144469, 10760604004700830034263621211515256297497);
     (true, 11721279824107278325556313447144920850267, 3018145329411352110606926409657331597505);
     (true, 922108512480441794723951476991006021075, 1832876295288540002267869300868821605625);
     (true, 340069782893599724530854082896399751316, 283177909839319082134009424801841169126);
     (true, 8117466011822120120745528630460960500, 18858767871530106537055385973192607598252);
     (false, 18001072013625309445392982645607419247134, 9479982266044965941139418391621652893078);
     (false, 4548694705883462977981585899980320355441, 8390565137055451058771314261375179903585);
     (false, 3563314589035876754676145224631864458708, 2510370284539389580222553436897459342213);
     (false, 318968143364910229071008615537422987031, 15381213368278193359867389444171394377860);
     (true, 23948754312283797305894596942531135126434, 13141263587204363069644592465943505914074);
     (false, 8740695528960769785101481204935611563412, 858000744963162942060994796890207168808);
     (true, 74520723899630860343926291187323604439, 19603227265107078576245240238081531412907);
     (false, 19450326195842929835955360675950763831445, 15103470954901421376513216613316169510794);
     (false, 11545832931599078745574029588029197190330, 3414241553426565695093199834103937908566);
     (true, 1180022321305621550791466652476014178136, 11676694876518579601243487210961073228608);
     (false, 6900993258136272264316925183357509507013, 16506654837968491184141812380601278552257);
     (true, 27581626639041029411303922857240249666833, 8612688314379037259666025456862420023711);
     (true, 7508949726749941459631229288273949973568, 9414904300215241232260624714287305015490);
     (false, 4486457512736336997361831844319038098300, 435705108150346903965159130541433816400);
     (true, 19217064079985795094216270294248515985, 18772652047336607671406033737320912141085);
     (false, 17837048803418192473220279548311854733676, 216270484648483705049703522717080485061);
     (false, 2367370581251278403722965816223282265, 3625678127686420775532009167387543345886);
     (false, 665350109660497077405722145502054899170, 5149350621479649566232555868905117386366);
     (false, 1342074633185963699652324110467744524496, 12361746476791716654432770976843388785812);
     (true, 15468970107906540904531198549313154643209, 1172131063560488075419871862789463466837);
     (true, 139076606899457682421136574241747802920, 1947456036028832605853897730663702459258);
     (true, 383916749232634076868846082976734306874, 14811579295750740854449310040939677766842);
     (false, 11103872731710052706152506819294476021121, 19225620332140871327210919683601959896945);
     (true, 37416439512228008567699061235773507097121, 13960060100916944636366497489440175146031);
     (true, 19727693469161804580598311108276119025965, 17346315590094180754837533242033190963787);
     (false, 15229520380207042920296901863529580495159, 10922988966528132202468292568542791838468);
     (true, 12077713548948380487736506938084544748111, 18100813620737317680156972534990608728419);
     (true, 33166369004415874453285421051997272986840, 5397444497224535627262680516229718100362);
     (false, 1474511315530351631114481833479063396095, 18041248118887594315696159565989522034839);
     (false, 16474221397776311879920831178914924326715, 14255677331121657048233458658898316659536);
     (false, 10286022100317472646128932109436410644666, 8635475489388849910809319681279090177522);
     (false, 3774368083820769808332372710458169806011, 16180048278757857621174426190295818586755);
     (true, 26500945041715864518622331523202947564992, 8832184709570162725358267579097802135762);
     (false, 3948280741196103345044652415908222198974, 3673914295162933430005467107630022244458);
     (true, 1366343128273618876291791713464479273640, 15698305665419561451471649839745897023568);
     (true, 24946366432129286962406993087125606583091, 3227133556061120444171020980690081917399);
     (false, 527115294801837335384314394076250827690, 5807354526329973776940839584007547898291);
     (false, 1706979944781852908541666704435200725571, 1682996929309808442595278090651632956112);
     (false, 143363431203567407571437881109704892168, 13894969628929111689595452049907247743592);
     (true, 19544156826884214721019191662736657270093, 4180692966765390086900430127720285295401);
     (true, 1769286984811173823980999561589138418735, 14352364924342046256072688791025871690437);
     (false, 10426022935937027635778052163086409133554, 14375054909927868804190912809347669272163);
     (true, 20918028950748336587048931585331186944698, 19571282801844662067742664337465542896516);
     (true, 38773974477384094031287433482095139818716, 16391378967931793004839352111002982515788);
     (false, 13598866866696748753999737946278859450552, 11564717337363423036608599393638092771816);
     (true, 13538538357445848663489629898489785570151, 14235383532233750166484336876146357718523);
     (true, 20513514849724271930854487467834749902947, 15959221112549160346246651132649264732025);
     (true, 25782505488006988192343824350003641099786, 17586164952392367219799354506158110237796);
     (true, 31307185024028101658834724696048914661767, 11928548357951797696981894721335552444219);
     (true, 14403794816954194117146020113968775723260, 524849565703421183270312505587171094782);
     (false, 13942524741703729158142533548147500287, 14582637383276471324498961480093978418231);
     (false, 10763261521692813831232777509352609145494, 12263539898472494077194558563500777702895);
     (false, 7612081617982375999688556402149779227729, 9946549506586676508295279814957564176894);
     (false, 5007450174469081418196467463253201501716, 15683757686931630381278583322938517589512);
     (true, 24900151121103976948357222818165365757118, 4237563034418926893985225395939144965286);
     (true, 1817749685074967770868431812129874478362, 14863274210456896743096292734764081646874);
     (false, 11181516775575042234692148879173769995125, 265872784925332325263061557017076124501);
     (false, 3577828414554956165570638043829062106, 8772235075335678664098979803506257989067);
     (false, 3894863679747071770256829760512653083676, 7187407821868695670541883281535586388325);
     (false, 2614666576820434511794370425187651080615, 758198465794860330415470502304657237140);
     (true, 58192570011749252121558130031286767426, 10653747182369981405393508137341501825786);
     (false, 5744821150879624889995136013396957740557, 5315728706825655226922789919026905336973);
     (false, 1430201917322301569723119310857660392955, 10738096786235579312948064898967611010984);
     (true, 11672297907225740636589426697695777275152, 11211437261921008878652227811551908667984);
     (false, 6362009620342796317817042256771771609274, 17949873054152915805010850290192936656370);
     (false, 16307767176676938830744574323837634238668, 957669989516387990413462810197008700448);
     (true, 92839649347727649683214990238059249452, 3116706464691121822232208830202006085180);
     (true, 983316980248113882891791668872215306287, 7308133757857051608325150864185739821507);
     (true, 5406481361195408388110703941940277185838, 11951838282062243661396897468505074615016);
     (true, 14460095175754175757467393118212662059759, 11166573888284832482162356906566671818211);
     (true, 12622390826327416052204363651926760834709, 7639791988753127129718196573076848030691);
     (true, 5908330804611692317838242544622579025532, 1228861237180856371139865819936152987614);
     (false, 76432388226052114724526162604356095735, 12269325361069731028457136747049201098831);
     (false, 7619265482004745560154399259635426915544, 5918703698850793400733836064887586253145);
     (true, 3546132289386311574819410644534201372132, 16339114451600895145340672360191484797302);
     (true, 27024568292378564807076738499169820730840, 19084947610355070521900031989049745363648);
     (false, 18435447484647749799414404734316296361536, 14844156124004850728336875399467522171200);
     (false, 11152770522280145523811701749013994537467, 18290544821388317092614628490158416946687);
     (true, 33865307173051686578565390960835052860400, 19757330305831588566944191468367130476338)]
    [(true, 0, 2); (true, 0, 8); (false, 0, 64); (true, 0, 8192); (false, 0, 67108864); (false, 0, 4503599627370496);
     (false, 0, 20282409603651670423947251286016); (false, 20821443634461049522097, 18748596071776446107177033409625920989373);
     (true, 35582727951749561139672184478506847998237, 19721272643449736927818165121131915651915);
     (true, 39370561574554687301581838168829004414486, 18477411835312802816702207322939914487696);
     (true, 34560817969519434990886678306333903303987, 19523825019163716789559465115755042913239);
     (false, 19293079453473215695698998085832837987456, 2741074543570134387368872531500694667537);
     (false, 380288709916973613942502556697489333234, 18129074954164426131222341246417038296043);
     (false, 16635008556631933400475953206080385080329, 18809579709454361105253480884714360622318);
     (false, 17907292299602302366417758034714585391413, 16983469284660113529419339998214789416117);
     (false, 14599048782307286849932576057763754948145, 3097813472089334610536828706139684916534);
     (true, 971431682247644942009228690512624938726, 164580144388749734687458214494025342198);
     (false, 1370965788785077018286373018622158657, 7294318263710464622891738576646156954481);
     (true, 5386059564595668639357184563906369756578, 3503720168317033537504664039577593350780);
     (true, 1242683584051650149527848379523960869815, 7208976363552009668359812791358536409515);
     (false, 2630382719010991443572685526520117421222, 4067196661299211085214309862462615068967);
     (false, 837263356213712444687325741322744717274, 10092219781375010978830624923642664867203);
     (true, 10310390982886396884317052184490097818554, 3958465358828108782955647323664437892612);
     (true, 1586190821784979916441459249440682587843, 12307617549479279985696195657247487818311);
     (false, 7666898685170038292600220041457734787029, 9519791704869126618125401996451058285890);
     (true, 9173955458683166872136660192551249814696, 16910861352137393034221682432921983706256);
     (true, 28948975113991476961760718558251605025304, 12510372665995464893132709347956518793016);
     (true, 15843175350051321021271226685164880127904, 7248993891039766726246535810340135089056);
     (false, 2659666646197729244138036022980969550938, 14696419350991820950982570575210186715154);
     (true, 21863757744279512894159191721587587694155, 1000800396041786658643875649397670388887);
     (true, 101390361674700917265942562400919592073, 5559330094633165847650652553677567736791);
     (false, 1564287817366282619059731248455431668964, 17165912182971479704515406995458772334885);
     (true, 29828781167515742964764306696043480635009, 6293122669717138753539957413292806374399);
     (true, 4008982218049814191852102300302208068688, 5098046884010214108570199030460054449170);
     (true, 2630930558861487594910332034193975035926, 5251203743877784770365842570837209422886);
     (false, 1395691641171629548326246902906297595646, 11425944374501064380602063708702788149002);
     (false, 6607785709320182381223143520816606648848, 11630358414123007096396431092496607988532);
     (true, 13692663406152281510216047375549691483942, 14265641388208725410251473003479857581710);
     (true, 20600812059806080197748111100446930957463, 18525015456028222876042134081102116080243);
     (true, 34739126423856202892583423970774564569802, 19624084581796951438104079787668754963220);
     (false, 19491737482358789991289569573383607547672, 8605839234462744138583551664326542235592);
     (true, 7497011770619491644432398638029799801725, 12016577457375382630174239618735459296153);
     (false, 7308585297401317084387724670572847442742, 5592002592978128606989292496417672317871);
     (false, 1582728664036369908457436297281939119257, 928513593475896652103538037313128212518);
     (true, 87272670945330454374536224206744759772, 5380239711509991466164012245749058765940);
     (true, 2930252104431852704621644124163911201887, 15333042075391074190205731085039102515507);
     (false, 11899491259521033692969125360158426181743, 9148758478138211201771971577098600188172)]
    16371654433361644093796961727196399386194 (-7580999557119167215323054323116539631207));
  [vm_compute; reflexivity|exact prime_l88|vm_compute; reflexivity|vm_compute; reflexivity|vm_compute; discriminate|vm_compute; reflexivity|vm_compute; reflexivity|vm_compute; reflexivity|
   vm_compute; reflexivity|vm_compute; reflexivity].
Qed.

Lemma prime_l138 : prime 276602624281642239937218680557139826668747.
Proof.
  apply (proj1 (A := prime 276602624281642239937218680557139826668747) (B := cong 276602624281642239937218680557139826668747 (2 ^ ((276602624281642239937218680557139826668747 - 1) / 2)) (-1))).
  apply (prime_euler 276602624281642239937218680557139826668747 19757330305831588566944191468367130476339 2 16384
    [(true, 0, 2); (true, 0, 8); (false, 0, 64); (false, 0, 4096); (true, 0, 33554432); (false, 0, 1125899906842624);
     (true, 0, 2535301200456458802993406410752); (true, 46476436684064842683, 70353966269710811067824481980038174682807);
     (false, 17894553902857206055508041733161791055307, 212856644023487045304013853280775616008920);
     (false, 163801594517078895452742343591837327292910, 156582828171149672818525621127440707882630);
     (true, 177280907162405572089078559681975578968828, 76081431650864465283242547450583116615284);
     (true, 41853429677885589353303442799543486311222, 174027431430060482746779183325769382022478);
     (false, 109491176986473789992688937980024998301747, 111011292360259784473943481815722376859475);
     (true, 89106219172722199554433830872776694950200, 109928747843697709402756356406844733151850);
     (true, 87376825392508000094615690086792394745997, 14317682655849506634191859832484593589241);
     (true, 1482242167195657404753202406891139262797, 45192329780444293748055185797388162206803);
     (false, 7383685083569108084944879168518245679252, 90731068547858551758062419989841524743565);
     (false, 29761564342405130916628314076928722820248, 179318225697468380159041016549542288519969);
     (true, 232499790273481487111073822560174943919155, 134240868605597167973721818616348890373137);
     (false, 65149818628026690343745234418739555281871, 185627809385704545742869161440404559835132);
     (true, 249149361520518102642170573648418792475790, 46480228491231259869716209852037695779718);
     (false, 7810524741794540882184071639995880796346, 191943484231664255973159830003377270161062);
     (true, 266391551668559646180640082460820822359492, 219967045057132398030342790774676006739164);
     (true, 349855689452168353429766638026389478633597, 250745098536287159231538567699286758744833);
     (true, 454609601794332389339516905310790383685182, 221648017188464041396044481869418561988824);
     (true, 355223264068201415565803525288081503817552, 143044699768437632002074887302145173358608);
     (true, 147950773677460612094795483770259960123406, 114177770231377213637910079168133932003046);
     (false, 47131017823370624232475307672166544259170, 217622382134961419039905059263235646118126);
     (true, 342437106871934794724340294533533148852452, 203723616741166263379903526628056508786108);
     (false, 150046703735688744875885451878844131290845, 101956565890192115988601486640438365066449);
     (true, 75162998580494658103435237372936191731902, 264816795522180568001483414927331184672408);
     (true, 507066304036441456887858525916262040575951, 232179462166430805108443018569214981533531);
     (true, 389781570524823338652639872295517529186715, 256419174349469629550445421296978336559817);
     (false, 237708492986367877696525933153093977528090, 169203232511839421241940569827660101470259);
     (false, 103504925041145791903799772468411819718862, 260566261853566214888724898281293919721167);
     (false, 245459626396058473383071313182829868423563, 222538270137709186403989005634748337356328);
     (false, 179041257488065071391916062420410446701673, 79759462587725454381152848185850739929853);
     (true, 45997914074779700278501057689235789999765, 203053551521260696669200178733578858358763);
     (false, 149061292865447710908122852357145068309308, 52447857060452146514517244401496966093093);
     (true, 19889744122114503382022368596211286106042, 122935924436072566902350157573862435343924);
     (false, 54638821870190009106684202424516419303517, 130451462592376927117089742768880152634577);
     (true, 123047162959398949512434741504663929234462, 78222396131556472821117932889100821178744);
     (false, 22121060031346326443549911877730009787815, 133448338832920893863264675058453835499731);
     (false, 64382827832946150187093290402215201292383, 140045514475016996126235836163122465818260);
     (true, 141811714010363911779108684991055717876850, 170729153373929162828836771967591609048250);
     (false, 105380214260364746409645880362397525076781, 71527553180435404333214180810588199999093);
     (true, 36993075371335657471731598275637104666567, 77803624399962516347353826772778606963749);
     (true, 43769678508955486146361887327604857668664, 206435616331346379784669892916509390225994);
     (false, 154068182833691180145453895463434914131538, 135776931645502567033136823615265281645150);
     (true, 133298628058540864254078314732106402937636, 75289930501705680228100779136444365782908);
     (true, 40987128373589239846074423256802586820017, 82394338154934170359464596866654401964229);
     (true, 49087220178194141087108369814057268854500, 134674830741160024858462214123855150817382);
     (true, 131143441478648698177031330893129495911833, 210816797637131544558353970862241818084597);
     (true, 321354305884833537424498232110043172851548, 48600679529942174390987488114058095134462);
     (false, 8539420249198644067693178334696677089898, 242330486699291841957025536627366274011638);
     (false, 212304799842107285817424104402172239223454, 212155371055178793120292836638250788250906);
     (true, 325448115934942305369801961591006669488370, 30699225405018380488480178788957660669282);
     (false, 3407207154725012632403458999169010124638, 149457686695183284197034547590001369106938);
     (true, 161514014339437228891310318436405309249339, 231971657127414513688607902925195777763455);
     (false, 194542079454920477286930578860262260505549, 44591351396097192702425332365621155159922);
     (false, 7188610825707866754440682582293142412491, 164245360654508702471257254509649902927307);
     (true, 195056272995165747446768013312393625306502, 252780424058245930244344781875723953251504);
     (false, 231009893535950309810325312229730439568353, 40457958014587486528759939115417282898325);
     (false, 5917681984981655941697449426894753635760, 230995144897712490814626354204924874212905);
     (false, 192907630955750628364155894284769403401068, 53021299221740305600621423418692846517229);
     (false, 10163526750559100613171704951530267700672, 158661503378933536954813767050257900540457);
     (true, 182019044250507272825668633664792554037867, 5967115716907620982023803092099084095049);
     (true, 257455763996734481307312789350436423361, 239045287360052269396496326669176533226135);
     (true, 413175034455683212754287794684526878375909, 52252565231814678577438446720077006060427);
     (false, 9870949635405381435421312026957186038635, 276309912735515660738814925952017486381984);
     (true, 552035021896032985445689455928497065203781, 145996877665706704140236902354034780620105);
     (true, 154120651194052926530462776588288702750206, 157173172429815976039245107952374412410168);
     (false, 89310093119359453980928593665530791538975, 42380965118357990463832855235843004873899);
     (true, 12987195685711248169007482666437835701501, 249973321930109328718430516736547085235155);
     (true, 451815392851435334253087415386344835937243, 99292096711987632987750039307265054303529);
     (false, 35642902864956763089276207272434024752896, 149292031826472855050542006018055740912529);
     (false, 80578088601872375994142492825340900778894, 209204367987549443488126223854560002150023);
     (true, 316457356098734067536514649245598019390140, 149468611161057865530218597464376459846478);
     (true, 161537626625462543915158645388066981749935, 95366977754106419485022921597223024227523);
     (true, 65761201431636907810051232422556299169572, 7331251961035710305025282502486515664774);
     (true, 388624333957608688871476377359813995296, 148217070086301962890463980511185880728040);
     (true, 158843755890032283661487609974420866913416, 237941246288116580214546850094569522273448);
     (true, 409367314082274133555727279661417482299462, 94689240898976288650797682059148041303294);
     (false, 32414921461102815934217836491641363069262, 46020764696135488103929785029729203495722);
     (true, 15313743235209309015248157512409088852486, 191458974073211450198765536467719475147526);
     (false, 132524190066404592566003687338241857439630, 140575148997689222928575529700417903677066);
     (true, 142886370417086908238289413036038391813560, 179592211900117949503309669201316525927392);
     (false, 116605410591968419672196325377345716375982, 138598326955997689228203526517517235087110);
     (false, 69447989818932984077492409193238322022731, 169915272418767322633817820212166746864043);
     (true, 208755790919370938131383959249834661555528, 258265603259370148438207476860680049928282);
     (true, 482288423691960266206745533367674112259145, 20345276778855941742673631520946950501733);
     (false, 1496479971161744414639507896214826429791, 128600432662998803847903437116893626561412);
     (true, 119580002713720457780033521749688811811111, 181411410393591215366863925418831083819571);
     (true, 237959418544650270671403542444263395026220, 272823773989774864087860001728573645701742);
     (true, 538193098112003455369755597785730670947562, 29893560008760373580804060981334862424314);
     (false, 3230717468130204731060741740958324676606, 97773670139190902901898330855586316137914);
     (false, 34561098606040142294320299600940895647650, 46297005218628063141393040218938089276846);
     (false, 7749068533895069243015504051663621348284, 207335271996450179596998205464506846827568);
     (false, 155413981069358316342157950989114373392026, 179666137266174470148399040054455651583202);
     (false, 116701426691020094924660494941284623677561, 51917688246056186138339340006614244686737);
     (false, 9744832898151118407665289329936950847207, 229461634340221322260043665222001064567540);
     (false, 190354815941563448168850417881308220348144, 11788757005839887734863395228031117396032);
     (true, 1004869654463091172246524325684041474108, 249197566260479375446657796315315765387372);
     (true, 449015458124613807572105692622534303748020, 10478776036212785150505051485705337001828);
     (false, 396976520024994314101596180935554074049, 187480237397385533269567953947756243294981);
     (false, 127073412646984854702795316312381361818477, 33594551686312040116874895799782756752042);
     (true, 8160399099143286491257779041534706710175, 242894795911868408099838994824244282938803);
     (false, 213294729340656582484091472786845801695300, 183139025912900202994724530817866116283709);
     (true, 242513265370721446186635483212954734921988, 20690597397637500157268708465768994884326);
     (false, 1547710625605717342827232876951496275469, 208690569172743372983426134170549995406933);
     (true, 314904847882414400127129486112257407984833, 206655756330490786494333263061715837818727);
     (false, 154396950265527777006944181060052905779072, 34440364526853865582277195644726802837745);
     (true, 8576481960885694948243835062436185414009, 185168289721443850711563577304460097093327);
     (false, 123958677570074565892958707459774197497312, 60736295561698986065304732445552701020865);
     (true, 26672903831902532947834215510757308098640, 137968104351037473473229019532470649492370);
     (false, 68817849677509755252698048376318653319509, 81248670880993642536724262811021792531677);
     (false, 23865813048853806969944922921693704246113, 61153298704317222226487113773263235101918);
     (false, 13520211357834348814835677796559495952905, 97258459725170291265667087140645299918689);
     (false, 34197824451878734629881594509410819485862, 53681303967761676999050688458591287723807);
     (false, 10418131075810183904691659441242756537073, 148869847657225780635933793553387918615718);
     (false, 80122998106191471235957918968950885892677, 14261549569120370996774703612027084589805);
     (true, 1470642562706707416351154419476382414557, 46709770264656791214855775330652550125971);
     (false, 7887859501851512966122659782920135886906, 99990267136941987179324002108135651966059);
     (true, 72291819704044497615490074180541589457373, 246278152786163021896943022405382228161331);
     (true, 438556421489382910420410377987426482762384, 16023598011316136938572114729780847370274);
     (true, 1856494990928363389081009632140570506403, 182361332345463845975517911102232194183111);
     (false, 120228995011092717901681934939580758060541, 183006249711494574980820017591168019026194);
     (true, 242161747528211588534491968332763923940109, 113422257292425085084474080503835906177849);
     (false, 46509350671272293106756240480210335927388, 71061824089083083225899648539649097323965);
     (false, 18256453119280605310762522615481295765105, 11471479317928590902269449841853406647790);
     (true, 951508237374284298200547097759253350874, 114064078156326435174241717479621662833322);
     (true, 94074406990476576693716201880599781566621, 821121246262339589676506926402228017481);
     (false, 2437576660071356325991488759172727315, 112361373123293941225554991403664577861056);
     (false, 45643378123907381296035709577603977715891, 574068407018257077722423225307506476559);
     (true, 2382873530519510565006028371523230692, 243480722944643250208350079281676085378038);
     (false, 214325018063759033307653567637053343011797, 107201392961138624201561052344278940521085);
     (true, 83094935795742413781698532364962235721432, 276602624281642239937218680557139826668746)]
    [(true, 0, 2); (true, 0, 8); (true, 0, 128); (false, 0, 16384)]
    94074944912245044309966580483695483989395 (-5572));
  [vm_compute; reflexivity|exact prime_l134|vm_compute; reflexivity|vm_compute; reflexivity|vm_compute; discriminate|vm_compute; reflexivity|vm_compute; reflexivity|vm_compute; reflexivity|
   vm_compute; reflexivity|vm_compute; reflexivity].
Qed.

Lemma prime_l253 : prime 7237005577332262213973186563042994240857116359379907606001950938285454250989.
Proof.
  apply (proj1 (A := prime 7237005577332262213973186563042994240857116359379907606001950938285454250989) (B := cong 7237005577332262213973186563042994240857116359379907606001950938285454250989 (2 ^ ((7237005577332262213973186563042994240857116359379907606001950938285454250989 - 1) / 2)) (-1))).
  apply (prime_euler 7237005577332262213973186563042994240857116359379907606001950938285454250989 276602624281642239937218680557139826668747 2 2975531125133123119648879457563281269120703404158613135195788908093573672641
    [(true, 0, 2); (false, 0, 4); (false, 0, 16); (false, 0, 256); (false, 0, 65536); (false, 0, 4294967296); (false, 0, 18446744073709551616);
     (false, 0, 340282366920938463463374607431768211456); (false, 15, 7237005577332262213973186563042994240413239274941949949428319933631315875101);
     (false, 7237005577332262213973186563042994239969362190503992292854688928977177499240, 1627715501170711445284395025044413883736156588369414752970002579683115011841); (false, 366098619717808128819716404516769999285687009209230871130201714971063287108, 4460531758850015836181350679139994174100493552997170650645149546199170259469); (false, 2749250827445665192446140270154516795078445639981165598865190313677752906816, 6296368983248914727815342852381933597288498944308070913585183069169991320937); (false, 5477992513560120794091624584356882757115879159076018145870596263255392560461, 6835038230836649041129843311500620796431096176830742705941271920348483012040); (false, 6455397486956186243939054146344199889966432884838984090389805380206955652528, 7039930457811067649673902465159767523690970682995390718697680416150800611408); (false, 6848222005804396403532409446759737605095915534899677084212128472147524458514, 5645917675513515478896491896805673757446698105415329748759467109354945772118); (false, 4404637533860566105224845558775561502567995599334282561130869252656244708216, 6776315972082996496340175452773963442869618238981245500410996383150051780300); (false, 6344952710459813663401061200246444799712370231571395486938305767254096773433, 4784498346523861356500353588357029728336905222471856861391858715160818914763); (false, 3163107197207370937930991316012012106014371812879058366484028739607151408778, 4361217650212848722569037915529088465155124838597941966462485170908909564727); (false, 2628189130059977259604009887393911648678018574174390891857497164229346540132, 5090056102835009019844514877008137113277824563772687693310110189925913393981); (false, 3580026414676122394183928986360043766884554686494593054927996580121262596083, 227396815405719726307642340825831039572788470745306523928840959560116752274); (false, 7145125301357622140591966255111047871363928676335560979025758388457046542, 3311227481411755661686655794442654976534142452219419120844711389927761641038); (false, 1515022659095161548900299684217948022186501425454672017185996982379240606138, 6017948102341605966222449087741595862266139983146683263060410333785619746962); (false, 5004238144559635885309856792530035627214407298699067711348595712045700619772, 6784969975362325110915850597444091200171356168159339713179362017887564274936); (false, 6361169281223376129754080860584115998493510754666201571212199917201126649041, 5235914857497286385831850575113627039878959066303084051095178639741267652547); (false, 3788141946557211057232979619043239968366074548177822530131911716997283382082, 649396332513218500543574328056481486767705355943565670769658882545902208111); (false, 58272111604074977346670768098860224042312863419570940591746295022589491978, 3203750950569865977825263413989989492829691449473068942606726992663540122079); (false, 1418268929545428020808796892624387889159162513634399091099428603123913991055, 6024473293013539979509879166593198570232139409848614682394132883951552378846); (false, 5015096101613392387313879377591511020302573455830953689339086832636222206622, 903762493064593465276469589444421811734708922725249386868393985629702442558); (false, 112862514080225007213758983391407509839427967941092271776062268741101388053, 5038801569111668581892234830961465457736391435301653445755125023933941548947); (false, 3508290961168695654617931500777477337422909145233684818696301782414245582550, 2901084670550627560751107433798296916867461085354494449071761621209378166859); (false, 1162952297848897753561006296451807016629854512007663636735016971565896589250, 5163316386418799127306362420515719783955892287169087990875515794646706657631); (false, 3683821412237788459395340409318992124758409751528627494865108078682334947363, 801679053654715595599176086362913140070049364209555133674472093135544840154); (false, 88805970674079735938139350135373028713269631928012987132793027312168982018, 2527106544734160346671529848292917923101391282423788522012798805426611027914); (false, 882446119489155019619427471450529950705933243102420410089804274243902482057, 4115028273789676276137754823479233519074461028408880619795407895900740187023); (false, 2339843117867339109358751222222393047407036896425305512903773409013182905290, 2774991396082907723563304118367568615157822848201642816560447811813141770719); (false, 1064055729410227555868913812154114098778045610653859872923133831392720518576, 4802947769841506627746524329116232691746185839077551683569956880907024905297); (false, 3187548639188564239291021907342051216725966550642248342513819099519254213907, 1654392169876241757967827305791037195957733675253372880758909168327146354186); (false, 378196952109680405488439724256051506715635609523665580363442045836367216054, 2360512569251797307066580412610128569404770369868557506201923185742053545190); (false, 769934405888589115162258549464431527665042676276394620316330391967670297713, 5654093843388139231176296626096271764126730183104386283788212698080317447943); (false, 4417403972987421051356363482232091307476451264533282013946035361398372730742, 1793712940137299701659334466329257271604359156042581919055305378676330727411); (false, 444576983841708039923907759923972463130844037138045986882061346158599622659, 1999258849202363690312241303707473942454030729292749507700673727029509203170); (false, 552305218422584814255837714583191643004819486592375678668581833631737114968, 3937677029153955925763807715669731076566333470761797474917854455586117345548); (false, 2142502202083746126790373097488306986624396283884547600603526589966585800559, 3030796489495847121575099210710718566347085566654760562117928854061352917453); (false, 1269271836615943992518934017810528121274611735274854711908701729216884331750, 1296727118465386674581327637950578847043798768012600615911462252048590406459); (false, 232347647351598085284573391833414518300859631034751207175070316754040126891, 136675057104026925736830340276351863128312430608104820284023016529906673482); (false, 2581187900821675684808705644622435981219048268706815161287293937230503851, 3590557691305450296932333198739207599948454890516968931953929528928676945685); (false, 1781414204650243104157023672078993588233493503831220870032655247404226229008, 5013866656166822929625398177645817344577670663832670478585948588233815630313); (false, 3473654756403860370369952276065119666506368480716566826755720694999671289471, 6063941872717738342464268490555204725393364189154959156978785731513377441150); (false, 5081022895833437830707779944264570939889238735731304010309058550568013315033, 4561337922418587014220864864158082618484769863401585380438786083197804504863); (false, 2874918834892406057122680400571829481164099436581489108246196541762950865787, 4022409813790765622358643002525431716533498153070041701085110212459439635426); (false, 2235701014347501144551491374302573737602074563853514356871945551567919400190, 5738791276211700196695032930573463670498227861141831918925134062017199913566); (false, 4550739247055229395527306011770540945540358252041714054040504422027234857372, 1576821451744277353777906453826111118872133909548495175322513104761365895448); (false, 343562798744928680226326157874145223528923566439678599129360147608850065128, 5763231549419467457229453942902837224864886132638133070154463182617758709112); (false, 4589583017078137945073885316075168951650370439264340345229000808732033787672, 2113179715659523647084026883209351097038403644276148593798459445173209820936); (false, 617040910492287966847360910780666291541838171429730324583858830052056465657, 4664589445957162846185028758443339771802290308725284581397964559427647131323); (false, 3006546625787682408267960222263959120535579887220906941085114509984065197069, 604896687342319865654410239608819116377470725345534211791138166117134579088); (false, 50559585514730526309468333045055157235061094560121531345488908613683552352, 1349327741689056282167937949047857107732533036106013632860439865213997635616); (false, 251579929714913647953866607325129006719690073408770390047581439344935923276, 2695305814247621705406359817066654382894962111800545373824000052288560579492); (false, 1003823108147302530705174551873390522180940744334328634643905535423179043149, 5878498742647980943044726250055191511888047617563341410405870531419344053703); (false, 4775006333496893297388294568409353766279116604947064423075045936215055400903, 5353596239867494319434398659407317871377259209595089301343881858159568769142); (false, 3960338622550643212623860077445943987021951095471274811298886453318305142551, 2699272742937149238076182943388817317777877650755075886176572849650313683225); (false, 1006780119609810597829075256124770821301930432436857407681664958636088446986, 5491000976391381730598124088057415827097718321166071349853135112520781831471); (false, 4166238563801900446761204423051479520121043807662739888967423843137916581605, 4555094810867386227372892730917739278752024965334339174650034776270475566496); (false, 2867054407278699166456624574815007264405049733773994256539717994792953592355, 3716585689011103498565366456309547669841787181570210684088513032598756128921); (false, 1908663609024597844698787339875401237475567677834140548365298299795744447157, 3112734776432989962555634119511870139882290373513408335273112745603847135968); (false, 1338829669934700050892845480995378192129845834615140146135348124917744138589, 6278898245724447578865135499102378136855295925630925790437981138288272982503); (false, 5447634765357526005473109885891474464039141980192716469631976701129507897750, 174964831033501327789167062032881038825479773330446602293992530788695770259); (false, 4230021902216946829437423743755255216776754758622144647176317622013226990, 5221759499469622561358071617093815613094059124477777653876984615756019933971); (false, 3767687060475148103976842769588609008462146942726786594409099442186938613407, 1643171063341245148086671817357975575892142005642835547278557116497781419318); (false, 373084021360846956223288192432147711484334075415174954807874646198949968024, 1893507714358118229195435350290342188485700321650104140562429681666123209388); (false, 495421956777786667018549766997104802908328842141657291216835599164656281751, 3794355272946009140577876564632940104208542330028573759993495114503836932805); (false, 1989376929931884829546856454419667748963025122325407879095441307773245061383, 586266673329763448275258970951685537681599285979218606492564693322491710238); (false, 47493208148645229379691690290545079405991123734819432938178754656191426063, 5773628544683968332506775502429672672657470217399578138295340208012715890337); (false, 4606157369340806584613763895433739512795140676705292238255420762098413272797, 2926385833074357836135739373960351477108957070479182516785079781418845927336); (false, 1183325610642282490843336503609556120120992117772879902602281040275346612052, 5078301719985989153348867604287517029256809531274035743511183436291371737468); (false, 3563510913959965262704127517259054092755368135625437338032052812729635611725, 5219758006287543812754313265118022342277298475498496234365483333260413804999); (false, 3764799315554267081882624116270822057826175125098769029647906944301981211295, 1520303490747869935228237090254882500987851861146607852613280359092025669246); (false, 319375559308628983155697962082615473687260046107089437207543726477497727710, 1200697656009093473978003255637454047951825835775530233269909221766670003326); (false, 199208753639950638420435835718056318846534885675814195114321985883514742448, 6077890308093419811098488486305037695544342295022000547803283659655766781204); (false, 5104424779348200040037676486045999342053117968617292633618365909056807499937, 3916093088720375213210376643563813981706237052444265342177994950580808001923); (false, 2119078797943476936188903322073701101054945468860107952904274823585017743193, 6609368818009231778209319308495775710651113640858197906565696118354603430052); (false, 6036164502801952199802136967430594362769365217300935457631900950011033107310, 2867083320775550404507374091242790170506008625711179843599325163386346093114); (false, 1135851932188162383121458795872507790055356116573102484390734182384235822092, 2557487986015732046390795822129712787210558008608183750613881736037039168008); (false, 903791592907115627561977526657093746325920868736150043114862348126510281746, 239502159355461752651170687171368239314532128709287644525566104513061541270); (false, 7926107520988504206730777653511049135406213355518906886834908121614028470, 7029377834924118161651725575212505184038502003004462006021199011689141556070); (false, 6827706876569385569883199367751530024958933265021382768877415751661754914807, 5777651029092684768918792594016609915912975785913296569745757593059263350777); (false, 4612577820657270722347264030870846536419913927735641281487108361590963444688, 5281529253197589591731240254948543950594945843533327500372380429025375707297); (false, 3854432742148653186004824637757889194356861904535781002705670995096575029319, 229117608023388194543032939011246619176069783728891003009839411327159299718); (false, 7253673877326188032161559302662706664948316392819412228616881873440862179, 3400263337827589751837938958039834490850334455779005350426853280479331434493); (false, 1597593181741941043220755343500328011110870376117980001866167804561082426800, 3294707410101899408861710264163503364765740125469082672296337731832730061849); (false, 1499943146676670184935008498744961287705370242488709964411428022657445866509, 6675158481851869024456830337590819033879935796853324859602138554898690071400); (false, 6156930553902381422914762610155927486919783357223050647992505083758239252055, 6194827431353048296434699430280066913625464639838264911640783190117493927605); (false, 5302730044100712108517502989217108554488927377259811470939161977346698063209, 2779519471025543971833181157400530365917218753226401085636021676386908272324); (false, 1067531095182327165696497720993927818696906233721263513275322696223842044918, 4901785170600030310207267223836026686734515213301920225970758540828760437074); (false, 3320088343440450045825756761238226744514279616272597511557210589627012710143, 1065494124639771462418168578394484582974212381611375329461155789634485600049); (false, 156871197280514472776279603596767705567258317462732490939645609002494291271, 5279631207024979636111789920061169261593373640826337087508618446027882985382); (false, 3851662871381573532341037996454240167816914668397061625233364405314108839732, 1006648077550984713180657050131269058832870355007884743443154882090922190976); (false, 140022049341937283012208358295545908362751529784108035526020792589181917415, 4521897602811648443428454193739825206056846860493328120785502985914535759141); (false, 2825416909219960025880796797012020217257692711451279682541226421409717536326, 2794423109620188500490658504104520347136597326935637761516159911608436131467); (false, 1079009879450428648654584439939912408840448126683122330644103138410297168063, 3909764884290748338534032657663562023671249735289292259534497580196990607782); (false, 2112235687410916670945605054302904976339289431275277014421481525688946125532, 1931248268365753333736857532558533744453485878739627763729407197811129808376); (false, 515367831931475040768056415954354812027150254955672514894509296672549910444, 4461818637230369236813191578795454658503258715691449423760409025575431328260); (false, 2750837392455731964840052843044144488425155985411964757765869503791866611288, 2460522624638185793747797906988269159548260376911710420286939523654222063768); (false, 836557540499796423405266095551284213250639024415798070437786383253582133457, 6381183279019772237478764772501738581443190937808862058220600625700486118851); (false, 5626567453254850051401070287785856585877929979429723999169022554707011444454, 3610949101229093389825561072062767585287701888203791068833140377669749495195); (false, 1801705591122906861964605961563647781682567574006683882043457801858247081610, 4141312058583009739579106052765494658052016233795135731232020130479621875735); (false, 2369828982899185248015565494918121864431027059699727244453043114990441239931, 3252197776791476477041552551652628412029260573590170708725927466439738748466); (false, 1461487111809893981783359087343299724023859942277389410295443544297397363843, 1316826441265737247606827515664071518314928413148486988069559722537341762429); (false, 239606265034245397954452989916436565021537011654581865425252670468738870628, 304752334069101649281068473201523012887809802065485162327596207758363928949); (false, 12833206238152570694228999947486413903172079375490499389598184071204306251, 5601146537701769101288776846658045618287968094537588725186752294893344612362); (false, 4335058499205042049362759876350671564986994313320304864553971399845718595230, 2626085790022234232850138573813823528977362949772857647324855792363125036574); (false, 952925419617937790101762517816463092915007320438860251349679939340070239684, 2775030876097027041615047031499193195603949065056931723943936587222913610000); (false, 1064086006429545394315043222928690967872501519177599420349644432992296272098, 5100257159183706229215089334335782924459993721664035483404757240320570395078); (false, 3594390361019113693466200928758649705252185197778983533762305758699992837422, 6496871582713998839374068436039225394745834481875820256164880038503146915726); (false, 5832431647487564677703582192953771905822507757304168759649137513752033262377, 5467726557670796714144020172396976471612284721592681975344572366945897366223); (false, 4130994979898709939610137291401495673104954749406001905721929497073883125022, 2295701645331855481892231607237782226642037552360982062722069380726527138971); (false, 728235730657282476806371796397220838478671962600511124393991513611055534482, 2000089611710161015208022833114889299973315082077228907571799240144374836143); (false, 552764318352996615715132760962257648134142702611490887895819140114522581704, 5340626186873345878356431788968822954284435214358008599722430357676223811193); (false, 3941172597303890622482402542517241483995439813434489978069389265719303679144, 284333590015813164928410001516181207391266916591960075635451505703611409833); (false, 11171138331647133502311251210497400467675368916099043978709852007578125133, 5956132822642793884530647383648478028216370279999705754503336961440458081352); (false, 4901960876205371316897491413634105695864029702242674389737346461463461343057, 3841839563262087987611863382675405896108780372051087756073376032593139614531); (false, 2039480427661440323138711856813373009164143598277519116380298299071336522586, 5192733042727783197411439637178374188835998808824055809903277308036755012407); (false, 3725916218372835489934028297384696002730442133873423967929123055573929237311, 182267987389002183830776996679131846668529110766288759506011978739186483070); (false, 4590520053058154879197853946252538247946124883174056940299432034883294539, 5883654767348131456829308458711588264878663725267287384844031128736477575829); (false, 4783386312395135020870605330269019672318431825134295305137436913956776093551, 7056929592589063046722350420976464130419380011782753640540668979178346765302); (false, 6881334378232831913248478618206235428793286754850668119838972434323625879663, 3892664850987322762817638910543859297949601037144316263690907809828758414497); (false, 2093799635801560917771467374599641500453035779492095580363000365990190896296, 4769198355059561213418962719079810354882345975046607184411986474280005326265); (false, 3142909412857918883332269870547636673448531741128950517342155548214835371160, 5078024576175201683193588698867252846113301830106001236940206944347486772985); (true, 7126243947360563402375389438501879860939517809124803545351329355430378704093, 1580293041063162259917089660055755398309164336307740180055844211574068022473); (false, 345077265582712608755432515067601426110098091761112356106779945722802183047, 955205760628093481865558375264795038397723528857385921886082566165374252246); (true, 252153472976439047503385772241241105976649038370675743276223760522443941827, 5207373647105742968634072601019226205590940191611515047285833091880298872129); (false, 3746955838407307484505956270406943960236505786185036557583176745305880161615, 1893138407674244076355239040401604928963364335206234330584057648385399405406); (false, 495228723028359574635543427561469583691821819958121386473865173979297142080, 2733167024590211784586860171756170011652924141605559082778682538183628507716); (true, 2064445551266525637284551620045034900047709678703148836223929592927417760798, 5423193274027318762954841512120527366547040193415331498445273249521486144090); (true, 8127954296339446608176858920670911598118720962865843227494897349340438066782, 5501147924828808360343444428779922211177871481621975445093627557313512308802); (false, 4181650569074710011424700486321793861597438795871318981300503915476507406033, 553688661633331478102101546935283293314176915945030279092285629499291858567); (true, 84723199601103382878583682329206003514036813424138356052214449856503918398, 3947849666599548225238362908503983221486589655994982172180672754133595791356); (true, 4307172855825093330131879358765379850901658643061735528157915677786407393033, 5846042278340009811254537785627806321418348058058825373599125774624616677835); (true, 9444848412770476886711161107522128202325926974083263463195078436785850373804, 6230719236004948258442176781729522317850733017262634300725734419617873882294); (true, 10728708658044941525467366986325357992228884768407829808027133588088742854516, 6472254392455181733085885093146811442611529352221228811558297979628957288548); (false, 5788316241162426126038094172268646007650906769705341891109745581449072602556, 4972692615439147507191931893241139162486692534973765706941049262348265020420); (true, 6833674945641884054473148816785497088808280102243923567066079740019489977610, 2041751969867213642359726110096426578165771175914570255450911055831103596510); (true, 1152065191027074268595461601410067751656223697725913952359403358078785342042, 6759637357601126872025250910227011823830946991823493966996281204202486580662); (true, 12627514713929568047456992637192584315309745563240181607442635142608514082050, 884547077836214565699244777178794886324064887205787589194489042535625069038); (true, 216228528373473144992899200415828968293004614272900643805331441642632255764, 3134346622838530361916510633983509318423999486359528224541494536440434540292); (true, 2714970617922534571827784680799559793486473033077877179805952090028626458085, 3850339921203772179607652946091133672418695974847292977100451721329064594463); (false, 2048515418483396076648218623922288477890702455293952291061185411211043046895, 3157435952628978242768936864919611556608889953704388680708855108250023129214); (false, 1377558948714950334175465765182751530151749828742252606536811150799370252276, 2687883697291952272797981227466528060477365346882018260275216501626987756832); (true, 1996604449994375680803732756161385372328631356771395265557235376843222263323, 7082787551485719860928746024825626570827483468978847186476820330330034176001); (true, 13863711714306416927530950047601043375137874035237993737092836413184389163492, 3193392184209565243814953181539069708636470587954101149244827469220965010414); (true, 2818224618787672685984805435978392277471976674335709526904582612471332474851, 530392442541637691314172746489936689721990350535215334026198237134372525153); (false, 38871898066020901303410422871957081306020265386340569615844662380983659817, 5574528793250009192804003009360052217654227394835758574696151721883905864396); (true, 8587908613503804398685659451107609912411854285755652826113831422731054760040, 1495727365775818826318631124057752504360525470261612403502873454118553210072); (true, 618266858806362024045511585345393626775485788315068425103181220481330885915, 6197173980287781884934738404973057329933581914585556479352229622013389570433); (true, 10613496129462130814539561918038347149555760755479794889631365785747371521592, 4777432166513576597824888300636429019917335032690646012601383929206934760490); (true, 6307541941691314893243490662318159649055364322524637283782950168626957434170, 2627656740168259515306046868835624961921472156444189909420518653124705186070); (false, 954065859197096493311350662418292192615806600660501933438854785311305134099, 2801638986382227672411203363433216729126127634558508231407069742493073670989); (true, 2169179207102459291176084076793593541915330592980809801842168446019952525061, 2206951799943595462124128340837534949126409369877764208650665988510233940913); (false, 673018169632212969639163024459880533043097753709639194291762976941569007984, 1376444714886662316086318566283234146483316640738968642445460363082294377393); (true, 523586732908894943471325809688644954702864167655849174614016553133832267088, 1981715439579776907106002721872760628918216382891460003770084716238182802866); (false, 542654837211902388959030124483145335613993145046831063358957089311738537989, 1203829031149478169323776252730047583318520861189858187525154124047900492835); (false, 200249166696442363265970586544264097940452062029566471981183175501361482978, 1238213006080193961691924083892168051090475512032934898532050256616623171983); (false, 211851632839464392772094768258106436530881383296404650328133610497372242218, 5822411392818364804708567947331826824281379045444829492066529883317722098687); (true, 9368646760036804412967633836730153720924365058936374504958612027628192582245, 1797132587355788762794210064175665606078571498218533384864734917551279157633); (false, 446273738775623970761337091787227857759547986951757001237713417745929257994, 1902926569113290775248452990794226125136355091339862986681257146092251506623); (true, 1000725918680890940216552054603324884924361660049864425226149480299258628036, 4552014613743797165647556710065848418399285606360035913121211774414689600654); (true, 5726356521995468666978353032911096593946686406617831957304611207481503325200, 6936071208341841115751944758628483004912155660659709488680088198469105832632); (true, 13295301017281469708545790065966550441931792195982241730084478881790726202406, 4296220501720720347159806816146849364077268949167056920236896980542852415314); (true, 5100869524605045074352917608092710671578902052686995710162622186659137887224, 4749496780322544218971053294691970522992977508420200631344326542488210972656); (false, 3116996308106970215845590076866841312060289413821465369537120054492882793895, 3392041359446561654433209740290403250075186171501844142951379253054692782181); (true, 3179752858070188612017497504042512084609293677724713023858827299535267723947, 1991287500317204557879764018426410253542930157208455547821455802518918499939); (true, 1095819497870615289138910608298316862135990128689379224771320140643955737408, 2908060107073058343156523376471302800667891029155476707987793614014077710930); (true, 2337102962263338892319023250391030928391630329960184663642881763592060541857, 1611442107616133305180505300630401103598676662604568106895943981125864783227); (true, 717629864575992189692592411046818169884704859209948748432435040322612306745, 561785107766282267124350221934850767845759347733482700899728309831913446253); (false, 43609543192353349912728584070333082781320249216416258104834423552650389900, 510866476475516707188239027020197770660381280252133293772010755859809128909); (false, 36062505962958643318204719200937865289850778755198753821284380483246339322, 3319345756124996893666398509492435524066286803152308767576413054915731440823); (true, 3044921309226502812528161395612313839227637592411801312422304352055730383008, 2434094561149620517540609908992374534068138298291108992122616820656369039746); (true, 1637366800206943142412371274554457431774184719174295386135157437870901740420, 992598895135580634676491630728017512653320992845804823391070404564649213652); (true, 272281831510640804709649548877258289447837847289915764758394317712444534602, 3830067683636686637844387461306177056227300506943154985970383402623283132830); (false, 2027001126983461828391945561466319207949333186498938449058584284748971883625, 6081583489709940680852525411189232291294980465568682535628783812384574653775); (false, 5110629990138319183426983725887921106065042512267901794645106273387825408709, 3085614266937730082158407960271907042531395538482476670904360329630729287424); (true, 2631203003118133627934205711515286343973024964791768384696216833911627410312, 1801950294516489668407367578492156267592765631461756399659787928119874312984); (true, 897339328873364464974671634583641450015984591601504720443419148148810359767, 4346725512431521531271930773285725116455207100141124352624931830079376408949); (false, 2610751432830575997619445966957210491225610658653671049679895135276824920283, 7169223645289952417753603075189686821034748360537896302116543394165488374714); (true, 14204153120227670594755346387905865709843221813858501001523535682614875980091, 912017434422466102481566033342653570828423407776410796935134390958868103593); (false, 114933696236993950471995065112725229699201225861483063504225812751157007977, 717351126503581048920165496326933736356707165666368435191845046823346370396); (true, 142211480479651146336429231134471317978748901910354029454695608644908097033, 5968345450979043450346967377363125181111334832185931820284043091238102177995); (true, 9844167464453736210569364619556343951400433039936662249678518957641512761397, 5795848043970859527678608652995287729029738097870841857423840848459616168417); (false, 4641678687386561343777072983215178119263328320262248395006721141319866691455, 3884139027733210185210308045201311325389199429412382272443617437707516686894); (false, 2084637883106558910684496544873192597853685690073899903007433019471901270147, 6097438884853476462517098477054110921478368914508083110759126301892800441853); (true, 10274625480730445950851051683979706349911128270415596692092404416628093208739, 1376276257821079373714028352306889371607538092661293067200469899955193954347); (false, 261729290878924438106067528078841906307031281883557993741395504831826128689, 6898172159113124345204085259493237564858854545331592183870174071060700672988); (true, 13150405545024974427397492049334921566212093254452848615375235640246228384740, 6799786302629167091566677128555339797413336570672232510667046776204208188428); (true, 12777962727083420528175335952554724355360559543047207735433099916392571414570, 4902572217889344587349127677600031200881142612931862035555238264319554712638); (false, 3321154598374707462318437608720696850787097086925182372975648570955914873570, 123961067800272643033081254742015507512672682481138528077366598985774458314); (false, 2123301711734786763912975141788298515979670242635090354002496563318389636, 4053581382690177668180243737536488544107537881337940842687498114386083372592); (false, 2270486301345296836878585829345854484375286321844726652256030107132645265886, 1924369375893898865565515805506061472914301791977163188659171656288213337210); (false, 511703004137156305417996270916492166563775036174553944258292265510840628721, 3071921769744303537658284684317210900987504138984096458906547836422274529031); (false, 1303951373063273800981209312782560116913861698713584368052892117300511609838, 6089254402540305892640717039443072924358280949657688529946233443547968169179); (false, 5123530551778949122423295587407871560929073510654679756477586856126778997361, 1662602277539411405464082222122501216865362446578588724157942092564502894012); (true, 763919912384040748273755078616141642346237110590913265628550277554692051336, 694689474370770106006920010219975779510636213006608280013215947176794140984); (false, 66684136227988461204858962626216572959061732580926224743526006951176397582, 43770926721728239072652872974658773378672335681490253730414002085387779658); (false, 264735739886654715916059960546671996302629674644532695774424660553333841, 6756767847804747046451866231415486318049515203022496036281260203053637178215); (true, 12616796066076031724863953829797977658158869924859557555640638030204242187803, 3553620423792709049080343126736369204612883761653901072737882730075304685283); (false, 1744950723259183122177357925329542688238741171039601873475542026070772306777, 2746226427639903965500726969148817445009574095009498767029794443779413137636); (false, 1042110512597933672269345094716121225765480538148000215833736282334930425516, 3486194560665547504159461172094694679978072289850852015212421960497445833172); (true, 3358724097956035394342090659053090797466596439698688480089509398454026856991, 4951432744198904398793865037131621515654467181607021513327243789114787849069); (true, 6775367507554842868955726492991103813327697701871265296325664968735425043707, 5806611360608618787702038315899136520328878660629254682704724823840775357299); (false, 4658934573541933200774887048370060818527328270047948881250152158703956704434, 1955077017484268559525339271864205087123717718258311959347790448368787390175); (false, 528164045674839196775837058964605716431510406570469546739057264413816729641, 6463140795414429342383265909388786123819431886350942003314503991698516665676); (false, 5772026633804048546405650502167982550796852884365293799763050850945138841854, 1479537244890886228919412082582275867641550717039842674242308175072262443370); (true, 604954752522449920390957627374259516240424904637346690205308001986860219661, 1263655743402866481673364263522261451265245349538557618113620602434147419071); (true, 441294626837549104394187694700415279984638606835790037012064542605554876107, 2430109816955760634662631062975901630523196009493066908465181944160611786259); (false, 816005136290311965279319651650910434288646144492422698848599475556187115904, 494628165741899640760429894160074187989422236625897882267235570198251586025); (false, 33806388530569948999472969566113526286564077763275345286137652258021406893, 6052514108774584372752491858618533392672298836043985993308048955658658633448); (false, 5061890120916446342815476454643115019922328803584137529645769911696455702727, 2664993804721090504134628959291139445207398291211286539288848221633394621701); (true, 1962743265376848321971793333152232135056696455201882225385299704321308778676, 4822391389150963490461978358768046037142085164738228645209907186357845156238); (true, 6426817959902662380346345210371813805143603787064033666917128256736275254222, 3047515480545654080433531206061630050900256110532498209279910122320690699730); (false, 1283314003965291149285808950439972273032714504855855327878885903202500596953, 6018559235875097359462957098336396748785666610128006780143002804273031436383); (true, 10010509150136690256082127123717984109408822799127599016683125091679080225971, 5219831577851960302440495760352835731497099455646357995819589171735682010059); (false, 3764905444661031479172203694403656979167065126708938804194192067945929491539, 3446542091621591397503457352259217819549523351667932555092549761779719301410); (false, 1641376707864594015672902632839896326749105939399257895666961296211951486544, 1727502720758804117469086107606774002455200068237445416036762157875795796084); (true, 824723877393816871896591877190736181121752481688828188219827984037602140460, 942835553003919147822645441240493047791652572678472865776207132222147555172); (false, 122832416046843881312366268510369422497295368486195182099875161781444074146, 1379707508136547870728817729609833074639618714266027059235743624757774119190); (true, 526071947207224155484837764181478117734775643702026214548753297269883201854, 12778846517448583150798841628060426901408587698670099500202643613986378594); (true, 45128863470270743916598101786194757794472098841630505748451875594183680, 1111532944336713283572098238790205011288902183378923698313900214250115174152); (true, 341441076186452403199917873108004518867939600581341259097924052572165982291, 6227029157829731089101063734157038736991636263006501338001536491907734602409); (false, 5358002245281589939805744272044598056522800032165538054441582921088238052971, 423421087503523213938594704849237819191358929481380610597299062060797464962); (false, 24773425338267497269080807348688559912889414888670886546215884906895403194, 2264059006443796989497270620939238819844812241744320404749109741695189402578); (true, 1416597826237638178617990898910312884641406713404240934800581724240984282952, 4088438017694024628351077744522657256642045815327751777471738103328704252640); (true, 4619403770222745809578421271396784307084577234138521738369976367934939659913, 3548361097479815105628895177721732008290263132790186227068113389866090035243); (true, 3479579045108173087083440637233528966406194809057722433624062637924062460018, 6973549450278852517685352451705448320247687712918285470889220133951014680296); (true, 13439368372964786786082676354258437008078575716378700293320697142174521489300, 6981817373162516824204766496431034999523637105917883583871403901389903377532); (false, 6735627506613423768328207340092283028263934492348306977397830147896632233521, 6024126807776609759032675225498239559476948236478786088868507761530129208755); (true, 10029038504499876058827718311801507959449745850405164195517905261909396827461, 529607876451237680556446252570451716875549584831812197718694388752115691121); (false, 38756983092250552556924596288100256027801126768388047384381946326754662878, 2057656277952285964668922623260819595598476190912137688602639019416785150299); (true, 1170083209955792990090294620026114556085334903973378324248967698421635421291, 523764727436431042296757862198216038934087168592575414301592088466171172003); (true, 75812982807644451226172154879312211338368715079785400511607704948755764218, 3148459619161213899213264887049304708927631529608861324318450482955744752416); (true, 2739475012852726463490372227546113315514114739691362956648509467698513537831, 6232630776600959428860010961175970328327513062226800230656314501217655009253); (false, 5367646325865200115650638284725490853820954516455919424212062079922671027280, 3415521438468207159150713937769451634503847535668334831324756786459929638089); (true, 3223926407677642324491220398024371313047274299482007660012679723510736698063, 648224240994021814394302594781123650450843440206774939027241062188327009535); (false, 58061951469045258524015422016540099069088898489234847151027529334013000049, 1935888718308138893846486140149975227483450954720608955452611967819865617764); (false, 517847483966457027496171379611095975093138551595522815913979512162029227379, 3873001265330890846632359068171634851271984639792962026539994157746535731865); (true, 4145399265198328253671532420848563785361912699129838875982375824731474105355, 4640279811868840667358036902964992324008246033071110498328893334461953810355); (true, 5950581770969097209627333688168772446557071006867915917907361862529509569495, 2043258341788969847463852649565706682156008251399586885604764703303542471495); (true, 1153765768639681771114698330081050750334129183931000439433436853033091097815, 917624786484374621477429587240086343758827444304150995735335314401215581015); (true, 232702666806811819969220788656250815199588678237737413909882739943222478185, 6058068606829362359372853385524432391365011749673199850920807311120489685485); (true, 10142370308516479998975020649918504612527052524683526778125003698304823455448, 5695245539383507570080751804507743623619794040431210544766733251760787932378); (false, 4481939582230414648195234463942290385899500617864257846000284064835647828334, 4175108886707338195638130053205679194111973649648163554496038292325879012558); (true, 4817333365186732408635348848956335158470017293895391873159204745205594973164, 1517324550730149047136726081747285395831783494694165768749415686921067947532); (true, 636250384954690955468714319183014362220978758881328021278319197846137662716, 4202356475871964119699734399548423449193549369991576068503119564443318355924); (false, 2440208144321047936363710874419881381971939898365900573560926586293457786292, 7237005577332262213973186563042994240857116359379907606001950938285454250988)]
    [(true, 0, 2); (false, 0, 4); (true, 0, 32); (false, 0, 1024); (false, 0, 1048576); (false, 0, 1099511627776); (false, 0, 1208925819614629174706176);
     (true, 0, 2923003274661805836407369665432566039311865085952);
     (false, 1180591620717411303423, 7237005577332262181220838655797515680085442238763285995306520868193670910957);
     (false, 7237005577332262148468490748552037267540307668870186080822129444820427749816, 2611804832130676291319858385883126619435344693425115756700986764597260087825); (true, 1885178727098820731891406126137868713026169488819676955566191267336752566880, 4017485412355440310094926674946908467883027725932059148200319967099897816930); (true, 4460460577519254000154614908083969709135982838162369233541486552158999531085, 5954349536862333263040815575697029833042237835187423801778513183288691756735); (true, 9798051978343783278418794006374323176637583106976849570273957790464117555225, 105557589556938751428501072189621482849841474754364338700376375882617352925); (true, 3079285926757157112348630337259153364883490458613189682035007588027015500, 4827596321863700739405003279911731563091213775333425362972648674818418781750); (true, 6440698711044238196006083390196071763307329586897214006752892749035185770768, 3811983215330863293229707139288980898569062990183842372811515657258174835448); (true, 4015808991353794025805456034107131254746509694422359031679193343094062079076, 937781808683861718277875613979453994729442522256439566052168817096085515244); (false, 121519143698457150148402787929160464601486360567607496437357575251095675679, 1110076267799312249603094516958336734885867779746383368477762331179147383005); (true, 340546737780875140957277988865173993670081434194262030407868215121144036916, 3602452038933096886909846666721965718006048048612489491542586132439780150126); (false, 1793236243103340414126070225649795135369080081690096111000907629793505025084, 7125774810740666022623121613736269223021558917840936527390279244486221007800); (true, 14032507260303563176004557654754349381931955484871945272408933305027973617221, 4177646349082429697640394332056893210165526240831812219179769757821774998431); (true, 4823190705467234999394338508689652519680349197135289616417099307638095650067, 4817605178043158475489090468488951008977997557101018685879807842325572257259); (true, 6414067089903716018112317678896853725554108106941448719186333943699451337391, 2589870763790148150344111952240530229032624834247000605612789702238721956463); (true, 1853648032037993482985491965454657361362492081754614428946638017561741160485, 5970438957854705944380525230652300172709531223543142182298385140107615971073); (false, 4925537360523802348250306482711578556825987725710529495005551291821681464755, 1175903960616180080889157288408106529894096820106321245821673607801845378634); (false, 191066610328982834746374093136655894302694606187925785179162474035355085257, 3726150025039699938929026044735931681432159900307483822495469680013652136783); (false, 1918499835427985255930231457452197729189608629537182893618618577797591965733, 3235137147955153393239389755332453315147462078442311316029612338584072229152); (true, 2892387536320642112384223017198930762765384037206581019311523439023816467732, 5878319334376293248365392831773361611459433206296518087545571492531049691260); (true, 9549429754520055131960380765470724592281089484241121278983265241186029103870, 1425425448580836209558132689396693829236221266173985235335486938316909547770); (true, 561513373936313409693424753723187194364686415050592243573510094344263366101, 2120568748155080600683797443334754342602943838034801786544658958258975621911); (false, 621363596808176124213104158369480103882669841277557863243014924301439452903, 499520584794519990120309964324635657320633152822213309979224123229416620854); (true, 68956922021728972828328363664171338397364267948926361589243183935354392276, 1139369185415425288430273286321748804376940360587482645792315684719108417668); (false, 179378352939275221605994312316747492950830748011258065255282512451272883394, 1437977444237429928769915285643319893610097778392045018724035324094128381558); (true, 571446051281846603771694712682937300422978772230449701382281028804101617363, 6561688620917912004004213372806927110841566994450828736734825508058226692721); (true, 11898776945189261090664321418729136075871170743325382929581037304752511823372, 4514471880770372973505872640590308294196817521165128112794289069430584452774); (true, 5632289803976943961003106586660494670250894835453614188121963895087236493936, 1500444802511618633933524210771063245765362910351225142911069406962752087448); (true, 622172964032460344418415123350700241480958333980622394602105529853754808361, 3657020186905155123499389687557573367730793822000684892768077175016388586379); (true, 3695947586200900850613370982578036464257833004624288601982471008508127944300, 4850344185767635225107706174644929111293116540133812628948506768267076750582); (false, 3250769737430837463636531989155289931974283705300339131187315501167882311420, 6180783840200222662920904053383527818540706043311650923895756743741696344344); (false, 5278714859490606982664642978658975420830951120585002706238739648488892265624, 3396120435908219389213880617461848588781281634402929565603447715239268088200); (false, 1593702518527699478232578782661590362687633959821591661271486741547990292101, 965619591279968602344434368338918612134160240133832769149408062948701102111); (true, 257681491357204934276811710440032937427474894157729522812167972095556148292, 5691392155944435834310625158151162189980992221094897088113506879165425651854); (true, 8951753408676055997249742015017472750534029412580808247230242563557375461704, 5063884045141117366391025700369213326700675086619040055119989147278253649376); (true, 7086610988100792908111708729376358179334039848684525348466282375138274195489, 3376028641225745103548801789062941928330568491187553995036581408704832790131); (false, 1574901285426116034546009205495524138297729754386896180622023468516931474427, 435843798335572085711041021712287037888841710763420579974071716651598038858); (false, 26248399910395354020782229867858275012688375227454362187330713354291711956, 1623984475907613967740195506245056013989799347608068708149069746581161819680); (true, 728844423237576256126949266331969567460901013472727112701637209028715266716, 6977111591715565755810367626184354019123682152056362475559002166172528822676); (true, 13453101740235604313388195151429361920676624341092816557807713326292334072381, 6178583140845116446978992620247260732628621170336415772673227709850836767143); (true, 10549913004877828170252860095092308461713259234945751830982325708631525309849, 2182689126414920216193923106936800717679195421568139464842972315160769074237); (true, 1316603054028902219659709382626905223888959408990419198957791577584368525680, 2885453622033188444158597956786647803795336188906141635904697789513422366818); (false, 1150454081586262386348676895878636628212008360850242589283252171461166809912, 5145745539838177555133627103053671229471831670527412798134386673580446442156); (false, 3658791868794606438832004976534700331706402582304141592319406032491091711080, 4743142618867068972568744494122800357280383972099262530237870946310861670216); (true, 6217323356328337041474674632160684886678389410970444914180808830070529621421, 1107554376125822989571401554581261258080092292287160240413477339692998137943); (true, 339001174717249313788311203890265002053550575734873993698767649857855571593, 5975209018297670150835835507217814336139647884744445701348654352110231987021); (false, 4933410984810495884900883310532892374241443273171199011340747346120503123476, 5573444365848962473729431320998493393986545539782570542083647210921350336677); (false, 4292283841332098468300782335984846195238332294480339033367574273681282083519, 1196503838460363647830489001845405599061731334861857675097421552679765052038); (false, 197819584378172438452565870086241223158391154858942676408286465143828491188, 6274767538492446986828372664311936975920639425811260434366619472276321168512); (true, 10880938874896461823792144563861036454692211580182722863094047534308246662354, 3675016020712552690134451074537405002577983476101811972594219691553947020182); (true, 3732411867913047426365924351795883464567737315011569410738064252025153782146, 4833793800694891698927235503984320150792955043680670202360665167007319583854); (true, 6457245958417372366001194853950713863080161269408558127184201731024032053401, 5655530478811257262365822935562061499230730542274391948860453187281369923043); (false, 4419649073775282851911850544639413680037464361129072120896031457692106535651, 267123692686847191988093182870624308622236491355678879225205325375911871010); (true, 19719500401700784144134281928461317407200834184903825093541068967894846531, 1845361661838516135180268783192527985744959146440731445237671749858046871041); (true, 941096321287818900916587196138551209470776194697025396617675943601202862807, 2260527335106983930074679913577278208385982821465748678292415154486257781239); (true, 1412181814194358494587100763122910805962330748314243723759779138386028156934, 2783269685281434627935444849556554892494832325639038663211292882691244042516); (false, 1070413730959455653525368758291795756660876345783129608640980765195155138145, 6725323525365839703718628360323971980066436962981005526849248157025817734851); (true, 12499638431261810698812452328435659214846438316199187987049242515812781088223, 4704802044303763536159546903309631354190630547693465205991772027952285981855); (true, 6117215757140382461339898880205785178930257707744760560318235920017045222249, 2763690157806818824802035988750538821474694446523544853706487223053445427789); (false, 1055406577588106149488332422191575682362953718313826929550497532631790678098, 5738153914782625623838146529072198090198883432736635298604143775252216289599); (true, 9099456950224613351501343530496318703265865408458829757398389044504788529671, 3912892250095155041810666317385178645293238720956130669721420819099363566983); (false, 2115616133945088716176048083183160267073797868878887239833124768577836567285, 3264312685169514244821452160846305435510914073744642814471393207190551427424); (false, 1472395895331971042961989665402837039929198251734146586546987691000124761101, 6591681757659379865112286601113410276962543706833737456148011305685421296887); (false, 6003901465870679390730458512419635627139022350360233728578549963586878628690, 743511002384845381334909495207431841448404784873648202372095295101599616359); (false, 76386373446888563696907795802901235523895681745275726694886109721522686771, 3497422166423102048698901595977028881009387895649021247599372731509316450362); (false, 1690196543236141280905447628689239788262711520194952425797987134721873849448, 2909471083522110165711060240657929524451861520969684902813887100622618826972); (true, 2339371414156554099651294029161741178640034064068312991046030419168419693750, 3572580424592613849087134433433762548260023354990695903963662777775534758818); (false, 1763620430272933119788907965765088727970825150503388170313453066208922855059, 1731694890804388718101801884318231082875256957448040938735802585543174353773); (false, 414365743233742665779160911601057711009836395510202707265620284724117782459, 1063930095449879844393366599576955776084541343883679968111228369066671733578); (false, 156410995667804080878366343374135399268399252916009773516485698474564425901, 7025378486590662371498458191466820183502228385479041901486335420701066215995); (true, 13639879740992190010645851345888025210069091738539037970497213810322516157056, 1348556146240331667086051196855715518507523956390952278528765356824820351666); (true, 502584573171755586175636180031254532439713387086661635273847157707658612378, 3042255317122063440595711132825626834027267886944608041706199439570743809270); (true, 2557775399136614685756650177231176436260143753001454680005760522664008024564, 1348252109991741172735449851352185443159453945778082134498579167458142572004); (false, 251178990077172473357949892755059379440916442029337427493208113508133250603, 6453769709553246824009667300669756849432575763343591304051511793955126979649); (true, 11510601454946130659393985327075359750414287165349648193709161026119188815264, 4604270491351603442866954559541718158172924404873643674795870801391110030306); (false, 2929292582547065039428247276158744096043704361985568080709066210623969999095, 796341523453050335404220276658866817922914186199357311139774486690005598681); (false, 87627377815189135763551196719921277597252160498296968966491051925211186307, 6194617715409362199404257189122770961122006463841266473352560544216410932138); (false, 5302371019342069018214281194594999684423831177585825109857029367229435994749, 1958832464138357784733598358479952567123214779175085325295519136846109194283); (true, 1060390124495875306015556980744839596331180510761281374897278720456210295189, 3946464569676863857950075319426219063668413244333104059403475783808294576257); (true, 4304151056204095792070075949264881222076404282730890029562719515141449874345, 6532189792343843294611617672391353646514095233007271760914677058326234282893); (false, 5896016387889827810156885668389368292044113528660142563938624360774503829329, 6869235043837095817381338677346472732152352974841671659348381791487966993068); (true, 13040307785661176347061474003540761065321876473125413556810106556484710960363, 3691870950161008658652252554906113387575407324212104503671413285072087556241); (false, 1883363356155802282691409421920283036301105847505899145632917045284290179410, 2958322708905941519728065555336946935595792168180216859144904822789358113591); (false, 1209294805221729489259258784278661786725633062622095712627083604501905116778, 3842146550872381237203513431230549047196706059773248818115231798531491921839); (true, 4079612751610509098788772396336034160423649206727600726528458891600480105355, 7019635331666654028133891614922621875771510745484690196827807151320037337747); (false, 6808794005067893418001365792221646053845783182317500270155761809772783997243, 1332918924517356882699493142856174374310993703967087778967135001901345012682); (false, 245498340487866880215618429837366470631266417091779108350769242608455356508, 6374188420617293976168651343404034082532951537575058732434544356478634246712); (false, 5614238870948737033508195673741085500858327650494163497212370002494426763410, 2856007608584746157073667060264289817653332707176298642580825093446621298454); (true, 2254186313146590005311853013043737433384862678416060796308844812876313550296, 3226068417891948299204455340991129141456912027334892355609068506217826337488); (true, 2876194394410381150508890941726559727901239054776095394182853468771250503748, 2768625750172722694288732356310649089557468140019638981849507970597871093516); (false, 1059179582302475562269853740525530299192733803870415800758982067796915118219, 5870908681857710792663355422604293191594190733516577120405727644002584573665); (false, 4762683734647311768470264414843641555356801115116255477675990479296423951281, 43340748415225003893213662881322179775429115183868834776408243912129465316); (true, 519115386362396739297477638155513070313992154357650858724313797176979999, 1217925815792693538171927343726237615542613503879357150038879797016514990701); (false, 204966443223482328464602730190048245463009713519627649140264438131951466846, 69124628901190054606737025558685767785245782699553476921542446429320260707); (true, 1320494856517329474994531784831322442856278673047879388745551819040063036, 3490019556828185374794009938742705143051500224985716324468754364128170937094); (false, 1683049208251838519838532484307973073636472740648728926789370215163127538291, 3099254869956675443167523301600884608033458798877158734277036696017283045037); (true, 2654517989881375270444887583620497943927314100240602025434359368794372299891, 14174788217718845098876324885237656234077953282388351819005717707249320539); (false, 27763502303565549735555363852485162495366731108471674319496440843172763, 132519813397325631271586313887749444914019736835409931230203406200676637914); (true, 4853250631136201477731363276670582356694521643197931199935271164776433530, 6469539990136696692195297335980482989915450267966377404966348771988429281622); (false, 5783462129015891955269966291299480499029544717905330632872867950894482422534, 5129451927560834399831211981051166362445360162975388049316268502513801564758); (false, 3635657979810006127563023890795605377791458167194151074125861847802556028610, 5457226314789839271281202031632734691260975151199518578614870093195262803274); (true, 8230287715713717791909582339169995180231836778814793407235244644073753572734, 4237384754090503099216940166079123036783892202138438950425714342294947304226); (false, 2481057857746939199964201523464926043590231971919656365295098640739305944251, 3007451707067829586002618916901521083425011859863474962108993888300001844837); (false, 1249793947744797067928801553195984031559706199141510056794080934292803457998, 3563261994466887876552575845726691709939174004975931541978581777795212096547); (false, 1754432258692898357239585418871764500034893269313110597920198388853503020434, 3233177761479467822872886232408611582284494554515571783939188293838617613983); (true, 2888885002401442494253691067498378601972967660612107312190248928334413468972, 365979940237149356608087986514861648705115591459065704776577207044542435270); (false, 18507836594118180807166378055642526409990205611621147499734710271072611193, 3743276341021084130220847770418178715050142664038367499324203904051907253023); (false, 1936176173352267343520497200905905078743049758970125478992980689367857384192, 2975531125133123119648879457563281269120703404158613135195788908093573672641)]
    2233364593245673852815932892735013076939656528578070433728021143254617821614 (-918259049265850385831298250211759012539362291049224222049079815310237912731));
  [vm_compute; reflexivity|exact prime_l138|vm_compute; reflexivity|vm_compute; reflexivity|vm_compute; discriminate|vm_compute; reflexivity|vm_compute; reflexivity|vm_compute; reflexivity|
   vm_compute; reflexivity|vm_compute; reflexivity].
Qed.

Lemma l_prime : prime l25519.
Proof. change l25519 with 7237005577332262213973186563042994240857116359379907606001950938285454250989. exact prime_l253. Qed.

(** ** Checking a chain of doublings and additions *)

(** A doubling to [(x, y)] or an addition of the base point, with reduced intermediate values and quotients. *)
Inductive step : Set :=
| Dbl (x y s ks k1 k2 : Z)
| Plus (x y m km n kn w kw k1 k2 : Z).
Definition times_p (k : Z) : Z := Z.shiftl k 255 - 19 * k.
Definition check (p : Z * Z) (c : step) : bool :=
  let (x, y) := p in
  match c with
  | Dbl x3 y3 s ks k1 k2 =>
      let xx := x * x in let yy := y * y in
      (xx + yy =? s + times_p ks) && (x3 * s =? 2 * (x * y) + times_p k1) && (y3 * (2 - s) =? yy - xx + times_p k2)
  | Plus x3 y3 m km n kn w kw k1 k2 =>
      (x * base_x =? m + times_p km) && (y * base_y =? n + times_p kn) && (m * n =? w + times_p kw) &&
      (x3 * (121666 + 121665 * w) =? 121666 * (x * base_y + y * base_x) + times_p k1) &&
      (y3 * (121666 - 121665 * w) =? 121666 * (n - m) + times_p k2)
  end.
Definition target (c : step) : Z * Z := match c with Dbl x y _ _ _ _ | Plus x y _ _ _ _ _ _ _ _ => (x, y) end.
Fixpoint chain (p : Z * Z) (k : Z) (l : list step) : option (Z * Z * Z) :=
  match l with
  | [] => Some (p, k)
  | c :: r => if check p c then chain (target c) (match c with Dbl _ _ _ _ _ _ => 2 * k | _ => k + 1 end) r else None
  end.

Lemma times_p_cong : forall k x, inj (x + times_p k) = inj x.
Proof.
  intros k x. apply inj_eq. exists k. unfold times_p. rewrite Z.shiftl_mul_pow2 by lia. unfold p25519. ring.
Qed.
Lemma inj_2 : inj 2 = (1 + 1)%F.
Proof. rewrite F1_def. rewrite <- inj_add. reflexivity. Qed.
Lemma div_is : forall a b c : Fp, (b <> 0 -> c * b = a -> a / b = c)%F.
Proof. intros a b c HB H. rewrite <- H. apply (F_cancel b); [exact HB|]. field. exact HB. Qed.

Local Open Scope fp_scope.
Lemma dbl_field : forall X Y T X3 Y3, on (X, Y) -> X * X + Y * Y = T -> X3 * T = X * Y + Y * X -> Y3 * (1 + 1 - T) = Y * Y - X * X ->
  padd (X, Y) (X, Y) = (X3, Y3).
Proof.
  intros X Y T X3 Y3 HO S1 S2 S3. pose proof (complete_plus _ _ _ _ HO HO) as NP. pose proof (complete_minus _ _ _ _ HO HO) as NM.
  unfold on, on_curve in HO. cbn [fst snd] in *. cbn [padd].
  assert (E1 : 1 + ed * X * X * Y * Y = T) by (rewrite <- HO; exact S1).
  assert (E2 : 1 - ed * X * X * Y * Y = 1 + 1 - T) by (rewrite <- E1; ring).
  rewrite E1 in *. rewrite E2 in *. f_equal; apply div_is; assumption.
Qed.
Lemma plus_field : forall X Y BX BY M N W X3 Y3, on (X, Y) -> on (BX, BY) -> X * BX = M -> Y * BY = N -> M * N = W ->
  X3 * (inj 121666 + inj 121665 * W) = inj 121666 * (X * BY + Y * BX) -> Y3 * (inj 121666 - inj 121665 * W) = inj 121666 * (N - M) ->
  padd (X, Y) (BX, BY) = (X3, Y3).
Proof.
  intros X Y BX BY M N W X3 Y3 HO HB S1 S2 S3 S4 S5. pose proof (complete_plus _ _ _ _ HO HB) as NP.
  pose proof (complete_minus _ _ _ _ HO HB) as NM. clear HO HB. cbn [fst snd] in *. cbn [padd]. pose proof ed_eq as HE.
  assert (HN : inj 121666 <> 0) by (apply inj_small_nz; lia).
  assert (EW : ed * X * BX * Y * BY = ed * W) by (rewrite <- S3, <- S1, <- S2; ring). rewrite EW in *.
  f_equal; (apply div_is; [assumption|]); apply (F_cancel (inj 121666)); try exact HN.
  - rewrite <- S4, <- HE. ring.
  - replace (Y * BY - X * BX) with (N - M) by (rewrite <- S1, <- S2; ring). rewrite <- S5, <- HE. ring.
Qed.
Lemma check_dbl : forall x y x3 y3 s ks k1 k2, on (inj x, inj y) -> check (x, y) (Dbl x3 y3 s ks k1 k2) = true ->
  padd (inj x, inj y) (inj x, inj y) = (inj x3, inj y3).
Proof.
  intros x y x3 y3 s ks k1 k2 HO H. cbn [check] in H. apply andb_true_iff in H. destruct H as [H H3]. apply andb_true_iff in H.
  destruct H as [H1 H2]. apply Z.eqb_eq in H1, H2, H3.
  assert (S1 : inj x * inj x + inj y * inj y = inj s) by (rewrite <- !inj_mul, <- inj_add, H1; apply times_p_cong).
  assert (S2 : inj x3 * inj s = inj x * inj y + inj y * inj x).
  { rewrite <- inj_mul, H2, times_p_cong, inj_mul, inj_mul, inj_2. ring. }
  assert (S3 : inj y3 * (1 + 1 - inj s) = inj y * inj y - inj x * inj x).
  { rewrite <- inj_2, <- inj_sub, <- inj_mul, H3, times_p_cong, inj_sub, !inj_mul. reflexivity. }
  exact (dbl_field _ _ _ _ _ HO S1 S2 S3).
Qed.
Lemma check_plus : forall x y x3 y3 m km n kn w kw k1 k2, on (inj x, inj y) -> check (x, y) (Plus x3 y3 m km n kn w kw k1 k2) = true ->
  padd (inj x, inj y) base = (inj x3, inj y3).
Proof.
  intros x y x3 y3 m km n kn w kw k1 k2 HO H. cbn [check] in H. apply andb_true_iff in H. destruct H as [H H5].
  apply andb_true_iff in H. destruct H as [H H4]. apply andb_true_iff in H. destruct H as [H H3]. apply andb_true_iff in H. destruct H as [H1 H2].
  apply Z.eqb_eq in H1, H2, H3, H4, H5.
  assert (S1 : inj x * inj base_x = inj m) by (rewrite <- inj_mul, H1; apply times_p_cong).
  assert (S2 : inj y * inj base_y = inj n) by (rewrite <- inj_mul, H2; apply times_p_cong).
  assert (S3 : inj m * inj n = inj w) by (rewrite <- inj_mul, H3; apply times_p_cong).
  assert (S4 : inj x3 * (inj 121666 + inj 121665 * inj w) = inj 121666 * (inj x * inj base_y + inj y * inj base_x)).
  { rewrite <- !inj_mul, <- !inj_add, <- !inj_mul, H4. apply times_p_cong. }
  assert (S5 : inj y3 * (inj 121666 - inj 121665 * inj w) = inj 121666 * (inj n - inj m)).
  { rewrite <- !inj_mul, <- !inj_sub, <- !inj_mul, H5. apply times_p_cong. }
  exact (plus_field _ _ _ _ _ _ _ _ _ HO on_base S1 S2 S3 S4 S5).
Qed.
Lemma chain_ok : forall l p k q k', (0 <= k)%Z -> (inj (fst p), inj (snd p)) = pmul (Z.to_nat k) base -> chain p k l = Some (q, k') ->
  (inj (fst q), inj (snd q)) = pmul (Z.to_nat k') base.
Proof.
  induction l as [|c l IH]; intros p k q k' HK HP H; cbn [chain] in H.
  - injection H as H1 H2. subst q k'. exact HP.
  - destruct (check p c) eqn:EC; [|discriminate]. destruct p as [x y]. cbn [fst snd] in HP.
    assert (HO : on (inj x, inj y)) by (rewrite HP; apply on_pmul; exact on_base).
    destruct c as [x3 y3 s ks k1 k2|x3 y3 m km n kn w kw k1 k2]; cbn [target] in H.
    + refine (IH _ _ _ _ _ _ H); [lia|]. cbn [fst snd]. rewrite <- (check_dbl _ _ _ _ _ _ _ _ HO EC). rewrite HP.
      replace (Z.to_nat (2 * k)) with (Z.to_nat k + Z.to_nat k)%nat by lia. symmetry. apply pmul_add. exact on_base.
    + refine (IH _ _ _ _ _ _ H); [lia|]. cbn [fst snd]. rewrite <- (check_plus _ _ _ _ _ _ _ _ _ _ _ _ HO EC). rewrite HP.
      replace (Z.to_nat (k + 1)) with (S (Z.to_nat k)) by lia. reflexivity.
Qed.
Local Close Scope fp_scope.

(** ** The chain *)


Definition chain_0 : list step :=
  [Dbl 49796076677914003689339522779362816288045996896718414853865740410528934845924 15549675580280190176352668710449542251549572066445060580507079593062643049417 10865872720795493305073123787695754110961843205372397773524691040492703462777 38702630372165894226710196778364122652223015837604567863748345007175336174368 (-6288535764198887899968777661058704841425985110761355408734899029504803389308) (-38322654561538750088599768095148001469122651651082036237023309618157138317934);
   Dbl 55360728378585502748659679823535783446065203578606681405715430122797705328279 32483318716863467900234833297694612235682047836132991208333042722294373421359 40724171259554269648683978687207727114539730426062031587754314894750216116362 47005657831893007595487735088226725360885700189334644202197034179982913435347 12192441006428543788788965483943947924645897013122312337055919366763827325718 15804198946288985083778091914897017550044356687619626065247749042824803459203;
   Dbl 23321225258906951389418638205031626271935049105876356327347531187122285945468 15299170165656271974649334809062094114079726227711063015095704409550798436788 9889299501052396999888999161156046072730985075515852968003607885476266353229 71161618528619039563546937389765761475339771091798674895220357413189483501657 (-58138164869332289075351814774294675543209087793739168986616761079563642276350) 32097981616892048748562598535373902334647482750157790017865324641540287034116;
   Dbl 50824516118934159933368980801315542570189652689411225981149484416999033385140 50925107901044861941301590032293890690813323578124472818968980802518735333355 44917824078233420063611613232034958969462319686927011473410065125449110741624 13436913703836674768106296897267398689251103447573182597405998589675834022856 27106098470337259502049917648457320656352117594034981853123764264467036855808 (-34158293732692862742595932767522364174719322950302672091023134777718006391770);
   Dbl 33169480015917014596648142126875876609925137082834367516761031190391870387965 30850316547316149219369061290562558254923949145644564178378051444253659681385 51117896375810089225102694555296278567019148671810102057898997182519042160599 89410219429543472763608061030922688320512739123475949612442432687062354401274 (-60123863648800723019987861416952388909592542132076918504277051568629071682385) (-27415317762906243730926130607603716878561545792230321595266220931846348715230);
   Dbl 22407640916104585609346071440294790527242912483114481697940876736763809953933 27636351750987415494008535949645960827550590090960186204735008729987540453670 33181440918215135522036188889737871329490846309566561496357741301001516090266 35442083291034444034243971645538341624265467039319043463891595425946553350016 (-22506893377783424785888616801516167160767900815514119742035193495433622776728) (-13274509587413397402896678674927161304283057631359033410323269857015447248120);
   Dbl 53632943959552069692236761025000323081564741862814537114598344699691734462747 18508826420441071939750277538143617204571229748311242415842946762595677996796 53966024323697182879008172846128235125081572068500878136127377955128598151460 21864538723970770863543190554706424192893747895561472616624547334573441583021 28599982548798941326978999004874980613049088770050850043751488227198663527600 (-21772011400613168437469766899559570176695207341193170133932282135365923317471);
   Dbl 33666983118126058519579870105338696566934459247917346335442081121963717438157 6935684722522267618220753829624209639984359598320562595061366101608187623111 26451606239813869932006135914407700425929464100453803601251604712210445545483 55600850704627656004840330687356976094206611398914780378548924417794363255958 (-18910098726385663183311975545510780116006296443449328030474732787422000729757) 40597868757778741757004104505462694345834802285177992763019911828287077746098;
   Dbl 16988941728959392398547493720925989223947541713146305131681128748753674547793 38366836778969845606589656703794235990595431744668605526092433715493688021992 1570025170219684367813617967913203780459841123408561360941096812910805598704 20408466288656110511373204535273664878202243307235697763695550291481073502034 (-7605598926525564823046309135052147395293658095085401964238580846230633151518) 17706306829998836503500744481691305354527332821382743055249533295251584673256;
   Dbl 47495803797858335607108100602192033966502831013321158279262079002497491449477 12175353081024358281744367214419414005476983323671937693306148471852937756989 3304571469066345789443784391704483648055716295850846281037146676386252723600 30410338341605670283146013293697420573290386277847592210934276771917375102837 (-19805681685973372332734545689112661073885807608969066630520838668384558815488) (-21134852230944313480856854730708217221169240603530859520902511618649301420713);
   Dbl 51047691027732078378373729133809682965834915764905951930581666459366359931387 2312041997451586708872587523550236508157965803316305389071105927566014363214 12011180885271837832120222818366601049466515548365049799436116738629438003299 41524263304811325023668328482565396176131985318572705763809933978063653828699 (-9386017906433669045606345382959088684219724535012705885863183738347567178357) 35923728724656957036241555786522385921227524760605341560508712829633492456650;
   Dbl 3318405541605802083511301196313260195946140657964892416591046984395785580718 40555259698712479228142211631679471073561232444601298047972603499607234388181 25339597467040079680943127494415699016914154862498266342030356776460339046849 45101739068013385578368724785489269949629667179718985940700348853814158819084 (-2624734580787571295056611350942429602368450278079961802428526464757393199646) 27167093632874611996448150979206879734458602866433560298683480661612552679634;
   Dbl 6376630030110437886975598975127263982833909371471597445739724738053620753975 52019749602470059668344983068026172384793681144736228079710257376320252456841 32485452942848469285285988801173002687713899920171318318894761922931872706194 28598515070837478585143991000700071097741807464061889149644879697206159003959 (-1071055590796767095317111802528583817159565115312883978369146367725235786534) (-57406381102417489449569156756764783583309981810769470059188694765467528805241);
   Dbl 33423168892972459448710280897890156328470333256833959523183114206218110563239 51694133746787581571724731688211103718833232899104586370422228323317173487873 191976548477008496539687780989276670136206979567465041291683695421465040642 47442200539540985526307303265646295692886849150325420524830817999735132363936 (-11348010639968709203428625642512662380895050102650773467589426528575097979088) (-46208977092604754628853353933627676326976419606226916034368077856405994551424);
   Dbl 48596750103383744916649578337137643819966303327755098341125173555047288617310 29364674778601018936997556626806786174514088488710242926018946766714482756934 20444422230468856103067356976670300188821820779111811925214014472589182537115 65451650585776308026981961438688039961205033757539438690758937311286920796115 (-42525030234172208290620427179986365775934822169192440656722690670492679101556) (-37230851762230105146755391441532111750153284281012880486170248955503240117950);
   Dbl 16624770747805301250088025748500523109607228149651291838136549180190449010359 20182938281251249849712136486927848134532420155649429100890386875073412000822 2490219862550045192288849382908715641066818789072553565094442364961902154260 55684775474709421529354027807787234868070349568684434751732509129675694837604 (-48581145885960242810788582470109208991871325923757926116518789346642366261260) 25029344431210551729195506772399181723650354014244674190567011379571618597732;
   Dbl 23271677211549599578096736286296805689162448981649009646978121022353465787855 3796174517710171698598804855217198428321733657889201949428151222167600506353 21571335672216357511235828515298409196417280411790601545519609495250562155105 11809684143112148805289445872075369133329043035472083669494255958496392293540 (-2920273469692609143998395065232027569338863972691424404379438731133875843129) (-3676530088394975013571980078552305389336016654987562516886191926140305076938);
   Dbl 23191697390970514605528168233720570163944786106592724607217987596508048483948 10385474060292222039643213821294435966838835008701008210657350549376377214577 20891847154789415245840913469395295118632163774301786435283164966133948265105 9603106824819139642917602839461643172990264297565509589705882720292343502421 5316955642654696714426523644415941281984539579530277806462338433790344671590 5357676584213932700565871618745046916714376112896854265384861773556903277765;
   Dbl 748769593065907135294105295144805171002259402256117076547845469796147407807 25091281840661552205135748393579341584120703124592003105179293019326456324854 28260559352063269724318243632841676402769095556753415123691828164262482597501 11152970873648559512763565095449169923307387249122657091580142476946989478468 (-7954824873508905219569727077824942776452630227124892998338065450982001317065) (-4820655799516792772686060935987565011622488684795790813346485895187086533679);
   Dbl 3298271437622738293338922045137238260847804197778166757397226912360839995850 3449896845806921515373747351251070124616437120332303971385432452490848855288 33059001616908823677092050604591456147404636258522343850991711980924773061627 10883870987413532686539040269465099073248517723435498770684254278790773082962 1234322369920170964896724372524393364337950106380964494745887612539112787106 (-12834415870756151290567164901380151048316877591688655206418040338297580575783);
   Dbl 478931568345670013932358048919910681901605152276317923213593275225129065099 52273704419139405159775014317290835933664475552332708366394330415164319248459 32410889421983002286039640567713388156863245747596668008415700490302606639462 393470449889854836917246404421803333623501860175006367569761735845722208118 (-124961807043024412270724892376225628322022530219636137369869258056800125238) (-29281109936658647634769883980228515837656833273369023274748031268459159356616);
   Dbl 32223962253099977150206961267581409579540618096767027956287757976237722201654 20756573878643363325793821026438350840612369149764266371668034898098235986297 19632816138186647826691643987463450727055463110479173362735731518097868701304 47201316897320923996017942700636738943227151496516613766997256378781692450722 10062450302344827027537170672591489044221547490662068303743931087577372239766 (-54232043269129003963675380178202199424317885544880450742475609222181002260126);
   Dbl 45427508734292978419056237542058847066801204836738100899568151013907200431136 48871947419602552330465379555019735272161840172752412330071639916632071437120 46915020587648272008376924256230878957125779545793864513343415841734121226770 25376847626570130991178633379189739433403384883303254031934013971772781314095 13705848238914619575758636486413059834680093353508130801950199490937513581956 (-29108724893727403131903897801181318701126099438830240370341743409820023750497);
   Dbl 31675684438051960741392033342482580623495547465637503238487344236735780680294 14955570584878506545981286824704959560776362796341363640094685063311756888261 15222467363569828911246556146724969003431162410719913588573960107725989636733 76898617577648465032738346974346605817281990753828586001680664691661556957487 (-68365284537577121838954636721282047371829077959202294809278672760091570904762) (-9542437372897249803750832135412629609233115027673368233007311136526802963555);
   Dbl 31296779197354582570526582838243201526941289128254318147036904398026921980404 56892661656082980073316383795158683496393820909924608301927348333889896713218 15302398406758673371340514253810227339138474564633490162468927643867207753757 21193469851356660088161488175869626748353610378925741053189600722820799063200 (-8092782293420695295458485243771116179660789623408780562090961066307481202360) (-1570302126533212008382195061667072499106898012545294146442350483712397689975);
   Dbl 1591636429132482257295706486985175502914566453909513203683098255579105022132 25448670393978825583576233442397517457541692536451699283561630611656102572950 18916056269680416601467748279610584532956558200789323630723527139033351898448 72824721726892036293541572136095224625728916257364790147780328959460084324308 (-60988737289458699743492068805226454619924720743726194518700303567840915261392) (-47303318583944016933546299779711605924487177636469118272972290686520603272392);
   Dbl 50441334416865862398825583627103203335226381802700404804400985642973542712838 49060669014889618634034845030820105181036997350936347239322049348217814945797 7390041905325351897102627069537673959844200670027238635247342528022756915581 11229923142873684149168077908740184178591286487177208218646089550504739512307 5039265035785563658317294953490590579496292390143092390682325260324253728822 (-17404676344632807178755070548681634998934159964012864003213789290211125475911);
   Dbl 3771348898246454994541949879833767278231686626814985278701915581239740665932 6535661448952062909216951562535374120699607245381865810845630213621355776630 47922204139861490902245335038149753977151090474886031491997023347334535855212 85520133448753835376565610099608273641563861479302357652859788842146025240309 (-82365555447102853224112576003006680179366793933073477012916947980422396133212) (-3036897075409098138577399382152444274327643507438043300002165100862683882485);
   Dbl 21817730619959940742385356078628601498372145879472582363690184783330671295079 25708642289863751966302024225237904726630733908921048717331198880892436709901 43230896485572648690041329656217545114237389308595351482607632948378010599109 983451347370172452554246779371067264283257455035530099878265523136344621835 15439803196570793491118236402328854352944046915955675932607386936736713145759 (-19688727601149016514961785929667579934500889989080261411130406285732448304967);
   Dbl 1113682627022672497100323069265427395831187154302860237231567389499283360795 22310901527710631603180993315816672899331474004376446475717230095796374000992 16259531510815715398894875622953311681134090118929731660837034044764149733139 19637743222045700657745399693845345679572010578667866222905378915256967239747 (-19063487215282117551572021464822937968751019420064857451700177816646999856297) (-9459812479677562515784745822547477746730285292964981203998318710376430047736);
   Dbl 21384201303199748035337191724872321635856210200426081830395855162875753880899 42932185445836734984879765196158360688663229692937278561535355964359997581186 17458813610501543653077919835743522923982008368770753301099101296774047344203 8619183214670163384818890536948819655919190982468452499969930501383765937414 5590161815794527626576146856314179079085526438546648776527263660768629192133 (-21522732162159587429195054113932099873177986695341351962846628066980299779325);
   Dbl 15065820691887603162303503603340905875082186709425502012866032788349821783182 49417579777138232809020590461442191010157021293872759678974198530760482863386 47424796806831383605341672578544589181364922100576915669228225361080381142510 39734262119006997382788803221721925056454161529009544502278457615623161109563 (-19373473857620884357095910892902043714851449006267254594568718843020494634792) (-64417304946497188163048187599869388271952453459317082083693874211617556851167);
   Dbl 37441584517660615839893263976125725067266519642963380421416131762681573324105 52278291416665193925925829527972181593462278765769350530558236265859287513035 15022853057652344647326043703881242101649743261605916025491423341717099614328 46101182934520710129838950515059283172769506516544502494310987663859474053808 (-16003742147624110028733239027036075292292148023482328075578765353995494991136) (-51825428623502858353927080734744385103505951184477708043463380028180774189818);
   Dbl 7514891585708453978884383918046296561442641015434908398970421847474383770202 37854925133430588252830311134599570623631025784885083249593544768206604501465 37470272234693669719375653162518869335625441661058247030440542336140352743917 71419248618347677252948629523612568104846350555883695517954317940863857680817 (-62753494188277542240286369079968496959196218969675436088217180679266071839684) (-47491704667163625600574403793840330305024386491258876531537936266702862025575);
   Dbl 14501060212745461329941717638977334969704492311553063691436078783832171977766 54037904725904619508111005987774813902206702994070596763696498304265167397445 41295280827260733139642858144867282175481967863328558273634421289404942366788 25726609861057364204993241877818195123013755918880569386393424333470408264309 515994438815801558937254107871514319772642776288002978643226404044443813652 (-62319148675018768888269693782903900027872829881947663543868628388557782099859);
   Dbl 24775977703068884708972831378653438528859469504736018110017279792980421015971 57494903421850047051437277431621495081848935660098712752929417894600320224466 23948870237993809848709559624518947975639994410763228386453160163050722471425 54068907730715533057450566148461440144588744161152817658148713319902704150444 (-16820788912025645593593690373409411816585527493468982788859938390039453478685) (-70587764815130652334813027636398749747969818112221183931044974027488175824463);
   Dbl 54078805117719775902293255600082279878248128228552856060109603518650883517118 10489147278187110362134995111963226564141046001348941075622680658741593532648 22245968021223052398186995303416784329812974979628627591822522398719236315861 67699149681940334624497888649414922959476538749641804078899850072855119504664 (-28429394995915235025158582617150840454742768693877524971769324882714709369326) (-50524281970078833483335770718422779441636922179013114957956046585478353487903);
   Dbl 47468468526531695256833424628053717108170860568511659039384500944737957491922 51469744701391552480837245041655791053255331145812797331218148961728035441779 39781313051793578483293242080102841328974696936375645084235176105438560997749 52413587034681068047310227769896503507206322400906323447954658516819401731371 13021216017301703184104074011581068421765925826711100597053594731676893510850 13247207658598765799020460506534285899592017518606975338753946507452734760743;
   Dbl 7767561405486190794211835579888862342529601319352793787785657749505049557614 1980278042691965713981149139930452264163076071667628639090250557504770174587 37524561631802363384163265719748305489661920254553787912808077721323101549149 84675734865329052007867203771647563787608728311367580364840762789625926339024 (-79364758100996098558703285813281243400139860240477210758526081258372347426510) (-8121248764577368489712724290856611804181025357154302220710941482008891959254);
   Dbl 26846867371660562010699764026835230260424220461463518324864903875688636203034 27729946105412964655112236315850267932468036882545041507320998583854342562650 13516064126086264621175802548524671085798771269235433328228757587520584474159 1109860124946405265268336830866483596284044119567127717276026361881554265894 5736145199110543593088865887975188199747887677383659286260400844538786715930 (-5499274135377480004653153874753878370934645270804558528736614234567606205027)].
Definition chain_1 : list step :=
  [Dbl 25912133067155791652110818446122462502021526504604070111438380934274633249900 9288387344892172799170744310978976179910527092723579902952158489343272868948 49839670291607419398307865167508291548996137191514694393658834206482394471404 25730673114075822826701153023814588641956216981361570974106220730862741686348 (-3410806443031040556309681684786457439279034534045017891710060564506202229400) (-8828336884054077900754479962396912282517648509995172642319272546866586179560);
   Dbl 17783180343630786163771727369736276489568244644678318867452532956970749169853 28440719635374571293396157229875541269413226941353902928329788578666889313331 33594139392444028713170453669075091084321809728601942923701140886426216530553 13087470561236827177094429541610633738091991170317256312937121900281535628899 2004399132082355458441626987194543428679036263271604358274552305839320329641 (-6395549154866253680690819862336040002375755388322416729691971155761485874665);
   Dbl 15894364656921315789425490431125342988556337457569988819755735094526585123938 46769152930682528968583401401235025295039214644177585564512426226384755878073 52106058583742732907316302549754614637748141372864341903584315047067674081096 19433383470716185777246705170091897463681911279981039270903163398185132412626 (-3166713684841564016397577002356664637090681611370314373702289301737524182262) (-50600853168092516642621298740652555429710512001975553165312054381088591799886);
   Dbl 22052211042801168832108217847387052773582148320361398747345261410275750095610 57303500313920857781889356400330248464357243021787478340933447880777082073539 50621625167764552943326939177584214476440180030027165966743538640203827137188 42144234718833078892707076723519526807857889577771919209679450875416980227765 (-6397901336124869183691976029071277522427415893408518134528560192451584305132) (-83520716890912148592638288266957056613703981765864720460019465853843384547711);
   Dbl 10461357959844029711651994296478418060107474040740497451156808176010716953505 21485101354679558701669270959816344644464678765615788190638683578533731429966 19092190383370295299248059255254424201274634551399803462877413234396615610368 65116558219744402962765207870153138980430943050915100050343771793268601448897 (-40203221866378889925058533254686857210711343062010119396275704573611205549260) (-55402554750469584358586792446567551014727901453261227096757239353141014951373);
   Dbl 11524453731692985588962910549428405079269758938454787627269793170566368458024 26478740800733269288198131365468684670960535144929794027484143547518195267108 30763578409683919667732003095406257818996330910312182863627827736963430860031 9863361035216797765186906525083084553586873961162385282406489529621418496350 (-1640755197900695837641872501366990977747521216002407334761445438999631612884) (-20152506036550701568992872923117249788472407386167109181730880677647307818387);
   Dbl 22165348233535488323196742368252138032412372944303015528033715634642386138128 5124259569483350729196958378822907526496602783247669422492733697864938451662 26488139332214069418428205924912689734975975293197986314622552900009760785756 14404036643594771459945145451550666237699624061715504314537960525635942651716 (-400497378687561413202616032983313647015184728137739861383125949525649216384) (-12160464271206871009740837235012793042222271595986695614011298082202275579564);
   Dbl 39458786720154216453486934142738592492934364968518880450676055289301238523246 36563616321823734465666870349235432940379598201907262626645125270466793116054 48739733390817994057793293286600151112444631171866729656780213717415147790952 8939482858601755721619032673039889670968762962809586889403043883806606658124 29294725749289477838979985987651595457455484727995778675685238403138960303280 (-22748640150227993795175579442378922387231439843035852283985175791238751228840);
   Dbl 54762482274771728140612408762198484789578052015567721477081170281582080555092 29517287490576008752010229265386725675942288741512148107897703457428460766064 17167777636445800658909376168723432378471101900877938801943588063426691404279 49984310793893881807475708794494950373977081257243085943626733002421457686997 (-33600944082124210121762684574077985042512839581395638211542474343689476401100) (-4951088093499751014929260478788409740228103581850941856761920385009474016272);
   Dbl 25976718663401469478141292038107055807850781103915485169012658135642358498034 2126634075982654318590492885153132310981526013601685661016577258450272533730 8878274765831911842951592060571312665936956323512732543511168120216017516054 66847394345981926108857039943896481128971593779559634310166758511108047125794 (-51855898619162237667747859300196252040745283155551175924876008035977930189060) 36423530766742982573559737512481552756228201984956245420327482875683719897992;
   Dbl 35336660139247748975825948754533855568106291058927661726900720376429386933828 23888113636819035429926907107258444263090323522691660954731306854220582218409 19176428040736071284048023931024019036236432539695597131057386104888261760136 11733314244263925090820493813156105658880666267544010159038321289812843878080 9795919115238653322291480650331896195153501480120877397302376533118576261432 3664821133059144359910452029014488560535042634480641760448799712496926352050;
   Dbl 15569572356429522059744157843128917411333876862935313823873848258580523003243 51767299105794865359908754261640899704919154549996018629901376258684159289317 44264215806523119292695428019256069196170948106090582056292054191320215874070 31423934655735868043796412667363214439864696436031171661234031587954578426455 (-17256401567401080955418652230796535970356250053914325714135566700176849679406) (-27867211539156940676403798280149097360563334522342053483603734582708203255897);
   Dbl 10973524541380503100113367820457475974817182471368811943801167913443169968218 40953833938605278231697173707354259912669188943485919940833211413684494670284 44887939519060149972143510685345838417472969876602970277868502360612433018972 50474343442957223628874132170984782601195833788661607079527897041146766118734 (-19334835733563106945479955622941123420248507524162526210008199886664527145134) (-73852625380880211049928830805972984641651319085204557313582616644382474049080);
   Dbl 51953379193554687662877402489866852620089752961321798019379062681481783237737 17740693327176817854801454122587194558819032432129012706849247534385017891832 43293777309102677995258025207616252872134544668274746437900977629903024852800 31049353491616866444441379326426369356104216272193683220385682638694723735620 23325293369835941853547937325474038662285837243582215527048622231652649483024 (-40155763920308023548563085006087259807388829694321319106324173134711704532332);
   Dbl 19577456395240288836688695189222847891389986488150780391686596501070054933113 54040755356101629851791062456974045253014690287858169301317937866514626344693 37305045275919528851160939937003656648586020557607484413391053001945469466442 52056851710849610856303949028913295604579236638297957948117444874097591244099 (-19224802752695951771185713629345335799199184593478047515715090393661111041678) 6363622714173290508350667997923578143154734851693008353045047088415343951725;
   Dbl 42936494802707515202404762322664911789466864820541566690209974543231188056175 25964330211653062987717188781243886463821901684982951650673786718455132103697 8362105337462827202123473773406914151996278765559877437066854072415502162193 57062275326851747837983267106847381445478058757537173217606770335389533480925 (-30346141645952593504322081614205498943155107630641123778422417428808237252807) (-47572211934999727899216009403222056513720734340192713866028416772594189434243);
   Dbl 35349492107639350685603354505018377344959168315298061796448753547047675806260 29304975373538996048835671269729647815982116853415896625128567603603329907841 19178039404390537750577302811793067500528334101966695664984343930841788239121 43486373652394838156740828076016415462330989613673496108144880262114038938837 (-26801497684891623212216041909574419630069688787907844519094429032490550089010) 10490944142132349210077860084505161641829754982670059057160621715600281198613;
   Dbl 19991553140991107629866610639588140948869677669369282428242574594336959693911 50835770704986724242436677611718431048705647431520755367710246538243619075335 34646481647523462750483450293936184451749607939532988988426447225597470390291 36416445852197684666279919184308456469462622356453410735091583804647006825910 (-23821921194140685157594333229435649272890510553101853311709917122163312507231) (-23671316325157763364110394913274978037721727577927236828658647720262953799304);
   Dbl 9279579974920894351997915629414164504377622612887653909390706234409021675699 11407218847596422755991434262659321162615585973279975075808294900032260014207 42296667948754181277272078009481827920867787604309388209727229419404026434109 51539579254735950404318877040842487342690465276983257149107445668353537240313 (-28327957823776421425913514204434232849368243502716699880865196610066341503271) (-46067062984419275313229696972484035153953018127845504582211688112047802260697);
   Dbl 45982796687025820640168461101193275478059751881170587528334600417456490834813 48520602033621835552297087477366344329736087438136796734023135166735240273716 50720731023828874809069599936266791554040304263225065196164359240551215778487 3734888070025875634911137154702541168171005686730052885956766586342007806687 36627245907352701590579911891442609658809484972700029995517603622286096183205 (-43267453911355720463852344513780194344278113548241772624750969153818501194892);
   Dbl 25538185939411202117821146162252750587595237624688613874977265004201989238235 22635139240448021868201029866848773426210620100937671088354264929878430660010 52417226819199437074253596685188759926966588311242964001715657550597310887752 77184312715990752532458304406954577013772887173537152827234088078248821820277 (-53951614355095469591908189856948898044154811110052521757896893467498797912304) (-24635576879043430268245990958421193694840685794592886828359115999856939295663);
   Dbl 13392892674853979074091705525661450111665159407201207025657012411817417934100 30141215867806221944935945054462736214036523470954538064480540475644488758752 29395300836534553464141206456698798564234985915551895362590106603904731137849 20114473746538326726429912373005893911624061328578751721422191375085734386324 (-13168994274948928242995718701128331651632290642973601728271078639741427976200) (-12887939068831624374223843762494093760530503648433714961273465307906573616631);
   Dbl 419299868139461716668692591354262939285698338197798606453567891959746786623 51688159461706094879304629140765766764511202268320054417312410136779795003785 51863977118392575751517217599152360018172261931422946860169873531889493069555 18789927280097242641431486241606079804824513082062190479242492547870229382001 (-13569313496662625138020346594538356389143331907572106022337587503766448595615) (-58896542274399007735758894530781985141280475005927465205959608970235916207341);
   Dbl 3821798540065911806184674444208563793839724626859510758078102144887812931002 1423604317745427322790381226394774763053130405907994130724317794966956167955 19498400346718290276032025041741245119306436760666132197510247805176386948674 46148949526979040989025580173109185531541140310227010523100378183267755162320 538435419737340355450272244175238635511693880998466388150923592185043101662 (-46622321798684133069251113330396077834957964110004207216425477436725549044944);
   Dbl 36433518606274661152354133958491427247532658334553343500338262954400592236030 34905110436806704375115117043721051740842418404017689336019589974414716422638 31075458789409331105012243856717371219710819410987695014580635906724678632490 287287213555053907542108787593556824976950262455790539685858447802648000911 19367589886006166511399927499224466651209268041086646400663836550646913111120 (-18517894152408351022153610075382570802658096405482431085801399496949713609385);
   Dbl 25400290463548910897705706128475027680063044998918901664372072542012986884978 38325651754372413483217343763106935496036760575967773049932675282070249514007 37193814281250500900823980134673444602095028486371652041946458444973996537793 43971363318643917429680889405522305368910938836781647887359750353800089032899 (-27613255887271280768068279666167407401867193700970466439072089283380683630574) (-22738040893862234439723670541531359300499989374926371335486733922061789029869);
   Dbl 37888599731677845017219424891046831493989941639590221571958629772232127391184 11698818496297094926714371527533498792080572905846263409223249541482347665093 34643925969031964687468607252116615349378040659259941361254605679619370944579 36514244659622164543634370492466911186940281076428708211009809955501541870746 (-10956802550770449084035471241193565243566188330556122107826482232285657715644) (-21227250268485073767634626418893723311283090766019830446053720099946624490074);
   Dbl 13455062600796973099341271567148209404050955755999921204695939231150472233015 26500516396956780220658887122604521806411632574870530108424521362596479422245 5288673845451520934482941049299696041609103273270579983835372924377702996265 27159166989619582738060026514884516008805136447842134185895324818084895187760 (-14082901006176712615348193288183636611196585535736196314746152899207495843701) 20010538804322607572734421704228765630644022572600377542236034739575034015828;
   Dbl 12243290920765916199177423697848186216624554389693760984488215712207233442108 54874201845107823946446372651255629171375058352614330916365376676602781150596 38053885206620624668393618596399006942313689365432386752288615977698919036683 15256933089554708996210940490219051763787780396621365050528433450491763652283 (-4270195460282615281559867043211474119915781242914201923068076746540053754714) (-45070699643127935779154236391498250632869705981063288966238572264133063212124);
   Dbl 35933864563014922750366523311301842027565283937691488770387729150059352963464 39685799954857566999031473139583267673043941812564928655249869908845569230293 41642645515084205847471665153527572517680251809508111219246718127187667125697 54599173769626177656788366470690924037358301000388871123648789496020891753467 2637478095809268986462142594894694702870581350910943764266030698221941721928 (-77965629341371515814992147513947987491431298844336850403049057287035845476663);
   Dbl 25650740671464995223952688601298685343016729508831300996542462508041033617980 4590715909301946484670322652103488894781039724476604802293138388114824244525 7706459928277153532416664971790846855873837556628771293556898874393485551967 49506064867968260415078155584251902362604297409788453689286584332962982310722 (-45848588339224639575022876032276114111492510176000103609682500009740231008956) (-5511572783992528987476906431785775833518462539096207570901688498128019525722);
   Dbl 23701869866429257511677963416853989748989575119008756158759091623216904536399 54096248485646036580969450637608332943982160324686939405543494070853926149657 15723331856731835773582702728192427597520775686002516923027692734657193069263 11728524358222470311882923040328143960995240308929338187934330725219067656338 2369105521225724456416372355808354761843948959573649840814955705225579454413 (-3690881546687635899866320417354742865095512064239203459248714481922967701398);
   Dbl 32934262724685599836319676165733632693802929537179500450894876110378943754384 48567226733225781276449566422287543329128010889111409895804967816670485558982 41271396254383758185480438051876404995614398205273269778566173178750451617678 60249068107526215626447009894958819666079615875712607373653267377080367401428 (-20815264400510586341447314502655679455807183193689226320509598360453835701766) (-75463924233799243034674111594745697696619987901183093008543011649146932417720);
   Dbl 20559071668665455039321999446236261996938364514176504352800882427379836474208 44871378086723879356737413210653521226866440740474535279860816276104559603579 51385193650905049202374505860597436257224095807539229644096612443353982916643 59476276772549366197404248461806908555550235056944214778494915849065320970213 (-37008050294599120374789524640635642454889721833473290020826913183874962491168) (-61832104892249582602827058092049530197295684415430339555654100815073979202843);
   Dbl 14772886673493301809900046031908989572926226561835190088153635665599245004333 18387148233383658620287056230463085911877635595024572348568551271925735393572 41935717343658693466578684082086400521791155926566936172298851683316663239646 42077416779072364750072194456714553034017742149311322652371533681031910843591 (-21167528180828754426335971346054556147943943468444985763965448720191346307554) (-40794555312926903710097051379278260775674200216398882523476058337779679579405);
   Dbl 29189944786963240695703955541082452435315607188033970084977875260851334801214 44830166261951740603279398495576682241725607809926503424472229723689170610363 3827739980228244931183164575915878285790636834816604162974869735211665042907 9609039865998261749867517967780427655319434649978262310319096227021107122134 (-7453548828104492595774149148468412498641043244360447101230886217911401621846) (-5033975310910540010518516500555286385215090679169605895452258196431303196690);
   Dbl 10326095169773341342385934489037785232177040221501481647739969730941996474243 14214449243666306908341928066213895894989764915988732118960193112150360243653 43271731191098004481622484899018163386231844433259022996445892978593009075026 49429917062381327996535415226745772158711813337863970328475943523760034533911 (-37487053836039473942237423855218542909838902413857493172080284285875565511254) (-30619963225232110824143209271448682943106261304218351654890302366607249454105);
   Dbl 9650406721574836456823400190068308556797056650495225273503286695713262954925 12605203304109359736839575646170095420028150170075032505021828813425976392506 46493003701429319431197102178502799354903697647534631127400389674014388730674 5331604443604846521737082477982549627303103562717798733540499980609978522416 2679231113216082215915259716235395402702630478108684324354907045521572924508 (-11770684754190552708921604768650398740546360419593669735098374840724862844208);
   Dbl 28926879386553839655598616262315244705889118409007234204599219519454901708975 10391024330052931068916219853641704524060189883573610974407450960946334497572 47369555377613729519972650218410126279906415708260602749644396786168863291865 4353000310983724745863791504405004362601536697221795291822505931559935056004 19465280314747813867092084137294933952997634901786161911066553880919138746975 (-9637601438127732640281421586974544036057973245451171792549887931472545458803);
   Dbl 23312094385390422608968741536192229567769659966034657061209021702142220844755 26774469600843634339468622105851699981555180542412972644232493480876266571002 350028090044017435355260364061845501767075299945885137500072802126372344869 16317828685787729369614283379176647291562964216509438736165254451804347296060 (-10242494647598526422306262168891934299639322865931474723475260330490434872445) 12426050047092683750079707531527867328510143213105083475323539689109906144143].
Definition chain_2 : list step :=
  [Dbl 48413174514795541515928140613059084156227694953117705105640390587735871172819 32505703979076959151485506556792486289027941138272760644562679672175933443866 42130739356432059384873394078377505078105881484688601178765296632163625011445 21768774971437126796651522877009889684127658850612750233856721848576030506616 13668376090376600955854015268597880623560918073189515681593588940701902234815 (-26649623992029064586959924516257928490194978119187490225523113930684664090733);
   Dbl 16151099639994570328194529132894241999887125259155378983241120803403236724092 44781990901350621119000479168942884261150661419375333506507720470732519651804 51939224065542602586292819776295322506757313275826011108839593125251407322840 58733826812748563694783694761499688285884069854445791238550330368621928426473 (-39873761170208203583712758683888020060580537068993854982642483258551919136172) (-17941246089321301605006908434886713693833653828801975311138248602058724445903);
   Dbl 15501951933384265210824123131723819176429671534684875102614563289128382258770 38984291250628169793609367006953049629309747617110716218706415095166866209475 57042917626127789479760348459700487088990247366886350026874906764236237062635 39144033821255715743862202320481431247057099486504198057690139364853919558505 (-9711893632344130033259492296842382040254328045634167224319393764197487949314) (-68542616860415007104820581730179982258296656622267097181149892637852208521223);
   Dbl 39315580570393816032431026667243139770117843216424404333823824875944737631171 7204387230095814289155112784314167486479491389461677700039482462117900149790 56019119438208494543377893096172886019780755997193518068643417820393038797913 30400789719778876291575596200451665602818427532319374718936796017693800769988 17164540203953094587530656335611852777145541785189128740334966027372629084027 (-29070170343697284602337037676956909315800816614801536688101208434037897406835);
   Dbl 8811834008467225772946001559550299850925883160643438851659850407270769442202 25583947464430871653586840964872231498494354583644780039898113211018348195426 10378765276451776817954233245905924844738478276545262163178296518138329258604 27594597894748627997819990876282725877527182487440612614808112804008265412613 (-8204936615450092650113641534559321302715812887882428596633488558317749136428) 21215298950694144076633932288880965864339072710524963242944633070950888074261;
   Dbl 54063354547271696257446486840259887821867470497692828215557770369138847541645 44697289841450513164033704384247986028022748316827147885385602092788632953231 36137399764697983033463563515063814503952182442166358023994521995589834140376 12646577003285943532705166441563775065173996802415958106699891737293831665296 25957318312816555283379761361603478963341761146076903923957453177999553538384 (-37863273650348713341044374045269128728948673210619944687723701589392835457234);
   Dbl 6975744330733056975915046020584328544175334857426723825376240268039561211307 15903853772550703579537912563242422228297542773675645660330868481778530607407 54444176045990760312684704830871764354498547640459037648314285942912418537285 84991885999909077103444913589705834368188144386833005548190228390053305099449 (-76916864233789716880418611187405150801290077598021626987567630087259353383755) 1021250614275445026166513092805066478562945020090286288592887605677643420167;
   Dbl 13469725751774144438422632963159894945861400291035839958886733756099953586224 28112003636980376946454994616205437214785284325558286572284790568403397987982 2267230225565496953554806502427300072807698908158267980317001779470153970622 5209225876705839520554918351978163993878091226583619497301259126841186112524 (-3304948852502298352591623395263952180066569850393268065843797546889556662930) (-4629123491305299183387793142766388056157670119745319495364095907068498107760);
   Dbl 23852266927787694965773670083130432655990885186950829204156162904458121988470 27714478525736819310693039843449131161995095049081766735341612278922679271227 27897857728242709358250717541686352795041367613311992883774025874716208959073 16783845368262875332233485006809369806230408020299278750482787785812451937423 (-1587238126607723468046234317264520950246654083454311748643087347255605314674) (-23870815781699358473807268911900451033411743068233411716746440399190301821485);
   Dbl 57606885603220014556385884109579226852553309855250654322234144006280226668204 48102472413184753722918898271017592259334671993463580839736558443832467501512 45945011782001463318324724357282211969130627112098816143780043337108090844412 23093511246830166990215760237711616560826782292499192549932666429489187311333 22879676277864992352301403888499522217568725636023600316137962630755438632732 (-41613038679845261595976523294395337619450723428717927879031842020619631057401);
   Dbl 2859450658396624605800755323999859920773741601059281303082172840097304601044 8595708305423838218427337239184970131694134488607489845436010670114592093907 37167790361453416804403643764281911424462761187371254069895844158653453400306 97284730904544895793754614656514467310042966035011582086297705396534970436246 (-93888759141669758708802573539981585192122761632584191929108327795173476522168) 11835384210621085231743566443585068055077893368190436304704926541950096195456;
   Dbl 16307834790854202101497541132669249331068653454637117788913931623319087874298 18702667302471406267943646186561629076477578914690077859029294500205891615865 33452157458441676828400731117443924417440399144078336760426982113854043208262 1417413916274532423061913925709285392526041445333365412437422638289038567327 8573543373346147253228162570264692190730254626991298875054291943286127690740 (-11941304786069056620134207633441332656198370475089471484108352643698128483537);
   Dbl 50798673628794417327695939338986164709735382362524181752690140701714166193154 14051700864432503195603174423174243178139259455397278969489826247036072519711 30977878868246707732914502485335010886137917262782546639601231383243084865993 10635186632322986614181154267465434709762717768691686093134773428556367816764 16644231011868005474092669548357803004131108848417009900099298469718534937718 (-8966695036798153141264422302782490574826763012505769580395081357031629102078);
   Dbl 51256760685281328773232204464960635285350022310057384123730505458041668692232 26709183970593361440546052460951843372876673094798344582055628577437062451 45097648775723173562994173749757561967428614576119264730922724975120272547597 47981784557576109584220379319983968030746712746962205615713078267873055838360 15267776310192619156196185507014579059359122786454968930658837892129540416284 41140123467016463154048188511599837617790906245981871815760646520953725978650;
   Dbl 36117967600088875452257255282291363697503417553200944306079943534143195518136 11393072468401385903230649060352828887982933982104030268046685519118680025095 45276989894623340450906604007758373012616621634530304016680568390900854075799 45378855267809209401455712270412143566866357812997662014514712671460818342874 28198382329829650445681091700660554535440846972476101631297271222071886940600 36468998693336128346726089501442842387402218494436066511134545832026468716692;
   Dbl 44324939757204536903349933271819807183217125880246162824650421013238494204573 24277510719184982406390712670096807578634110983235809048632298767886642985665 6870837585916143739604157904178898800111968915286424011599608080779970394640 24773880379542921814368270986249263119452798942769874018152886709745969417669 (-8954666694346593061002993089464081519438873895013343107070183487576884098880) 17408765258277271374170362362021395006157695008400487648182951829522652821349;
   Dbl 46583766710675386359701914008025376269079618593867061478845115014415464639904 34503224398479003962600496102980592214075457369331528461237883842917276072424 9540790393933263989861601333512259106918743597615998187289375645899712612134 44115238407441165398221672308902373276354770996684411199113189847848664678580 (-29496875951845732651734427341779644305049302719243630808134346431539952035746) 18068846200968400345219733254857928963696567305435461776797433728799486174664;
   Dbl 29076701826319642257125837135550949225444346010472425054402204799511520521031 36367764535089816925445391884049081669258296710246889978535540710889807755205 15064374621170100515725478034328309257234793124737688305693682768325638648301 58044031107497003796565098103668394616215504606907324913601664755755031895359 (-47957645492333333715364126837879142218653981002828290892211149085495171119289) 7456764979633951597492152648542813396447032272630306974472365206756555722605;
   Dbl 1154269624856432153824456547381322082793808476160453769189899490715878857193 41978652946500496924928875394389872458253357230394695728294241695963720135571 39123027545976342410764403644168492554891588477194317260118004049188682081566 37447616683605625385667441436732861144943522994335525587423707051389629407580 (-35749433009754507512173119197505674171310128195863129066990209507113805575128) (-36608575209452394037280051775024407533017954589073029870873375825483347773292);
   Dbl 15306114483039141464257151457566006172478587623785043394929279553203875121642 55234959353662462202983325031925176159492936554011128458548182362800408727260 34979319712427283330318585424877609251917578195913666049153751970906489531831 30460451196371832734677299463265377967173508866674407467415168340537765466991 7573714352480267678098427402791610962946733287253810595891938690556375182704 (-63785985583209057652675669549642105137686709868665017866264363437965406081268);
   Dbl 3830206455234553485428043061516483250765419919602650149036285023687284015396 20210740406512502967027943336656788111164148198915921899551468572151061000341 11308360751427820381201043143514620561427811248553325836103095035302342447005 56742699730301334835493127669522275301418512091796993684697748531703541748691 (-28457071241567129417954006874919659259461353672769563402337279558882298160140) (-52597270812897312873974755214854841105137654398932220404022936272256043310991);
   Dbl 12068060579362109276252641085454518792471446130277129762249683660068240642961 55960850383955117084497078728968100220583635988916106362750056582565381170825 54783475987154186691598357132142081192903663798693475117594743989586734954287 7308694610422337540311506102206678465668029519864022839009962999195800266690 8745117106975057172544002845193176506933954532550378901369898922066471950515 (-59754227984081486128949035021973692549938272051348161458056416976919183889910);
   Dbl 25390058879208841366108594773126365580529399215051249820057166655469422614904 28026033346964984143781324810989054090462624756509060308165423548333335784666 18048595531477197359399723745245701566905925299393843786998160821172015280804 56605850769750267345585481838768288551468959889322396033677175558513065074758 (-15414230240757199587954679044216582375009176890363048843839936170209669803866) (-60311706141217413574458904980848457806493490390089659652332222752849253536564);
   Dbl 19685239879884306195054034922975157511869523159646174764432352972514741480117 5678923034335803499854193512949185707312411812586470592763075824256665264606 54161400371146826722925740727914522025445648244485072712456438300809103610847 24701404810545620806229235437746146656351462922274104608133252960564836008825 (-6165967251736871868848967037209639528678404629993037637866415897966653778921) (-7744602975357516522248995418179744285029722815959510631593238060074130191090);
   Dbl 33799398470066993988320227642581802505445957176516646099884919106787404485188 4210807820446419651105742493190316853815492326276504789502512130186582234685 54098766841097088784680854142537916041041360992499623388500760758091120787281 7250216119655642634669484745520609829421260838748547525596558924939832510556 27720785822105528313091236941097322004744929680597156452037928268336608445176 2201514674227029609888049061389827765339296367867529270258966676556677635562;
   Dbl 53955015521670713035933584187786253078010993997168353351451204079737739111398 12599238266398634998434556842240768274292438963378237556139324609460374067494 4595989668599684552245715401870600091258498278348405679871575713838653208795 20038160587316284864579899606341522014676461062000276091932002480076103687926 (-633356719670176771749907624891423227649930843980823849641425140719878836350) 18425480921182929598650134690095376901987203159921483419045711847280547289973;
   Dbl 16917364816311134023930028829423619053850944897031069746371100592476557476485 42120638134327975966011272240411516459099234670144041314385743337890494036069 36293806145207700299844585670848348332700041595262422962037730829681096620162 53024080056893606521080121720162965377918573946972135138260525399592124974622 (-12878058220203496808459636008264173709059507867990823659696372694045601965046) 21135893271302092094002388100106993888544960314314412825878019588919505363072;
   Dbl 16925779276944805459581463768286609035514901850857090929820052198299184315412 22681039011760707337500602565057111277108423406256855863837270100715275112616 6393805343974478036781880423968971143960093004765759093607027288521695306053 35586980125187699142232809285898687194449057814215545134617954363708827457217 (-22746290768406683214560554576010008401515245275897127607599112177940979353606) (-28205192318593665326203373115264397030109050697861149276408913229901718570648);
   Dbl 20930437949877801765827917471310293431138353787401991784280256339615734024831 36549853415134963004198791385929027950142848447981419764990803009399724054934 12135446595552232019010527060842055062476793904750369907166273531160472502371 13833614024242969148498640300937942894559932465798354469882131246536393973121 (-8874324862632020141437580644036315881444811324758802969163072408347909420367) (-11598310819654633077317064258516154321904711121856518750842056155377567640542);
   Dbl 26811360057984016651675358015625664010169184572513461218574789286831655235991 13548220015390787328262599706228652778399536104956932282542935971617933593799 5728810501547043492337408984137703289420512296432566368029907490487588336397 30640694526303455335189571925185455592845313249679651837445746559325425639480 (-23773846485891208511561126708570352253597130985724027403199543813893467178669) (-16847847610668377915139453503225033244704818753781341559011472446282506839600);
   Dbl 48582797262738518367673438629944626134298407662485131582552191332635721691375 6786196619175573608309283443380719738877074976577908471831120085453336700494 45375755384588329643408779115721501827656739221000745389823168994199787138745 15586613898896293051057493717162491135782410235104639933237368053785593113613 25528319322558769436705710479593868916534455885529830366058089153173447095593 3927141591236113617811421208172965596162295735770542153675539342832163666262;
   Dbl 30479750911197054969133196468824042786238106592099624254191921828536050749473 49315877793598952090227901245738270288685983126601288875006392048674637302542 1956083428049084662522979769325709493149518254317130683015582386357511397817 41563126985206418982624563617713866501483326019461987760047906047807362315356 (-10359324153678627307256877227266534664142982433246130439746399137030208522391) 38306066824326236995616147604215238350856547216325019676279475810412179839591;
   Dbl 13398683579039885732745194346670161657864134020523757128690719081988210552770 28092835439062208164608941398448814112137896638247692330991965419364853280613 14626578219441239942212733395204832270078457105742805143061623167753323075166 58053551676976480531213582773555001094804616048051325188598991171635828519523 (-48540353099006354129925042342378434209394466940796960520622324252616958814688) (-33058262520460655594995837141385381273274278388005584888148440618489057866283);
   Dbl 12785097714226327145715988417853861020639386604748719642637178702714896809441 4170341877731070479064719941590894238873155105706772330803492495594024043916 31257501828828877317651133352697058010665419740339197615706618369757703147485 16732267826553220597764153039760276967428775776927865066912939385892322038016 (-6100309838334960056044420917123957852613731400987985286092817319256958604115) (-12782171132749991700389095573046283260410179034511529158581757262274693561053);
   Dbl 34610410304809197813787629742568414862645816675009613348807088983255705987415 7501227636099754662821696917164574092234190941956901631865902241653090361542 22685957806747383349347553297811332213542537633480990979097485017421109261895 3123710369692341169692476123813431461006484502811650696387691504487083401458 11719865415700647609354247191256395146169094078809080616101088940233817178637 (-416359383874735907428223515558472709362249249137554096466593102152108379969);
   Dbl 14596494457472654184207886708464469999896108237445946926371689259801531252920 20014236295691833912353873433172840618145541540180033958100959161035845143094 14636396284759104736298384184225301242436467672350682767851357935158793320679 21662082889711884795794133092282098808952101116933781312764365880896465061190 (-5278444448414488478226292827666395009122578128902879706310723864613880853820) 14658614370775155715203836644490511495757367279005868486359674427392899888827;
   Dbl 34846670246021828852699573596162470011183546680305274835140454312186237369619 42578444816027188744577909552774348432010679314070739170427174452067063733643 49916774101371743781554990773955236400446457789794775677359915059851101994953 10598777671058123815591977771557749356885220967998605519382074635878129147367 19952278193494490350702703254572629504564526514473665050464883511837057050903 (-39949026410290170104054753968342404291701343152267752225376195315982448216021);
   Dbl 18396834232693120468774983017803093784640557895969600461105993794004856212801 37367989165521616201930780541222369146292023138676617257266389707008216833638 3772287697066018588959489447983692792828130518573203680933294170745187361386 52287067452115345292046237098187250785240568222978629126828648345400621125976 (-50055853035082396934106715941355049972391880856885401062556490287741242630552) (-12774557336017633385966236531369710086619658935874649346948218060753571982720);
   Dbl 23718188301451583552397551138422276604121968217358415949688337787633393720964 50364565591067077996626372578228644798066456462962263809084137884269951378152 34271232158522644862682368159934846658351692146554506013821766331928894927680 29964225284928271692733254946405307032279738529863902337644013217498546157785 (-9707983863453977534708182541152280485766775354399363220327360547953184901244) (-48085820763077873197622798200084808496016824458231101713523862177882453381951);
   Dbl 20049205084886236528385447599641703098078775429253789022669916247772183888107 22276559719444846469370701617737789620267379936674566170770241509797286014565 29280483498344602570753670441726956236214499675937121056209598628312626400853 53529424054665997289822668742396599605908364537433483863555622355521027271303 (-31125823776842078964789132448462685765502716622803415227962436823328059699965) (-45362433089125043976420441483063101697427807418523106817040337301791785998027)].
Definition chain_3 : list step :=
  [Dbl 856417526996988557611127788507998354645633735819024704526561412275452077792 44548947909159043917403409442457288878516759169055680620236387754235369409972 51223801171176713671322708189419809985036138885152162018720017256066599276711 15514285015255666256298329797214385739988480496602856161193306089096774949687 (-14670875588720197706820055248817406116877592841298744244742758796622953980102) (-41043234544493343453829454483142440870823208951458836973120386175932918868276);
   Dbl 54687791602252199939160862673220764957342006756992758623249765080452970189984 2197280331012323570322413448915527766660864684378650497684553118254920260348 13280416939585419343264103007078295053481459288053747337207112431786404106431 34291499943913257101021609806611115170138458634016380539624854348555377343733 11226529872063874315975765503688183259086444022251128635629204498355545509344 (-34770183714979844187801183501930821886275082887107199221120077132163906747788);
   Dbl 53352655031740212728404926235180613880797736233716113599416361116379866131682 12254579022675596810231884862276069575540423112673550018377525848277481401878 20469977482815827633513038284193072837142286436393739312441449825090002628825 51740712356350447492400492180382295268400188282659615088302062413573221841715 14712556532841192342763791678532435721795403662939330161085985441020158479514 47241146970190879345644893941578268236039588469001951516211849913602376563342;
   Dbl 52424965032929932124055128131482211409565543795830638734073876497740452376228 32528688704343641313631911710448027152095479374942741660511292005602282822378 43131678769300682674783628810818196847887995242792716273943357344858358243235 51759675910453093966123948059257763023308055617435057730472370205021504888377 16470004181819930292940925519308609709369176685906950341469492887410512749412 22338557814254359174037608478295946420331934636362894805368331502304919669134;
   Dbl 10927528820669962007872351369476579389335224373448304808206999362527374481442 51997965663228500457050430249387147003714475761347555819390336249670266088570 36339994944930362992693000204038206938686224196389890502534232359186264925487 65747022488325658634030828181718551622157088246429309811595077862210706714169 (-52050609217432858732884974407187328925538257084249125689380627500186739442586) (-3443144359542504833428891220644887079818165449370565854717249921362941269150);
   Dbl 52308437573385074498368050466842405017877504104983096081081077278393689119215 46226773486422651493508693434203867574287052738705572908570241545752789081928 53387835978579884980961288146245330879301287439171272300729912403970019620535 48763250371183963540364673083050804567813178974171213208413701473351256035221 28606716738083479157475609909749179923025678814562766578917507550552731875605 (-87265459686888661174443124437945294022680472250417090160021155739739424284840);
   Dbl 34595759808218625379158970107070456656990498609684960655751766884466017157721 55705207129829464869897097349416518624188726193119147708421062336186161442401 23982139979553878495493359203610903053632370671740308111114913277488819426453 84169605375136575763574255294227327081555199702223674016920306492498371550844 (-69200240918638424361300051319197575153766906072248997820503719754131426889423) (-12724047478996712824307102097464439926716051411387133206220135187024610185690);
   Dbl 20607837466116007225065994820475784917745878125323663193817187592723892968496 43048524062920118298805915568484795959327268000798232147099016825120495085163 19992595548772836322661927821798773574415138234033249779178981319006321846077 74269956201799363796622150568698744524598822078394068195684270408722089078185 (-59456976637002185972732094921283718147861172731584734363629216343882650261450) (-47790056357997792808951121662228516312370312380546117712564775916588770005565);
   Plus 47295309137176429710431284835990609342489263524861050138561505102768711336831 25436089807757778647346428845003824853559812566485633362966320115826425843867 52453135751309030637162236100545978122180881669714448304265866346712095214419 3478080333157733377028442325722569821172631647801509939834369196775278621457 57597237097799333723758929456525418338115811333766698525570730261679021996110 34438819250336094639044732454787836767461814400638585717679213460096396068130 14740018227257971317391186229924614421191739978496164222154079420210024566622 52182419650436298395651729074911405592807549963144839836286219442954387899932 (-1424798826851386170828989995816402749652260609315590842465902044382300142276455290) (-787889179988940675998930133099547510342598413980825155931033892351826793437698706);
   Dbl 4249916874549253431688323514317082116225399642563650895592694930207900345862 14906051268862452619194289072522337966404639265274421987706965009373385014011 8686432701972274550340748335364168027544943064310043827191737164758861683471 49810672733937182124978802239997239714400144646793220624045899675889563083671 (-40919873889183407302460902902764664678939548936892872265582963105283667193648) 25224023507868630983543640826023957995811250290895933698522895992907090643437;
   Dbl 49362087918142919330030400041952681186217235601936113342223014526568197485855 41340301024210643977268782884999423105620272384844862766448241307131736671351 22442181143473503843991996911999765017398768371460531501094017622539712096902 4149716262190191434522398764052221361244594560013925916120584419899116286387 16945785631821598915502144229684425812791929948375516602929143638569510151054 (-19550473655944041527811742452578235764228089886544700757546368262968998944373);
   Plus 22655534008733948868429892376596069786273804585393086245716959498137257671728 53034412112453024451555980813444223768796676148163660906444619035861838582367 10996779261401593509986703515843903173988707668905644558898650972187608662159 8331068578834907736544872783627230549971401358187317046656859436140852701774 21493031895636895639457927807130747699169219441311833809212834644914076373091 33072240819368515181815026307999538484496217907875890213158593045705389337081 30376419096783718240038915592068543822780390800822270856841457337217784454417 4082388166089211475654210354791544908556175802632937697692426562472229573548 (-4207239933599917609093581065630229317140350706951028336946707688119317831871857986) (-3385408663270734666899379359613095508648382054205697018901321039778610687069814525);
   Dbl 27118832753221487993963530760524969301045805765478847835441041126115580870292 25488289157064646651594096343608121960962033258311311893140349779412757921655 42747508369865697007930260997691034375121603662410223805360478687673616417043 57446447529207603094750769796361300124801909340795385593715093782194498744870 (-21483044870972515669749772199029069772525272343083198743139059174295003726004) (-58534853689739498620059276053762680328315620324008688709405508316746156138440);
   Dbl 38928359000808193256352009341426692503650817229084942767775300370157779457345 41279984179417285780657987301543487999306998951695814509490041373997411205442 40670284586599211536502382991061534733672903390931504085934438490242049594953 23923637325734826168782651700257489426288691839780737836897758189956165097464 3468322209961268215551549753301230240295065456736918524423648721832805742485 (-27516396138238970754800493355120644356241797364459745452185173334738441565547);
   Dbl 13677252924450045128095787979396874463329069018056130349432630021496341202551 33937705450845299837390715378349635587930408361541413706760981795318198807960 28836568047983209141473379565197525345090992291686236324354888655672055297890 55607498742862574316280240583837431275014511026422030309836311294181021455951 (-48699683566881404917328649897356475985441144634435351488689820920078390928910) (-20161427601336938463576688776177418062063848598025710376000066971143515683631);
   Plus 6479506386669837349532716305958865628553915821616025280112288778786859961771 56480669708456234018729618168058262420089375595568892252833829453556394352379 33107306088027776959612840432903888922748541166616241607230493852683216856501 2308373427652013688367280003090632559739137207861039028474697536620772594104 27150164360676239869912572302679708470344326689233130965408785436254559046368 27150164360676239869912572302679708470344326689233130965408785436254559046368 10993405080518890107751437518718496147897370263629026802918166077439418983518 15525564963025017169311756907914305480671699484311239384297808066010375112650 (-1878437401564967328177650608842366417470283514179344801944525296049306175592891776) (-1304814681795126365614980556940268127124079172350608957627145848729880840860875762);
   Dbl 35254828948387697766070198042606706524658918620794781724419688006644530832380 30124551327989883748844865177565059155945571811946707080541867253947019832129 3609919418939782536038297828189368705985032485845945078376208697281106775335 55825058085039395495326986056194413406508920353483450461977739407140203114103 (-10444005847881586596667611726763166269812315645171613835507861346315667191782) (-56253052725419075356009831358968649350044289798304639131207028481167224523193);
   Plus 56675594353316166922109345595997278098514672798769320917385723543893743536609 41953128703760247731795518423853730188813635863000597912660838984699085041553 57892378065705784267083442964485005773561242946731765216861439186110276019456 5950121036030153337570457031910510636505328059291160047203096019782135453796 35678849986123526541432990642920838110083455916121422068379252203948928829693 24099641062391906999075892142052047324756457449557365664433493803157615865703 11306777602607707294000481411840782691138574391640557821030072766773133653508 35676590446743704884061112555691108456138136688366098808143855611135356571500 (-2703392240716130272808502119184161928325391946822229751063761795652720600596095216) (-996827407941074258633857814329174111726112490557043099379720538266061155724829196);
   Dbl 45412194779146313273668498739417731974719461436580308213393829560938298174340 87218061823437062862524815159498314920337631806933426226619702735567148666 50042871131617491068229025666772945069053056412635978180708040898994437771297 85881307368854928038411682877856337511049507751742249942208982717630411502757 (-42885147228117800334136069378642519875218011102829003227726184594665685055126) 25005047487693918445579942593504997313190677103647747156012326403541985610498;
   Dbl 46823969381620850689535048670067066543854798299875172654339244618112877145130 55635828216023469306926131801644175454036345660854447591928505339137426199365 34431210825017606861053296665724751827495847398396189450090647170993312252906 35620309733297819968307397928017671302237756342211263032523630691954463475250 27709741568462427392581835054935110878462136345215327838840471837513638208100 2533003729432444120315916273812440529207361971201508663334699572471151264116;
   Plus 39479439311384070951061223027128194527407137788577498491943318075697790844185 35687759351612237211236719554375743390279023673868451052610253484044299090849 27749204575211535547861361822201980717723749164704291057176307008996830172197 7902698538571567028606532909705426840709236186675076311712960288193440380237 44508662572818775445540905441315340363229076528683558073542804271309940959492 44508662572818775445540905441315340363229076528683558073542804271309940959492 31749055433762792961615465342574144027564653482167584384498070191495837418072 21332717826187754195944842559170004860025211581278636304818212893450966296748 (-3065924802853625532672441497998896208924957804609946596875899088848318612354908980) (-2381040908157210933949914194850690092223383296995691653416402220319859015605380644);
   Dbl 51012896883491438065227981229078810787254893693717003820836508513927836351412 10834264678591212176408020173122028602766981354020079086933210599053296751427 827421651801530034583310564812705122604411876290461771522809953705856219074 48919443712172021079008087737405844272687528371645124195553166878811893641648 (-47942071031662184849448571183935314886621090072757834357980775393386412393458) 4767950167312388087111494660799449919986194291244128258344495639558813926320;
   Plus 28144109603413708024265174282880828918876463393588772999882325968464272075273 383492649047447492132876812637389019540975490061146958416779088910438222177 48880246740061984893278893759719163404864845531912410538926263198956337631681 8609683266359483143138563231261100026483127601939749867674133365734606439367 43405038514067828368197711641103995238194580482908232481383843681616576293111 8667411742872969741126416138497622882213585083216063269546568479242637401141 35435793450072260138525474912365902404183205730282972334289483643285281429021 36645836625008183511279219543198264773906832777096579364535200230739901732930 (-3091916728868476163165924658607860468125946786160082967850978983849573898982756439) (-28557222897240083272298101319301211960648905219323909618788920026466590731813347);
   Dbl 37257918644245889663717635547118845902747076246927860429071476013120336563800 57263608508551927592209812425632193522298652320133510630284797669641859026319 15926963025995261509729733474385329941992414867359949893950090661378983552100 13683801323545398680531206668681482064688360253232565957365678694222925791142 9876657000405421394847758733397575656124897516560488036385642987707850241542 (-2074261505853927745143120730180288340374847142473354600953311853003052096038);
   Plus 38733127072914382231342786192987397910513987206035603425138723660131853716551 39280216741068718864247843185427530508037596380663197934973601941874015924352 39060394600373111102000723657136300189725481356735401620152290350925821959474 6288191776745692725640069549028737888115889111129046174929139789795725792174 57390095730573161616124948441374545603165920322670864908173596536504800185045 45810886806841542073767849940505754817838921856106808504227838135713487221055 16447981779560265223705565576363541216483015357742950005896205738201180198635 38719048946341181660087647872226065514180977175405394576501893835921534204555 (-3463487819024872934300900978206044402940569094757089802350357933026664827429089803) (-1357698248815938458622214762579168003956599619485107512162089705125874263185806046);
   Dbl 50880448384246733736913537900237331224529298448102930290331587627984340102042 33209755268966469203241440138855714524204106697467375813453458661585326051113 43741699837883380373877802035369844721855806792926466286430813406154454990646 52563013244105841165064641308716660637203111695587444567703090974292731875591 (-14116576659242789783266507268405872310389715248027212474086121914346405367828) (-25827868741167866065479249326654599638179236711629773996819190261600506420175);
   Plus 5193315864346682654463832925253394630733816793830362081248093112028179990502 40908640816570166830668392336996678150383855343728565389933924782170062846764 10340151076823593854990135592482822200579022931983022504341373531907023607512 8587329318686094121644433965751174282534734343314548146784106742156156223038 49726222062636414447307349112822153190017282291102013458654283730850886768870 26567804215173175362593152111084571619363285357973900650762766929268260840890 48045359193934241798244672860138702524765181681555749188863815858729126238350 8881032408933094899186980197819189497872230856868341222530625844184864366410 (-5109930162725946446235485905622296502999051601854670781570370201346701212963405886) (-4130315823039417775478458778693375829390701374340116280035084113320788091095045596);
   Dbl 2901744171759772150998713291752309363309367999211540362231110427895962294950 17822171030124132882905675502759293263064695569656206798606987611841664385142 23355583625880252102748848143592055374508994296869592977413845928907950533181 29371392023869127585623700147532476653897475272041687882043162162044966322931 (-6168488026616759838067485475813215536894066384936555595065694617696371685194) (-35629265924261533622141357358165368794624267550901643909741588614049849394390);
   Dbl 24011052713792291100394327257750351253647300429873940692858942702681626643339 49914493966203379105677895045971336036193560656021944568162311710992010284313 39617978513805605913657050603905928372555663562609138170422409907255541947712 5631643778308508868462920669540239421659221206612388643033693174634738812648 14644154264143074085170466055138647274155101911829153147807663558113921223832 (-39497016169775438093921110446883997292277889726179413762238925440151443348806);
   Plus 44063641928836953177776592083462147666175467079005292850176233073349843063555 41711661583115221338664852699981923362593820736584798088137966721947159977737 33781825293800203469882458037380597750721402215473737193994628022355956933915 4052456758724344826923010145523373962007456124169616536306104348794955298182 5193968401767844657471020534170696472973853125125386442692574166419669335481 39931595172962703284542316036777068828954848524817555654529849368793608227451 4331990586891656411238857257716244223083091663004705955482015233310453058157 3030634204560049046667399101641034618627417268659244583237909788623766112942 (-2960884408566741054597849637185844875798567188017869897393604396688878853344374989) (-379718503578203060212200022620771238838039214027287862999152512419415850119837851);
   Dbl 54338827921332906693102701561805790970433864068798367397235809187084643332120 28850018310685785537724921971788550702123068128843119852870584222088729439683 19652669399734335029355704100935113405437531480857123784354608922062747067606 63587543437650757606414750747464044815223592532474427924356284016318659137812 (-45046815149146304287908243771188462436076115038240410282327509420221797297150) (-6308514621913517635296184259404059009797919130756077323305683869031330391124);
   Plus 11943408279733604767920118884514242827599380995388834068415518220177525763458 32687756102173419839738327621345076281640632553782164119018581021130387120530 44219087591751474460888513239281238046646853590334058791239235120307911027513 9171016077294909921949265913434073067312686239450632702380299774334430615723 46238432496011867514894134579168422132352451436202608690187984179253609479726 23080014648548628430179937577430840561698454503074495882296467377670983551746 12953683060254272952448327508947755900138753251856169418786162202022153926013 35315388298348771193060472012034512727613085385522121287106933484079613308325 (-5556244471792147558096969255750764074545279004065657346551375407114286015547129972) (-889805614791886537062073642355499463314542534291267312374089136274043871749590672);
   Dbl 51373051323111205598797109570447933884537446218661494846733718888523748305045 21303058035315253966641959758337918704060649694381899939773433418985170655356 26870274419157107181303420149332595670391216677281111371211488568603722554653 20919121648273599917980632479692509970040706634308411434861224337864453234039 10356520156041642079340954554351206389042318186307797486830708015540685018845 (-25878510749801263096140330903475969746315776762628399803284790407820602300708);
   Plus 20886097213938086678617011046768451686092889179798552590084730383712279128069 56311582959803724590613789277351838386338983009212439841190491760668280263837 46273068687076153473190340109526700058554077660019614642272231362235759446672 8670468201964715577227013283184868236378525037770179898264494072956299460707 5463237504520583630956469305801544177921521288941463547872988334396823560295 17042446428252203173313567806670334963248519755505519951818746735188136524285 43405332444801187804230872711617566085545832879130531894583601556606642469502 4366460022711493595074600040722250052324751018096936658156508141035521063162 (-3532625563730588173293096568508785905044643003899605634290059985359713776503197112) (-5136385234641160001662968943915446296986605385971368787090844401461077642271606114);
   Dbl 51553273072816162003869890487816560714625480186420438431112311957168612846796 2428761846637101439049808510545357031527352040189891179774799491635762890900 56536893252908643206999450263847080711023290123952486535317387288936008418773 62305179153921568408769337135411860396438128947825149174380985161740459157793 9714022923704388929419165308988108193091507096389326833922968683618372975298 (-49607533412451146423406147004387970947541513163359215967396127120735525177692);
   Plus 50253828097380661546435760546864887348607404853498439984871796572581822699271 29189507275317351527673672757469484306572559378073767741755834378979921331658 266469888859362734389180142123902247851669397848268225699021995070135031208 8700885062748227146615389802383092937653430575697354457079074870022739061196 1943009477309681151239846808436285625221881632151912943819839593308610312720 1943009477309681151239846808436285625221881632151912943819839593308610312720 48295258584650072393857370892212939872780495603337271085540482837709698312077 8942813328296754320137335035837307952720731228239797719378247042105487967 32540694438255357214291341223099997063279158857630734995343174722912278090174869 (-2962429514712548923708274953485473071359056439903251567710624353794871096037957046);
   Dbl 19230707756145811775542446811457643720689408896701219559880354593157549708934 16209310812522612296589866303659665155382191529397976157135582126063987450639 46019360175265080140507553118079384392486008387229521189320800812716711667516 58336879413147948280218982926843361993729812917602761860398081942233182524061 (-35387289555986063832467224833559045696696901869609696192418025019680687209908) 16019709068209599020907241896589557751027385612910275285678544185944244618019;
   Plus 19289728769392350408324521647757951355511033857562800754302703539265326433069 53534573944258633740297998628247868840752349263625163209795551774449998643276 22146494499356431922914376136343168398186819563767240688945093667939309919130 3245655763217776184650717215434182699958438093991984241928164386094947019432 24546657573749709379628991543796522909632751690082437329654224101642502924501 12967448650018089837271893042927732124305753223518380925708465700851189960511 23128879021609188001439204231887401198977753422398126148423485173614580401405 9389629645950652914332413758604723969406778510909611454377986899052090496025 (-1267066263536463659580572397991098918943298434867245967367705540343896903815343411) (-2601990468418164255145009640338300475507352935270090740869350980051040304894994530);
   Dbl 43322403966383920560691901403511072340105557294319786012634339330183215149815 40453238950094755533905636755029630710955410361198424601326306779390904129628 21935574392888096692239215885228208042241660618884506836066731901034172077763 55928591749538917566374294634599320981583724744909014185537691169720000600526 (-19259225990314896268958809836504922333279955024405687207203691786048427745407) (-58401606294361454261510862842157845606250253357592097157544846831230832017327);
   Dbl 30233996682240097716967311353415889272544495925939012157061112776703791452695 8954205231232762621913306626095315593824658619748111029230214390750799667638 2778694685797049224380477084151698160598342102099735486204371477896280417995 60682819528016508319946855340323742840528617787856583707965532246707081431086 (-59089564679440606176287990743274042530106210948446715584206042906269889402135) 3721932004178520799124428564243548493932922460075249440941833927062221277543].
Definition chain_4 : list step :=
  [Dbl 39404145841365071206923949501343431143280873656402588146631950474663382776677 36130638114638380033291301790050328464138816635864625910333182520635167934796 37922144250553782636639015310014912866913906788266529971723436537665963822969 17173407151622898596695874323702295741045897951885476715794767678984351265900 16457892528510586159183378461496731736687760267284379573581736920164858066957 (-9262023164470071703136767136730425853147827477853385079027082642341515219299);
   Plus 27543540364277842163321148807189395793678850735690230065578970344928794581920 19033705974236780840128659864685083296059595886141308798561595460433839772284 29771343901062505783003873242305281092858952346675344723000898161252635858253 6650420497593390918438385210032385901301360661849060947362257904601869445634 17325301567979084484275942931171471985984054842127644324320787615716821383847 28904510491710704026633041432040262771311053308691700728266546016508134347837 49678132750884086427530030389748807347060064938102842676408153905356255978373 8909028493523325445751742728761743561953338448861513081788330748610974379982 (-1701803925308382305669238300413368107448439838988332751356431135801846016781618808) (-1987034401086751577933185164265230395714911280423045382635939429717913095423410760);
   Dbl 41756798062735231931973387166417304496181335918113750105202098276563767599998 37415531055014906191276277580949249280505028007338226955517247790858995285108 5136387337726254611671201757430848712579579638524057819956124916985328736691 19361056291418208706895990220107514340599822083844447299531117069507186254385 (-14405685469990916016215080891703601119483271989975468628577035482407525268158) 3526734755103143359982727571412738983183601945287595421414689996631142164268;
   Plus 36324206877857016263867952109915591940033412733732415989552487718641411098742 27551202652941532664438277638267618745815767233958923708527360089602785054678 1483469736588597437247704713070624497482133211159918869303215369099427317017 7047488527432119041411326704512261065072076771016746329718917888968717608661 53090842691475164037735219066496980995058019338998694372305315034269822156066 29932424844011924953021022064759399424404022405870581564413798232687196228086 1331125647805623520055314154793688045600638777449484197478446330583046638404 1360346098624634791806735177256134736417567651904923427167447818228162594182 (-4730992701039338889299322308084449849022496184172062124836100761933694427818645796) (-77068406385510662528976946775906751891738439561656012509453693922050359924007734);
   Dbl 7691195116158393797253118214709894521915717446275140435268819912352426260847 37013090868973522862327582104646724282912696314668626334458182903256646562842 36497304206197743148319880442698478493617847569543650501538996869164821598182 35900842391208294868182844605758485562665943742276067448008618356074075800234 (-29722985279381122668930073451706330120658350656027659597860591050989479344902) (-13653761747998774297654607505990605887881222428995389134012096329182643605320);
   Plus 8227298123621584794205989691946216541048042147645383543351410924913593970412 29349566237275668693845590060395141512822641094558767637846043978629211356274 46975160350930612903388132286029538915585150385971513882727509868122323334244 1298078680791878662639855710080981952801560573346971910057910489809085572085 6452054847715579205147868681979797855676160118606788259675029521022691322294 29610472695178818289862065683717379426330157051734901067566546322605317250274 17528635332614072822260081200934750999999137435047257786577283571582534955967 5235008938188554966651491550875419902213818156269190957438210613118272481181 (-1205581914300633961471426567059406135865385800431331386262314407984614356456858848) (-1081101722429146515273277541219404975941440157908037034609257762900872587627305414);
   Dbl 36289691864646908290515763250027589193293835896156249489221245717726394580660 27036001545307066290331638876295109330997141591964008343711275830162213453425 13790273979993814858060241019473867614565326280860168275827420747527595614752 16047477489192132138811549134688927728942397614801976030872854065880151475332 302430522020491441724029977367232380883399326994829968751264222356809120656 (-20148914838970964648801642860934916289277417194830214576124161642163602177018);
   Dbl 55228935573549650563982338805988022270322601962755497208197428530619578063241 6965955738465159294542530618170607979179371982733204655515325933591485603364 41854834986441272919790785008274660399261235745798818973984460228262943605164 35371796617154320045743837138679661996674972615561192579992918850279300594489 6033946818752326061302228870509060405940250307325639763954861288745367130676 5085622516291432083090792673031280884053937784544013187763537687963385027843;
   Plus 17570184666025141838255312403159008652383770792901170320789453048934940557395 5956384283592027817810417263546127891376223789932719839086892494800798068047 32032914585282169967608656542546319454847773099239490842952754464933936486959 9321243675152209176997263170950445442558545731417231691396321353173783163732 17151973514503746977991122995405277168670496052750620128358019147664501446681 5572764590772127435634024494536486383343497586186563724412260746873188482691 15929006681346127005901484036502424843616889842603306178206365826765788272727 9489900496277720959970074014919425278739236579394273169670499020176741437248 (-4930485369479928251180896411691970695654017616807644944572379702264456063734573057) (-199383019887483700116394157276918520161384240065207265020224573043563551833182315);
   Dbl 30757458996425686169653860299847519200593786930730346304286549987258235058276 53516782788221748965783119446205476306219340060040153882600850294703229442331 52059496157234277092829170247079266929509142924528328249016367658115646168890 5944964033365509388839210340296777923105858624608708338721024059517264715856 24041508949181330373991082739111308243386393134010210596442888041131312581990 (-43402341023427421000906119206741755756218627492803129954673390026800297579488);
   Plus 3155988892848220024004348390400187946083414749216026290873352902637426692322 32444640192851423343593227593215780685698499572163294396331914729190673298619 22363794657481710817576802677944730859717886138211384077569691199688970519552 5191079045012270651606717843074079864423503722273013498176168509419455806780 31234217306845779630269397056095590259648473581468066702134921834971270589875 42813426230577399172626495556964381044975472048032123106080680235762583553865 56557047281649965792769013978687967885982325769375109206773125769530873863739 12064997302291537508852314614667983441480033133510591981391235802949158943289 (-3717537460557612757449262967403029532542041560781270984060570645552043898601497400) (-3856083736437648279882970387101065402435753720444929257099523670882396008744095821);
   Dbl 54032028274341027470378086719004089446582395925141733756509625371701479884064 56587268284476076025326926206139307494756410468266648764991227526919622662842 56736839235402923670756288633088286004206471406192807823235292529885155249707 18353843516158331355740055992158167724662839196378376860528805718065117392762 49412989651453455223607385200395269949305546130153540417233312105277618297988 (-73464036840403485096766973110947631220739175660610623345523500669728313904763);
   Plus 44148510736282187973115259184741240598968807003143062152602744301854878948035 10062317462881503222237389853715870619905910492408973806852928756161359391022 19367757507401898292499623316302254508940286083021206833789010684418212251651 9119236077565355405790873135719793279814548345155372086196540195860854623793 22111396780117621735547343963173864425151131441485206204101465219953072202294 45269814627580860820261540964911445995805128374613319011992982021535698130274 45152256439649651382752611473453139566039362329771508824901012364713666432390 7396846776113858033999554248662497340553807493515486193328765390526693405196 (-2232040678663940080621616641731516015579620320872494867842406964685737359560302836) (-954760052832119300186624284312397002285622742142183995601576320870726177642485014);
   Dbl 8008703119117037140455513868148890071588571887849011404680524067495726180690 821011036284524145049993947379913613933264190969427422587629806035329929263 12522885374772256255766463188603843379594780708640269962312777509856519823222 35414184966526579394429204698365624082803051176319287237453897628480682449363 (-13613720852849380210798416031970951213324688050340537844047844814736946817640) 31738944387520579600390153277052878745320818452879437310474561455981539476669;
   Plus 57664073949032753288587517703294746425085220195014856291392262636537017179733 37284250659358192310948175616937262349477083080106127936244343020712085663572 3716801777355866127172045499284907013597149184224297583088930814085483963141 1351665979436212231069181420544674996725807227624836548533126320255084870661 23815226676490858400754192159641512461800608285903654745961620646410889871390 656808829027619316039995157903930891146611352775541938070103844828263943410 51745266359539560989862204610024644021907486595449153126892062773172688198286 1528886427774859541158011049964539434819820447978914510209077379964933107496 5473995202830256689173561916408071859711061179273555827921379775673290788232086878 (-4054271346318869168156662720587829791563686653880881151786759361652259025759130538);
   Dbl 54978008674495918054618381277479365087988360381363289871302576075774762278923 51374989975681168649272189396038456273500400051367613109295671102719039749130 4124728652298653623620513415271764355560407152453669275759031269965849701184 81443573610031858279841180252704879884616411316338504699346117230578112587661 (-70352892559647150820844475187780242107333504676804153762869170624020108458280) 29762347244186505672632427410415958104105498881956420997254852793860326204305;
   Dbl 3778443575344862103358450366567760957673892881125610796678780169664680037176 53383320646283222191225385821786623071157441667112969733967699327836746093139 6490461220900573032882986298182599137083926276034900823187462253393170857407 97795472386892756722260367509227648150242382478997396698843540266730918686678 (-97147663275023677773498465487527067361952899893241374608171296857424926126052) 634058346399977633042259959454604773883958766023559741369139804870458032966;
   Plus 36809682186042141662051246447418532998286561443594984572014464406807329279035 18881394321546789232653723012706754561547162527590205182188611750345511727587 315103756491972662199348716755852604477016561501570799869375573259966169920 637705451188712165454185047334972125361940743076650128621154630536540805448 54285865440758197295337407158298089242252951800254432191119917863060709838501 42706656517026577752980308657429298456925953333690375787174159462269396874511 54178545411750874270669679226825523912766725472095047185794672526427144656011 295455073614615039924351350246334575679767380812599089334912966322008984041 2726942340522890765123339516628546092347896993259094877316416335233470173023121553 (-2149701548195598381903770796665553597987496866547846207844955401340269168310866041);
   Dbl 20110121017122265626058216188423147617697287833352779690483353320657064839144 35716134568041981073915865194045950335392175990310485314945566560269182124760 7796156191785381903790129285926208873099604870742732501248637898333779873240 29560909824427231671057439426883749637313829318220213465296477134130115612146 (-21301189261698292769487578465382521517943487512209902316749043812665425980970) 12436032412832149306070734345713668532650574861826279306950160698481547513024;
   Dbl 33264887838055937054631743767209081427457363079736310152228726445716083610562 48840458543553667040747453853382823868399279356356279314183331141507991866416 31112803379926222079613941718442601155664641475591126175012113030254854129247 29018549485923863710603866959172585737436072037470130028353746822761907145861 (-6935666585488232986268185044231126311622787119850414647463317568821292764234) (-41294511577734391760330285633177689508440321949073061871514355769055232858416);
   Plus 16522389400892919480730414271160021859578305395476272309163131874891379817005 25100303233440515294907358208048928369648285879095887028887101799012100541157 55188158553360646483171582832466963603539683065092978893640745257140189443636 5614269443092905403832998248797460769100464314207300590255347765014139168522 27493157911111314090240864581837468309392425018520967047400906512415080529143 39072366834842933632597963082706259094719423485085023451346664913206393493133 35375729395001690502257901601218141423282330749081092735028312790322884216093 26207261099180774688181881377103392933775413977481318625783799638027493612395 (-3012387924375140124150685936650616148284726490203096608090660287754432513286597153) (-1865954877530022901123931490461168060861333284146621117859903412610244066704857985);
   Dbl 31052924583277908235154394850973316842187955947824993304433605417720515990754 26483783170820254269247772943573845581745577449426428630935316615510250579427 11588622369371205465009825405019730780477309302204890033347770857392881493481 15597172136253147632698343066302275366744854096071277323983580073249980316957 (-8110629229328930557802161256722879217919825818614222346364900507024267109904) (-11467906613449386663799724639088578173879867443676450890993307851066538715193);
   Dbl 57489014480867094333233562629393636568512802850452585281652282226076929690861 36942444326890742571743156249884644698204962760366454599975305440929898478453 3662573193146338568877873748160226405002691351866678813451831277169121812135 28770098323383084212473648549953197433685022871495452442009715135583521185790 (-24772678843184660207016022693177199491560052721828519128298901527373017798869) 2203759318881592570472667618749152539259134511546889736577913583094419871962;
   Dbl 15881129394040303318571038660104658952817489741533644230732557500731567938251 34785133162986051122207142014404093044404547312893108922996096204964038334053 9128152299587960718270863932162686294027370738099637476484335205056302442165 80657167680188279425795959010749557024044060844322318912890377365779709528385 (-70861560456482234427892015787288934557505838561586520581360815224348776527399) 28028142691802957409484413182348662011239374594196114615700165214591365634677;
   Dbl 46478140800491943528057844042014356238902102152150241424703071993534343215396 43226023682789180894875564242548572743382562615766922785903075213201218164758 56970754072835396657470035155197929130569246867577542203248392408147682551860 25255883534497901542523272903905502969605167405488265898610347887662661278550 26651912716496034548956701114993047869460548045749192763994325319651925968746 (-59078550281703850653270165087471282511155502678921079025920717214221551950428);
   Plus 46242289809877840387044846299348762511197789421108078254247778573446186039477 38182556675339376168532434969117332378792094434931356290158978755564755239789 8299775142089511016756345932914232235262605536187194967865853291145824837740 7844331444564444455084572006890588828096746668001328375898590229298874216928 57739236793694583800614648395776439765360047025741651036613976972143600459786 34580818946231344715900451394038858194706050092613538228722460170560974531806 8142744429763957473972045003317020958510181332517730226076271318941474343002 8277295718904565622913922440303131575147467119663874426683255678084594746262 (-4620182589257290000694394295294088899210981208046195440897698268876449452601879416) (-653360049277312387589307288265550135015235986135634618512466212533918938830064068);
   Dbl 27689597813367459347903768232138287391792034865277423196301188069877972297520 14289315859350520889735269757835766235125379915083913646700927110445618995880 14236487269515330891437920481998056080341928247609076475258896063673267474824 62115763258329283699229703966544345677134007594784497633448865756747992803074 (-54184964047565773797792048756940261842830490028084778544330672593878293412074) 8239113266120687784137720033576857112623225799629718831027770121100854366752;
   Dbl 11272307267794878832815387033432839043074377085993860508047175054095677792113 22801451611581524946006030768697689912587225703047036705318993451432822540772 56383727817016090327632765455265963283080493146426449150710052355714034225485 16769684029182192148708256461863884464465180436367525589510809082418465603935 (-2690272099173147492052481273342470332972720102639122323534522709808625671855) (-12489653946575216224421963232858617179875925644776422173901688769076740116924);
   Plus 49764144499724891443860384626498857327015921268982431095333392955464907273161 23829798240367299117482332870122674492589616894605558674963680955362637185181 54024875760050505504676626299544306797729210894677425865708293444307407951238 1902479592140221223761269556352705661222801485035383987320275988394225993177 52978788060460078583876120117564524286050775962129798576092469963520196924587 18241161289265219956804824614958151930069780562437629364255194761146258032617 27145266820564424918887199368187417190233372999564017962498945871701196486709 49436407300992260124456833526227467610283415328390306930064218533975986640353 1273378485382679961995061078830250577080856878207596470138170276430188973425068963 (-1359349858451435664420833336420525310898960204147678476093306703485324479945855477);
   Dbl 49278547477332500189803652837366817429190501151222461025736332359334209579595 28074312453822650681200990644777641663801131291702889797533929640980940669016 12815833517360207745806688122241942117672764116847147552708985628801546255707 52582683014324932895604485115379259323312894751617415325751248469378706957275 (-30057206793332855427182940319929944754074065211815301119061139566181415217733) 26751656167392276395513202270028273425237014265437345661669208517438437651120;
   Plus 21934214962550090410338855029212279064521805071082718674979326158940968635881 10581737216253995200824244887115323533449877297429941709184113590567564488270 21816655306531500885687957968634511605533059211447644435511492479780473509740 8316969071078026689325766262088607904701343252356636590405484971292800499025 10880241039326501002603694014953322545713906566798255434081385311993439571223 22459449963058120544960792515822113331040905033362311838027143712784752535213 17321525244909953962390589157598391887698334351343675808968668440340714077302 4099942750328529145588858690514193444425761160917176461853191600416602296182 (-4574492527727829083185696521863681434467828674088615572222140141004427462757119944) (-385176577091042177777260858075520768132142737682970721096616958860371199699155942);
   Dbl 45427628124747579505590784714075388550475944307627272449915040932756132412445 13699638219252845177998177070027743899677877202898228156131160510746757635314 16522018871875005605422456526271366322822771437544869392236484928055512382122 10243928621439518762656570018282646113691534463707616012688391785493657787511 4945967095172748571928709678313155265915941990089252777782319729139450625950 2466333291914189266251881901528311423309743185720708691722387423374301013969;
   Plus 6448871290834914863735983360283030222878233366836052008326610449124497537852 36833338935696003000431725558863866260308351327193223244017775142391106574013 56391037938990572872721578523762471812849651491609365567079785427473893929497 7667031546734455839774515127652312602871070884294906515629583681143431811982 22538919499133895684755640156890985905069300228882638928850686809388719072241 10959710575402276142398541656022195119742301762318582524904928408597406108251 35399115570693518430332184670633327073328828017970439596022101050908484837386 21953020676129441614617951241679125527723708884280710127269112482042600341659 (-4223182875514266765550911464881123809608102098749766660961888447330771128491601884) (-2739998133826685407374206126287296410682900073012724362214529533681390918259964984);
   Dbl 927981845598411504122320037824328113970745217066958075606471214809286991283 48727162311385565690249055687868181294657450924389329331668217083584726297269 29585861734036300805971798509028917335247482479627583969349976623296000073860 24151611863774728577792942593520058383316409225048927898900159390886913268937 (-7731301583531352641431080181502770248209575309043134272632370723217683000828) (-47615377202716367557747833712095954842537616969730540744798384909274267376783);
   Plus 38749452980469874390200862614922835394410344218636146284450755866646878252531 3313965178810964140045143880238958989160085499802132147086326439306858510190 642860817460360523334571195761545087697142598019675825777967121458922293509 156619801180505018562376870855254677835377133144472759579625673006550616908 50560938772840072094556343051163335821052959206075519869280332067659094001805 38981729849108452552199244550294545035725960739511463465334573666867781037815 5686503100973058039252218881817823652050437297888414411237109916803802171891 561413938467849844617982572885591726305936388672056624652626836838438315846 (-627843496485803889485026812909668627080606668642647433333621470768050058455885643) (-39601349642938252237928411894728829494644719449145514874940584861032460815104854);
   Dbl 32150468577461619936167090727377541355262108940023609570613790459512456953913 46058148429821750338458264942922861838899167103652096408274888061081207097702 34544297926371730289818866573076456916673803516577963956798952790731385512725 26124452567603981506402245735574508801238890986984651017521835608873491377464 14746891517121675334530887284912087595638711206152920115352024157623129208605 (-1736019461770761259055546228775153851670587840928650043765655858593487104065);
   Dbl 56444826547534456117487548974133080690706320282134218374774946473055697567840 28489712405073648492736526177834487860465506473193375274838680684822891367565 26189549885364093279322808700339819911202829359910282065977937402820744687858 54494321456928655038295342578898474201034902340415336212621987145702679758735 (-25620360022706810994359561859374581348705877741595291925514826117086412757468) (-31674584392843131001434154625877538982014910115153882524537133826670148471375);
   Plus 55126127305014018323581553182201531959627714051065131536178533385053933456467 49642474924334789352151903836107790837956900622954848004851656057486785850165 18274945631262890760586952937529884485006760551170618007673970471654756398377 9526455235600215449244598845279058205614713502540853177891136312888538690547 22791769924058918794189220942267590288372405178554700219870944547858313094052 22791769924058918794189220942267590288372405178554700219870944547858313094052 53084001592566490489015516508222933040378265608352440271533416365657647077577 7194245460910097315399002691455235825607163181367183399167832402012120642823 70528440228924758486227385105219421370030587634983971039806376485219542522194623 (-5537756363025006780152689169209991501898629331535286662135055166068569546523750765);
   Dbl 37104531661813961619986588370892990298097518049565379161614770513318296508587 13236398305289721393420813698022438044469856831616409749656312681143025679211 7981393044260378559070728248568486150964548949260310039851339565029583533302 95054252229318770052981195177635967945739229222118349437751978714608697314588 (-89419734422498845606563115241027612668624405156784359048905453865225884811964) 8098475478917300218074974699405250860577392311330451857280476724854854669636;
   Plus 2090676967888524471523272699722782681352075619571107784140077169132790050261 42795954838054511369627665874370894386069809627892147428379503057845542347625 53600793623219366003745185669044058552193080879128860931994487069973087814940 6262303944126861039864281419997603274610720316024678419143141008140364771201 56905954339158255284165044961893113576883879331549353415508083748079672399328 10589118644231777114736650958417950435575885465293127799725050144914420543368 33514295914627903391720582497409052145089726795364099479278875602128221552428 52684157174401860060625149612145387509683849441673642510564861595605893916708 (-3736043242783957757123775032096520933262442213008889984783538489108780766749894604) (-3014043990509827892247659867771177352070685371256119201816254835617035313236743242)].
Definition chain_5 : list step :=
  [Dbl 11102525674727130301193548157623901956283792869304111487055214677021785871241 47458370499355176847250307961660708075136169068240206536411520530882530713620 26211114568303966867481293358821517197722201290720722272531007508853780552404 31709673653478198118879981229167372863521941857394075810492296348928764015758 1935616482930823958367393514614259280037995991931218035281157689106241087586 (-53044376812412679071725577717836843569814730588443145454256181266621992859456);
   Plus 55520022695335557736718915926373537872941731293341778388706836785502200376215 16586477326572747629164652926135993329397808048155564689111664503700123034858 28798599193806513317667425145630190679930990542672718358650970209925308349058 1873824765026407584491897623376921993641540533783648649525568363446933647381 37966696399484141477800246369328566460108935254592165229129216424706024570896 37966696399484141477800246369328566460108935254592165229129216424706024570896 11168179928040612621339496268368050509170794998809331884602707283486474555040 18885360468464813703525237112260849322450993451958403968335543057463108505472 (-752143345814041845899865390930303761305475124448088066358397560989129280016858690) (-389272144543956260414762278385905830707398235097922401503426416152733597514372520);
   Dbl 25293428207480917703643978303260582365374199411927511125705253480235496859716 14738411143204505100293040353176933809879947010122064958650536609829833027238 21530040021170233317832275128994770041133473638471890902937194977225162390862 57993325318003539750145915196012515973788168028000871359954401746217387028323 (-22405583700553342939981427054798843892918866055335507224787348963744440367652) 43008863984147643406045200323480239315033326842026950330610562854749748670169;
   Plus 24722643938479440261161679563910746692094342648348348101478096601746532034536 11944319465707052963627734564822561830341555968206873257523078761283489919070 51232861576841319998088554221941958086589163849053743739937586406058863944130 4268889219998141613502084363497551693604002770871679073362544441471350861778 34949146762026843164948629284279128618557954541225764774811946089446492349770 11790728914563604080234432282541547047903957608097651966920429287863866421790 57447801632766754265745320722761000551823980446666317775237344027445523148318 30926893366919167510644612128894837749367687995214812212191815283569605442318 220072133782105498384534707867828533514810235559213969907405204442744942198020140 (-1441954613429629501112951836892692436841312303923605948629427250225618502225607480);
   Dbl 34532628505100044411643429752781504642631742725979355084120659954781787484285 5497443879606017388126645566956597823844182433267009051391897920469032444321 41833327905223633927741501271499736986038796374554410187664322098420916360956 13021198525274589040674681768538324452131369046425394315123379807452972022760 14750998325223210550614207116521190143677845408286102657015608612064785647580 4120592087511278758818015161296465836515214230440902666590526454806613284938;
   Dbl 19922485481794700709003927250589595763334569683849171135152170350379524470418 55116015393685266842364943097694836093668791922548169601515429150914097604109 787453644654039844779799759911610504372417555901735892111926747964746565484 21119306659623163627492139691555361926220725509153156113366857459092819847318 (-6287032957751151073318392791283278538530494298711427734616524871138907339242) 19325659333568442081738737035385463592819408588708619647567282645795501102654;
   Dbl 53100675856062535902762643866716755388791917763258330288710355071711223160026 44506112060121558473101940915810747367683008126742387616070465765470525891639 7884581734984213159496729916028313369590673370266321817507119729673120555927 59324960854793541660572327847616518885157304339138534844765169801769254506222 (-30700187305149702166648020576500333693882205746459553845477973277370918985078) (-51675063867573214701071244391510254281933952499663777613335242835963838191368);
   Plus 34806586490584809973680899462284946309035363556922503377232875103892211294093 52704116657848168108849387445173680171518028498198701666310674034085738511176 17869117119476330179386225088597339183097030730673527858973549867896677147606 8962047409196852582354492128210838692353725417909955238676756728434122877384 47184098571828866320838651233517388679473404967957966496802131013167733677301 35604889648097246778481552732648597894146406501393910092856372612376420713311 26040648655932330199871887941787460431018048855150388030841325624635562944375 14562966936867542007651779922870517950844852672287550125769516777858874232019 (-4177617005250439884760445939052187802997874985259933850728496023574362278444654025) (-2884118517563737013790203278579331763652683165863439679500790604677282905814810046);
   Dbl 27598215602835552006215494786581767338413318582107392339198531511970579142150 52320361446721183978012038413085851240738767850764734026973844171436026511285 38801663762867561922315825764615414140088180188102939847618738516701708792470 68903193682509827884391954658597139558765979278479347481959627900165568492095 (-44874293650950179900477169468660543456947182554841082291261263389827769245564) (-62117240409993269728004981456091135790030123684819332651548887819919449491143);
   Plus 1533741519427547587049384105249050362638741444425865383975047408380820015218 35381548807883153399885066021202252524612354858435607086589095409881686197224 26130112587113259494376730190974633651082429023687264494551931709343917783734 4657878881095445680147995908799015913569406096983237934871746334895493363484 41856289157376947182409630730468680992591014280611787221579075337148821209028 41856289157376947182409630730468680992591014280611787221579075337148821209028 35552177848178606819744487705926707168392917466268497303768982101733072665757 18890920016469639483598709700629667181852381021708737694678951424083203792455 (-3645978030596518922992427434849176638948396167394214861029985474574821149354611008) (-2643381315722005118302092411645128667308435209478296710596724375981152473135826660);
   Dbl 6954682131372080210621914677846375603200728233883459933193775196554879520237 5421491214895433453294363164902074669642310507112482223999524701382391742533 21075559700484998156400030041606454252402412077511149423932494667245966681423 21663075039997498291832577711669126646905732104080584339547777446287829444073 657065916188057550982220493660894579406929672640214686262176375785253449263 (-23555367274984570831189001741727287809043020839436075937493721803265654466705);
   Plus 205467397787088020574377782256252903589437950221874563797219979193783271384 785495364037636087310003685321122387638403543618727422741813996180127394678 12502748081149475401280538465592586302844335015768349634462576753800990276878 1173773967514101788664468508395962524963326198279191319756840639164204551189 27495610819379585847349687533659241306367845338818098587091136562688539322006 4337192971916346762635490531921659735713848405689985779199619761105913394026 40303238957706275224575029304021639770732913779437870221051643125074063704053 5937723339760662160423349892601549452777401064703367760949830258303980275035 (-770842299926461880471030787098809674009216123814312286883852634744579612984368238) (-66527367982675896755101334562740576651200626213063373701758310414399940744945690);
   Dbl 33597490593534880304164853770754457675099210104436452014123091368612724724128 37241772735327170643246908160350648444781752334006528059498772819509655010622 52870345963534900408332576640989088698944781992710571451424053210614513849080 11386266934469817345379201617769381245320456307194018362964347894433502940 30675466269030881744345914716070678757108975711542191228032718736990483303264 (-34018907645596433394740087662292942832451785431911712556943081573863741442456);
   Dbl 23781869059641774540634889690378393036766839091812243142157531452724486462012 56369328790041725851357775274451092705729152700639970495966246858166523159832 20265001907143127951926243333201375873908319940853176350723369044854041759537 43452726817915947068343336179156393536431929809352605610131348751368884336319 (-34899112880385217269109159165996829679070061454521939683710962759961152542612) (-24189611344715851582926977012372281348308578581916347623059957675659043316380);
   Dbl 2030792011801871196801693511208367221880379970984381345248158657833445157749 43649302063445602409811987528767732391982280180390537625697051690931684796309 1494767263851529155360406297700354109920235185552299221163424249618038224738 64651714100059535385222132844603087904004268419341094561133472011395023024870 (-46257053461081070229402234111499730191210325505471385302156594088362874366094) (-46240973761124902839458756778421424085145687284503505047846582155521517455696);
   Plus 30058497017544432308646029248214523623145108845577028938983188481607829402632 10117919832648649270147282553060447803121663747516745210900521371290313102025 2396652608996331468500772635655038257511262058610384127712904603763413113131 342746189094101949278266141235475250562306394293737110157391551968175044828 46498650574488101470206688523882976698912822610876486504503399753536660801037 34919441650756481927849590023014185913585824144312430100557641352745347837047 20048504337090813935403186932391856622310191887398598908483341176282605930697 1924848458097285368820596874550598501006900083975739549109964747231149996350 172422379392948749845383740080100738585069012145074639298408739758792683997810786 (-426275113801510500693692623783298384447658084442755955880976223832512512217925679);
   Dbl 43591572483342564021334523973698430038608179955103266011793352947446646511196 26371577427737249637332322679329188789882387014033670513732553243270610048620 43001471008076901102617406612737706529726125644762199561162693395194542269580 17373994222214391501821277529771767252897182239447787588052118682261598687481 21870972748698296249233133049606888618113213493077382282579722708020255945920 (-5749540977709561873187847764909224374163113724186102954916200678514930774989);
   Plus 32741308931151142768603209052454922899737909467657523244101566057292253503251 32463397277693549799477155252098896379156441205142596837932313448612820694820 20168508782102107089556276957083656766406451535609705025217167381820369399876 7357151918294351379942335210198935631254487141103457305565601254795835919664 21097261942189799709865858143463351031905909611226936410986042594616488038896 21097261942189799709865858143463351031905909611226936410986042594616488038896 19394567615777858141276919686766011743416254059642404649024748915176908043422 7349384842470533665117488405259652456133820444308357688839489044516615525226 (-3449986228087607332583910457369742392380283712300228569231512416822177271592482696) (-1323094409920504088445250202624606953636260614208937725321359381792113595527076200);
   Dbl 26070106808981996042787747016704513390866582900373328939218087274659753151896 55487378001520788752909848249088949715837252676707524947615649479631097418743 56818502081446528212851090319240504459232094290372794687436512936012250854062 36718665106343691838193115467909159812638990769566030736092586432654412617111 (-11132432702491115718865285612877517825977367558573829762516279347091640406312) (-54141670219514824274797487553963794589052163563279749389518407372278941986471);
   Dbl 29721179958858745187425082523164655491261135994337033787921934174446220365726 33087688527030325700225304504556825421303992384298990272585372829606877606433 41205514217764956067591999687344576486939613744230056692741229708740570950081 64918071886799238519403044633865741000704913536910409871102615399241017254416 (-28817983158020716102705327867464603981826418097603378252148813192617920657850) (-64988789705210415056915108604563360913375956579087923537137219082211207208560);
   Plus 18769464486935878368940508240785816201827522303913653802693434900627131911672 27321923990433253382170255787847336983739376902274204720564515684984515071800 56682773190531255030451227886744694989901213159085820185014549502539515389518 5016181424330264055381223931631447736337191530028931208036964731118588510796 49628568669087499644894440605383041907697190840567305025959815065268128013126 26470150821624260560180243603645460337043193907439192218068298263685502085146 13801027801943942646255157479737119843413476522727653019726242658668869022688 48588550740718864341916098919646198946708319575623853508915887909011587188420 (-3027920415384486767039996143237331117363810336052241574256407560832340267956015166) (-792390893312142984136163554569613465805147064446694477129340275435293154936518272);
   Dbl 14070380911603390702477566463842427155395183457738916325952210644158655938360 15742675219236997690172616893011859797038150913669579714319550839750172297309 31307219088329182506348363366143716355875078254494280393661891033267793867363 18978504229479892336723029876269686754254723859264262906714728386146889305329 (-10106584484391785606698460467087245876792236354585912254605089702508917671480) (-15321497718548088289967001086690387421563496651724535937091979729033923824785);
   Dbl 5587441013080682491805537241566078912448399939754764589494071732104238731950 19056198757102973308842849740484068364756409390293038103369998072139031458508 25716109023900299342800988733040725678591429662006914471261279295605296700813 7700136425422088669506933963018674775598195388403350226892706971217147153132 (-5170018669137035818527862043019730690526635231245880564187306642995181210370) (-9325464156242957024973952539580968127453198433179304454481752895228369114081);
   Plus 25698478267264889945987308872919680205448378490504238795556323272018637381996 40500563407256977558648635231407271141602471220772873576961693089472641954953 26034715542864935950757044211608505202626408763400038505552090626305056899484 943018341066988232620273258634161284118563794147829520743879000281002086134 38403376853145617731788476794124836262459124445362543290587515259293851094786 15244959005682378647074279792387254691805127512234430482695998457711225166806 22427166977718747070859063462826868898582442517345363115862405466733659833095 17269245228108008987317179103686073549647386721961330581599955787785150481621 276007989636484805906519687718288144124252533161160316433137187665644357303248180 (-1908764052718747111994001754649286982055788706659517997776080490922158357242055741);
   Dbl 18368371136976256870343071257527084553506466990295253249924637173460370644438 21564308064597749689501092161846402216840028171023694803145132256262125421042 472358900069147833935241882783851966318107823321599567754540016471455158976 39738594177068915113935916948938393410421021153584330032631788157763231917701 (-35804332526239443272409957344069213548372513278463291624638760407132408187512) (-17100821833539106773332537041965722396506038157945563137740147888355551238449);
   Plus 40643129417785405565631761215299139805149582406786823665090443805842980252853 30288425779799683707918205956190588053803212843770298177904220309486244324014 53377496201613078208648069382905745808714709314680197505063425516716020281337 3100115211443391609850101348396944605807692212354510963439924416939982990301 51989073222873058378672169232083494129453017936511125054353381007383639228803 17251446451678199751600873729477121773472022536818955842516105805009700336833 55369487720186797779123462206735948829614984411611635047978816900184436734561 47931539654523817287565631507842705079701178114373127537009475700628228862450 2498406096033702115065373647517052938006605080951982619076071906838057781161831871 (-3524227805171203369066159935680868813541614406990962215762733444966612236608284158);
   Dbl 2478180309964777478112197875878300826584803013241189065072566532918550737234 5135115013356098684513319122605950125998461865111178353048299996305560522489 8834667647678346430525506008863776093278486372953158988026205016432697300778 44376998843566890880792799625070468578721109823840747670972248522059424557823 (-42146901991692061865718511660873074697715106589086470778658692401526867915768) 11902509104304799072858946287532185835659609757370563692508648203624282204001;
   Dbl 6549927316645231339735526612721755375371102962763780484570595246791735179089 46912073065785929873180278986697487381563322510766422184469136375330933898906 47344556899238667014258953801387132101620833694783194361642744369675736833142 561537218358006962390762830856379295956850893697022123251992782556008831515 4916604002444169053213655762582363074960252643471532642487275453193257847514 (-38711786890425213504789262075573831381976005780373460571153597319201430893545);
   Dbl 23620919458986494814492080522030974098928792414440528945662987902233915975873 53901441408313695849221648591935008568638912998192699214422862715959583962048 46282596382341177344083913840037540667886294380418508052710467163256726648860 38752978065446568395416720349135668220574637773210104522059328974229600769453 8268201168922258738653722475293410834340479668753599866017644567622900854088 (-80360234265543031322550782944107981529683033821165070711289811967905590434351);
   Plus 55718754641400012697519141757575061905056373550264975518040780363679825328330 737725485047049417543065231757893202303905156444528531050424694599830111533 4714727227669258564763729980661738251781896122009959600623213594537483745567 3986612159402269778540554635993848433970146932443737774693082853908246049836 8383526355456098052306023370941634498930134998861990159701014970393728277669 43121153126650956679377318873548006854911130398554159371538290172767667169639 19447933902970321196768407527544327165832524742968330913411569263378505897808 682707087026350618232635518000215236673509612867692734703576584417346367735 (-1128759729992896027664690623849545483547407759276004477319826938348180589929233004) (-30149840750445724240951118759671085478060161558180990503632568851776805976042186);
   Dbl 27363230310088858522830772989587261616826709522156337943966496117863812735903 32316583099159130187777584522396779712188715834565581627682555495253243358566 53062483387081405360792089241931635602267909174767605952692458559997314618855 53632746038736096071155556988813173838260485887834674011193509761390029461566 23658795210967755712817718393804690779808134043067381522733128365881384535465 23995373694719940571694053000424147033231222849737453645085970547635654549137;
   Dbl 56574249443392541983147087795248086858123614801901226630426161156955742134506 51485858820657006325143143247408615096775519400504352977603889057187114012570 44554241219683746975186162082382376459940250881107300963748758012233814048324 30971164403689852908076081485877682277541616313278207164998224293629175071109 12989670522781703644845967369203505310192407526060443182001679366216863379652 (-44727209959788888400596391289386807632922691034000699977134091394046062233363);
   Plus 15774208889763783628691627372198247028816473888275171518073992159688045894185 39485694343387990765806775054015137112882334580391309392671481259694407400002 9843518607415043116430563228799622076776580319615242651324182032735811902862 9548298538153647764726774809472073041616469792874588817602637460705968453280 41188687056525605060114514597926892077420415520403482382083111245749691210056 41188687056525605060114514597926892077420415520403482382083111245749691210056 16257250272851223413633080698276499656598874207546656406408861233658941861137 7002924122475263062676150997920540584371655477910687496651174756851170325115 (-6024843647484767170414306957067234548408693291108329048481212197374156277030324085) (-1348974179637943976657445683205133209160447516224978134410356530331372651887821018);
   Dbl 22731286258238420116033120639517629409876287435035300699146095324763034620620 6819201919878899432256775948016138296805239893095651982895950986108398389825 23043046042255788606741167123899396567810589859262940421590662445170213383030 31227448019734328692152042696695067502484985438928235397057369833370557976251 (-12469126524387788259727120933333772387971024721477625446943150475608391758860) (-25345938313372467366844513240786580578141439304167302699445491037955553265571);
   Plus 52052634446861072279837360621877546254992891012211973390503179680758143342785 2593572258169826836315182778159545680380166261027146287436179586520916660317 33094854089478444714033945496609667201523641393836302354210095289234461528611 3836464636920415876482902614628331688463082618691719777833376790805420532421 5455361535903119545805420758412910637444191914476521586316760788886718711860 5455361535903119545805420758412910637444191914476521586316760788886718711860 4909668180372786346823697920313265273013023519155995158539187552668436707023 3118423637145721560566590507449819203879012206710515644120433159327112594913 (-1815479985704186356367456125194752838916719103057784733126400998155374370319701785) (-26758838575014114763923284162994424491058017034827590907763942782655088452939623);
   Dbl 40951299178752091120310929436689297094341645226602531679180168661056642994272 22322086262095604931589943350594634795260992548807119827695177526400995207186 38227131052020372023928017879518025629397990836302182243347519176538196202456 46915180265035722414451110983778790573863620800763911726808689491972778363642 22375382492141792638020183173283193254756283804971639864251023311108775465758 31944165289463490222562964519304938299095770033319774015896934763610931513308;
   Dbl 56292047396771534969403288921812050404904178865515520276139041768547853634301 24337072882872450992312182431122328840252124559719762743561524975961913237673 41278308053089038835849025269881262793075708121421594288292070183225246077550 37572246149939444886114640036624877724310303499752673319790996933404527855470 8556778118783488551896511311560144675278586762093885527607208158269827417934 3007807854794550505029590579259128220458892068942184693683276004952206733616;
   Dbl 25299583134926123569951622654471633669002683749473481425941985381955225367557 24497205706531260742345875906375877421980725255924459479322111501730016531675 55522825656974030580086115873291504735033757644476294565302952298809939896453 64962774942565536456986748670286504560188065073670948332635690647892856579273 (-23063112266873946135925777209893478929280710062130201202148128525426535835925) 21009162371955403524683056553121520098824886040718627957593756565380427661603;
   Dbl 7063794793728791262277218902518196963176730483432603781933843168549192198349 39496403936422486459992131965206754953856236350836269560288891189196379720652 42748691335250809791533742965656631616692625876818279571266088629089333466696 21420841482312143217219475536362609741450503567997028125893262942777416216722 (-16194028583029228686274907292229674902078680559137397906329246344828815416254) (-28472821800098078802931350458158605256596758086405628931794872497277611831336);
   Dbl 20835888373370845333444773236081079147655179324571995939610828730703118595904 9008749611818964087347399449852483827934081256811672802427903721465208423428 13077733706315420157236682425127117036266898504397196512807447192855298677814 27806098523665824958923250327259008674676582949141143473029324898813333478959 (-4931300353819936674557392936686331003029759860237505890058515926326956628760) (-28117339728364871042483692438859179468290351895364233033705725363979216930611)].
Definition chain_6 : list step :=
  [Dbl 16026378189367695378049393231422898687207935014100773744427891193142974307380 7029650407934620676104484191732264441212876711085723728871113250616960456461 29119619031060219179462449338981193422652356939937280792245142548391947515643 8900293919387303940077866168369378502683890725682228834968688029350463547593 1576470816482172481149263431596677416628215923371011919134674077701820498284 2561071899042030442630263516355462157442264013138674698164632398357384554519;
   Dbl 17962324030878950955825752467732370985670944627300848076871435712969884507945 27503260717915990209811022232029524814432321788172091784122867413129178028382 57614525638494287105711002871373393120996402161690898066568029411177084200450 5289839482880970542606386297297837318980232871453374944404131837657418742579 13983185065287024474799941808363694923594490899298042872957191088051261658610 (-23786745982986944655668895148826162211921033169673748024716431032357204960093);
   Plus 49719875336055352229007929727912911436432166623327499470074987624081710182473 9414796038546579272882302064801099789234076811809801703463649773311016487315 38868265306719495537548639618851271828729244658799456054189747022180994052191 3031584757611215542402120830103209182538321846431881415468662614796710401476 56740235345527650794920113288229992207526852830229842639135569132877281314675 22002608574332792167848817785623619851545857430537673427298293930503342422705 48049869564455806884719941575772263157469259771590711780001287296174386295736 38092317627255342300685328955111453515327855988994749710261601039417781374761 2707329001078149345680251407965592912756784446165910428708636912722356675481085726 (-950648342117446360587941052377425036876360258359811907644796397668158519645662546);
   Dbl 28527095964273431279378951189823650499693717807796050276857888051943706729115 52586691772534450039728846841482686455362345716854665075727080296838771706547 7482887248724122721246722549839108130574245376755062940992965880193274320661 44229349427008734955958071888035037368233891783685326188701897072396797112857 (-12483407680578229396033888482618891038857017813620302166158206457656514521275) 34370695731895947032958246863920281545537303430704101926057975559120203897019;
   Dbl 16273203671869827997631033908948105652027816266555592268611095773397771538788 31655839118409182644619130518795716063027509376645458296855566994938982546265 9534138782108571782372117873272475455858814662347442571389982954855608777564 61820377873982729003811809141135426822043822680974518288106469868317626549630 (-49142221058111638628351231461786959342000262584115803933955735131774482434522) (-38921071822538605291338375171013676908159831033127920579218553961622030894786);
   Dbl 47381589187918023653259128237347601114620171256401282238543148376974399411760 27161039048821407706094934906532111534963157263474457588061893131751394556670 14517427643563925187091215011077703772589164947075922248974514155896736234897 21882484656447103357619441790950975046577016026057408722342398938996084769328 (-5914480761827553759597618487941822492773266886744575464846203130464601681080) (-19545090154484445181454136315041570237788383072935460108724289313135613483119);
   Plus 33214747643146779440524902190912007870116104641493229827331019369505432510061 48542331631091881365046212303379963747331365514249702488391522452460280112193 21914399848389812825105413974330981553177394149286349184962227872247048221400 7996810620193440997065514569574416495331526233729889861427861120249950086680 21728831239057126164875947925225689227970525810779566070449514505401115645336 21728831239057126164875947925225689227970525810779566070449514505401115645336 20297105175027416779257032744485146621801823430482847880531303489752334501271 8224642963906814496223590734353286483477017432588026121228252113921059339821 (-3752798368624028977593657190309212526621167547072099604713796429364430294790594251) (-2070482200053897111947968294465173952736696660537920387182301115265599775221255817);
   Dbl 13451548609491782673292890066363807251655111218612476433311910238297399052956 15711646161003209074385637007322689994056268571472675329254925485257620334900 35453427877875852224354401191261915972090921284958620384502842522412856623458 59754987477433191282769568116562670780644103598437029656949976641472147986088 (-47459875711707043539702761314729079918398248089356517865243559807200068724202) (-31265870149157814397234382322875132973236121891485187317339706635008760756472);
   Dbl 42252934683897082552908875160251358875781273870374714943138290232354226394894 55108462981749255908326986482108205328185594408017535509722063598025571702263 9802056319781195577446225786847290562481444159548463061314143067946350696212 7389105558071587779060028771541962249936504582167055594502971413936812444476 (-147269105312869891469448677507411105175660801504319870543266971581055156328) (-10468554923411928698515750631648000254810146281660309335925992115238573504406);
   Dbl 2869182527503941518094266167912914028934959459399845646797548871899816828357 28504177405642424407412692300342345308069558964449570503349411535145208144323 33165843473953970280745810004074056020200996685944614098684362252361484498878 83291582583492044885577944207981445343107776932142579218768189244441360250323 (-78793460680042513616120020487532613612821167545195986950711797498374972428102) (-37947277805753297240798850350994560783328241714512958942342774955532786965669);
   Plus 28731757803283813876828935947335558563165706834361358238398297688752351072146 53866831023813293732834314221503321339224643019687842646564963495742984033470 38895497175150386653405130657564789824743813423837664607422176263578142555906 484245245895374458220326997887937159388573056924385976942915139786083733177 45961759771977178610644350842011457817109644104687769210571046029698792443438 22803341924513939525930153840273876246455647171559656402679529228116166515458 24930509501156659212797232150060630435583448472242738056599808763778970088377 30877852004414081341631005443019454144777223236394907568407022610986437243599 640680930976455111261155961698632587096078469633441442393841761482624467080987300 (-2822080170606339393872649070631658159108682626094046224843190333277098183206093458);
   Dbl 11158847458266999133650209979904914380608439979545354005322580794442463515791 664410718797386863613291445030950771941023795186902931500380433267895438400 10153289664316688375080297034294210949489345913846291859347619453144519811464 64376580741639647949425581695893182704148677141765595054980053398836512742848 (-51507464703184512368121739204282536890069451696436816069193899047402140475584) (-35975990178339008644733831653901286782943787656123270899884097825489472842816);
   Plus 721967501507112044862517523513934223535467138664671551097250193297054360076 48096188549525518152463405152899299260784975857470836686159698307190462908230 23810239938035163309768029595920614443806146644352545789903670965225403062978 1883330453722782224470203263160805310920444384652517384472447530344465173951 531528575037909490890633156024760617552819036149522345200304346614316350720 531528575037909490890633156024760617552819036149522345200304346614316350720 36970610600116366857591051927065208677720374360028293636520654784622969481274 218595639631933921861479734146406645562716793175201480249163254516004496414 (-1043674244417981552039379919073207397824871690711661234096072989470968936684617216) (-3736664025989812876435170877124336088592377804865235359074470822744532475414429308);
   Dbl 4622720667428310722937949654982143046323968000195952241720942220654320327898 56859640691828592856089311954044441851848874316674061461239559209907989611052 17976844294489732425648508694096175866733683072176568362045520593048957931807 39964121993216225593630731499964320474225620875637648677654124536796576939081 235839245789275638765082392398179688144546876178452727153297804514513150574 (-57601154711719014956813368091951815235980402074084681171936871367179949643216);
   Dbl 51693373178939843198941298914492538810470628569628699839384871406814324034543 26240645358455929895830302924190089779128465020963339268628074434922973607409 56291056426841553456823524935098835485877503521794952391575836994490141010724 56210891562774056605249236382843499481790498515265395748371029110463424244816 41180397208064278613783521676802963413457398991628424540957199479184170455260 (-80985892433026746918790423725798091641390560696912653391341382540211965187302);
   Dbl 48752916413884871382258232562426948461980484230571301937073404706610601503268 10379905066273012143075641691220052577901014669586258503183312161873057363892 30835799155275907272179860172179611763572179074710950733651834679578761059421 58048461195953929237313314822871286098996105486008598818995789419121040505241 (-20892615637846728006971034741021719193580037132782354019258004329968412911954) 28733581108550254752099647854736905616661529235731213917932358812849318964180;
   Dbl 13822134705591452424448095673840816451976739236726608973365734742798574242289 34480212789599307767426641486036494500413052572798616032060881553362380660124 48447654226826459567323078361798863650848193064692992022165681859141000716563 42914663763461641773084677862364646462443369360849987288677775893806984257825 (-5914934042949502047751853046176111222273269992460116355348055342882050467345) 10339549216520774027186459702212098882894128951528262217225896275371681041204;
   Plus 649236092806661772630847875209964721268838245826752927859831015174532554467 10657744473042264316917654138142245039141681680294090143512408778128701078179 20874836827195458454392413968090610492951776311784291993552648396709882618747 2332825797991664107384497081671583167003663159401277677838863946395532233264 39163379155411065756298411689697986385657440524802949229594463643481217492089 27584170231679446213941313188829195600330442058238892825648705242689904528099 3215349674480698179293984330721978013025368831177842154458096775503794167192 14120639067065552555298964299962643878261344677989451995086480740048481116759 (-2048981627919935901582461759296559440836404879126344269001608220394293592585990194) (-72012896543411757060375030013918782937888397732711249549230661367600417647989622);
   Dbl 36055130842054129146915824819556384876462708453535997732869079759409426467516 37207836472573605657027629452996536732768279341854132325361500055974684701242 1008098478624289434216866529583433882728681167374668087443195212675882660952 1969202309204456836900527942716095918226726547616903538359541644088403354722 388771598079106367595624325760510877304986557867492459045877973343073333254 (-2602512383735536596650529725738332499621153167877089723638378722406851120748);
   Plus 51935919422277519334342235615539096536423696783743625450972209717025177149480 52862340791569726939521175492245091512308466285024913160457364284197473719333 24675577668710563744483336624956117774734707386970175189508491385918106957778 6085191699389510667019385285437999467863747931607376463612119991686270996426 6607851330595645440907906560659647815560626540355193052397683243197121833014 29766269178058884525622103562397229386214623473483305860289200044779747760994 47290188009446209261644480135149448959961514105569432832111904551319247825816 2816298588364333944790851930967273702809788880660746462933915200227298686724 887881151773015357225612110336751352540603067907180429690339158548827827683867364 (-5253324122042178095396127532532286393306660848513468199671880559488685776920354382);
   Dbl 32100291535569300653302039307618626238002136068331815595653704967767382310371 22777209261683400770356490794144172479419291288539475263999903657459202638785 38707244006228541422242409187461826693530336509719455526564745969564155838541 94855647503621240870928328845055923594419438604577636581546293404476860710652 (-73379705893421247576797654550765427774301185658300119814761459583816768635981) (-16904960448442225346262625198264553489555291230121549365653418090004596860596);
   Dbl 16596425495480743685120138436507209266011059718677867455183863509144308672606 53429556324878822811492669075039719846484716734628412067323585715668216287328 24821211378667640467742007010795658305633144213847313142940352819225623073134 26758822448464630639831629916351659645761920813712737110656392189835471105868 (-18142288249537443263103675991509615622459970461330452339837218432761313717034) (-14069335165389049836459226447050984240720894541510624563780329908732917204120);
   Dbl 57102225168991045310489229361966414282507354199930816320457714026080890808823 2065434119168113416192914070849982498875745002896447428818405040074261326135 52569270893178077845513463052853972376320152066986119740401600749536491815950 54065158490839093650143104744465079567995684394616760425154367876831789023630 21216355106773531468295555548404288022540048124518332781328197923138085597386 (-46425529296049777368943436994690277702489639135046936350515116263725404437072);
   Dbl 32810749950228644623648904623380922412351275643293402365157890471167874456925 2749566447724481074810875257022618188845693891279486039555405916380591399505 57608507271814260839936645765555434165538658422829768954887490480216909370591 56392973973537953144443117873821960804695032027254330193448347865918792392687 28573567844035225474604620418810179907270447051709030391830109082222313321285 53509694882559719171218762113981343572299426877156924386888398044034884081791;
   Plus 40603437158368247485049549043653038989627153307819808360898119266311019328457 39825539986436554910525940381600580530878942910780759385059752163392448836256 4489146324849142433526094848983174961500021619678875877903874048429468911076 5537622484925120764406245242319558095116850461866133043676710849242853050551 2199653158179584859848700205618094551076555113023588831644324733104473119604 2199653158179584859848700205618094551076555113023588831644324733104473119604 47634102611661422550744150106691906641905681764794181813274549446241245105256 170556813613523212037768781864120342561348628093222548357480634852750223752 814388258897758121152325423667935244534186465417084097515791158335076847573048068 (-3986542762769359791976125945772389491088519881896636105887856249647504794026087008);
   Dbl 44266499663807652944519130023400480848102937250740295654820582298029216612854 36819707691922247039763420342983000657693468670778352051107521710083395294508 22093298440502719972239949204505376233284444735360744918340934969914355722812 55871048973911575359522992930421546353736156993398283423705211970303882485577 (-38968372488070203519837368686247844008337993217553904453894828473065938518264) (-12969855222638414293139659654276415629605590739422076643581971153290176051683);
   Plus 11323996535303573599521730271382150318843256438964394174742271111014340109157 39721747537701931533897904886531262321975515991640029014413414299453786492482 17565822282585008626854446078096240757726735010611943976841985623009063354915 7471062509667607878850939883697526458392762884299339819156397146221957565227 52614184001001036716524933276123982096808771869750794448777534169649342163586 29455766153537797631810736274386400526154774936622681640886017368066716235606 1424946749177813209947612109639572150618070402101428114492229811307662507560 15963290960415057958115507306072272038241982960758047160011343477805966838870 (-5030734204781650719182795584235929205969553291462759850566602285433271582927413806) (-118944330961418050559465377185224026558772302448140747816431144857286404350991026);
   Dbl 33053825982284889101955264837232288551473073687709285517915636616920901010877 34359104419271605801232395358121429974130969143944266532131005602166841500771 30124644843552496278244311693260160687872693719809690031081965585324038652240 29467472885543027430071449717357147276957723808435680045991767334461110800417 1660163592931608634980270297282879245937832579026615155161004227592060687468 (-42915542228419036216879686981543618680211468762146003127266023528033374195977);
   Dbl 2547125624176113563836583159910045395602756151829978495970968701967276889965 527216025600113533795188917339950037295425176681845975472807790961107518504 56156195577805839401499101106351618746685974849913409178253248480093390627268 39261809395335282189840422597166990007086441924403407158820269631514241393798 (-36761800327981971499785792629475406900446930419939256064112001694401956613986) (-2031211137948669256170943949035118584073883969638652100549570321323320793424);
   Plus 5294502482012705261017037288489050455359691147473259400067773892872082945322 52947328827721870730609407849680071456032189476974766600300213089895134876974 43895782161522067449918767027399489193954220429020995323480266081208897164250 429890208232448132946248477377454957332494544746696110385429055851543109145 12000981744211710369393249634740750815163338607909533184324004633560198978793 421772820480090827036151133871960029836340141345476780378246232768886014803 29876001931893434011037778568903511665683001665358180605709898592292921442453 9098937308034192056172362497039968339155623917728702003261935493517712924553 73657797540738465473985833168790420107219063982099992598074180138460970713903166 (-3324170568280870314340609194303525058384367340519149290381385779611046437051904616);
   Dbl 53853495332407712887777886989150366491014378918982343215461626385849283594749 10029233439667061374595826967338523812887179514540457251339864559030767171290 4747085240275910954522591881009831434165621029210371393866128518608240654966 48905782859136067318780199820633066675692360588775909078765446775636947029306 (-5268276908516065829797720697591861783349405601805991611860621647556611033378) (-48759764472439096753570616975630665497463512246664202847223138097515515311048);
   Dbl 8904302433285831732452221037663945976258950364687486571830031308235397384401 37331029606741395365081079808422202610273205539470024307491581876433078389304 983907059492049446493902428870773652716332533644396407354523543535968825994 51830561183758927092711437059271298497633115349234262607896046793125721361743 (-18506575941324586040613677962009609359779444856593711009723545314206937813474) 47721449552561528342651066968552528732603068457403325455085959338288921329817;
   Dbl 3897019677080718905500282832991938641671650756365859007556972832824682452407 29925096225485849262161601611834714714444292527669886531649988065020832755901 40267748931254118245381014375184278315011065617526265215614516164962894442904 25440293599057976405636671026178100617158334787189860884911519789390691157837 (-8772435991736563468469185302501512145509931334552536080095447863553504070120) (-43514810861803908061304062411785433144347202662595718479457186414423996618033);
   Plus 33558976110689726280283387539219905676107151140683126837437027331878191528567 41468085144731360108487144473386467541613981209325428781306989290744839980699 15898702444834057243637654891912406452228889115482270474593944478790094803049 657718089977624501429578594830872054894972822317691183771730398939259112820 12360868056657059867372182788598980986228435555571852821374232051225353240731 23940076980388679409729281289467771771555434022135909225319990452016666204721 8746612303337468515012247577656248964023868289671840406221659663846379120698 3394390143352071701923554939875825499547435658241537780674918009819277590429 (-376964013291629223330728248526870225175831578763257570379318392017816867024887090) (-762202948430910416005453660150397052866570645775557271683841509152281834444504892);
   Dbl 4975505266892257487246599886219867055322732797817718639644055669110782020728 38770330194197131230986231004903401676867012024676671413093324368428121063957 21246650263701582185361094265101526239195519350953564536111757865229730200480 49153737218369805921793804818995975034609080013315481946137828605190200203890 (-46247375875180623602505483153936132903059666747142830991683036979900807019074) (-24477265477311772019481944993051984142087343166468387314850672214383743196342);
   Dbl 2708365354414494298171250613625067062730879219339056484983624250775453883062 57379744134713207714001444210530995972202117068904428508159584865550341213869 45482553999113036404188223182071579908831531154469879372550431782597025009243 26390302931602230856682736452437490602014261038849637470573796280412266765910 (-4536071374289373754670176677984515976353621433921424345279970529943854321974) (-70612080474511329088534609651625143294976660558885835855245088788157567288406);
   Plus 12484694331002052002203324401662271057087565497838459784853519503309897028869 18871604518867651548056898693869455120274890510894453785979109042847284411078 43836111046680671695182736865624063117477301095578457414340880665502430569759 457103385529088861208955910483944678180140757550362520400204890626329098495 57483004231502185713558253869293587563088692121687599210473426293231585935085 45903795307770566171201155368424796777761693655123542806527667892440272971095 20531279286633397981717233482923247350022865134081661013593970571051976175480 43523376655283310042990186315316999158056362146926740593457740724132930870215 (-903201216252858880581706114684423438835170099209210179802677513164359308457770796) (-814219695676665191217502247592904047057103308562306531867151472036913966786433632);
   Dbl 21132452573435670145538566150610993199756580923348117972333360621215802888576 21121279374181869361115637925514818365051779124511815966017700697277607915301 17182705658826274315919594319779353105871422612937464958330687920997863567154 8843523819761901477625354143461180647556106011976612296457061456419807007959 (-1867134727437860546047303422495933253437791368513649989692924527807091204140) (-9727617748534376133795111544140701453170938199079368882746237032284973725575);
   Plus 35158660406184842829228868854734494877948461027334839428788101310946901128230 3834698150254463617327759397064941500725928903016397929928140544581549714898 21087908901456362524756766253768997062709629432470838771824378725434640843013 3566622058617578469759023295871328901140926526437997828395675282814012995591 5317814575613875946535411839543063906714424833045396368868402157030773368251 16897023499345495488892510340411854692041423299609452772814160557822086332241 10989210271767256988391978043321796538175715423821574857848016767816085870882 1936947334900361928365930898364360435236666100504520891328571195853102962169 (-1678663632086427524877687786277507314516729240764190405153921096757024409912135118) (-88555274486554236317206057819148194329235552646400438916544199238805873001062620);
   Dbl 56868514038261646341936275826591937280329544479483356735590586928751493894382 1440202793720337178644104369878532272314368088435659799191261277769424010232 20598665595001508593693332922270115098107268881980043095611115079652108901641 21604866441219527336650765163775034708859309599707112253586626867865924708987 15575672041992042029445188869495075004869312836945931299058334659753750804318 20584484549277227209609665057310752529111943029275018010868395856630679420152].
Definition chain_7 : list step :=
  [Plus 764292132978072429218270111264647951694707119766687826205675031837376107604 57673746985498339841710763531772135533147976006905136807480650877135249691020 4115361655269849526766414903909802259336397912174274665416887874774224410450 9597962938983753695386243403472895478598917058789843660020732757400961061096 35889789006171128369986578998509198173832489870440697051190284224589478100155 1152162234976269742915283495902825817851494470748527839353009022215539208185 44827187616822922409159535549233940939712879992508339591363689818487442375175 2551114889878385780980370650414385747516528426789040019336264836841803671675 (-5492747483719149824325361031809569769283903081400962204328360135136933139506185580) (-5432958989661333553227563391729737903565410586026539478905991741455585589190398790);
   Dbl 40298884230296730796465381601688592801369749227665138979410163446174938819314 53922350819820610022582763428601644454111909928749845684575526777602540373518 23856399038685887505919691867455036415740896849119744364422489435189049663938 57462392391822775431220299648187535532853350332088221224353749941500414361622 15082672513513685192214165262847383235325633620150960244000103038169301182228 (-79661228975529552073904222527410016776934596637635122735557849559962746935168);
   Dbl 47340681613603682135615497679204817155727815456441715909847409558806127835346 28738936282848908552861297545615226914652032367012226095504241913487766328668 47715578974273620383126179207814488630860660623367167722164285717921176793114 78271668090470320582839650307727217845926212384098651246671591082320414171494 (-36049666738793512017205184912739806702140775441145256482068400464947893497140) (-45856583969714710233662208407867034548450868988359055672659866640763105786656);
   Dbl 57166736199093958861930632578533022806852494605400923744039912726559289400643 24647234324866477227857489006549381762340335359561312152584915517753859285788 4777769046803582808063072415492517940263349890811258749729771596791289712166 52975408156325463877488378002616734172186569128744140989173901765370330341926 (-42281164773254355093299993486925890706997298729571989145247508339790449795382) 22410078136946733729372329199442151448803426776703715069706302294340989302740;
   Plus 4902934677653044007318805572875565887831748466002858463617342795453367296370 9960583645259155079940220988912608018877849146799766322875488219803080217478 34947290675168865236050495193615707716511821661039005839053737136746248096182 9648295276581433667326053621727628270113762128408174261835237467381182881511 42876205307356420867000188206977086980526265220777162529959449215785713356610 19717787459893181782285991205239505409872268287649049722067932414203087428630 9149361813574693734406648403314230607818738705022190577537036239301311745981 25880994458151856766368650306871394794649188354646707339335563768753438182411 (-5976040278443285763699298533539883375262860434093869733009691789070637519774392914) (-191510396404136133797942007606467931015308267330855316278532844867165223455015330);
   Dbl 26674830205414498510857199268510411364550593512183885320101218643216390457529 49399524639183804229508180840786175836824236055816958990961529669334933379373 37318280219300720716878226961997802893011738430870710007451605192753605478874 2128850007273495585651334522503811591456159483267826164093940327542839321990 15506872920133593293577498874542090595399880834816602282866594618568221663674 (-33140083643431696792103000324978659350373741390039227023624127771968716031160);
   Plus 18685407335336872055218243317188381359946569503186104111377659988139931531554 42272207255388275542905021813636668585854440978608851353251886416287774516488 22065125991249765330180643695137335587808919470159013753116709740517421660549 4502034843797702915377367793025089473608394309574863022116095935396665525686 4781992940152184756535249170022568313478393444961397980931948533094007811529 39519619711347043383606544672628940669459388844653567192769223735467946703499 12144815250248004982103258243553415438720161981151538249387975580423453861721 1822495429674319368033867635656873956056666814306649575231277145239341827300 (-3133831182389230412652373165121143347156220889486917293466293703268579856659989688) (-1078853820794739035640934703827956564808409752555052591703500787987554554946259008);
   Dbl 36193497583123468452452031627012094088678213703276049326832486856270368679713 33914370255970765644914294603488346863090483971190990106199516017054965386083 31587612973761115704851668329998359706498981775885324672681461992140063676245 36895162141034564017818808652776654515658297368649127822536854115149674095435 (-7539040570282734684285480294515022441645221658149333398353622281212891341431) (-43337486651737265052907076998590091817481960670704910634907075037103997986953);
   Plus 26679465320417750352637541031864050827341881651454431319520253010775835181113 3572356243712331394584431853448279708448240053539060300675007062115761895219 36268424608960063058259460668567406607278036323713444992877586675202030356986 6108544496191585774577015277135559554236040773648645342383256529834628004325 50289914052239851600645632684528259061126384110080904892851129615226598236846 27131496204776612515931435682790677490472387176952792084959612813643972308866 47852494782360277833033872813827982977872774269496958777844971927631999418824 31503636706244771478810420339419980250715510813435625340228827271139592009268 (-1536353873479582782270790673959091244817778698479092980135524739281078474471871992) (-359232906366433935954091250370099471635850092129918906118661627504682711029081154);
   Dbl 569807918976483382562869231791627298057331406260859673732798132234904728763 1892464663442303264481743150687121542294508656958639699621386618021879303569 24237560261933708188314068996649357091154145175919148677769995090131817417617 12514768559540976274667038201407392251193024006156028590748262743122632329037 (-3053858971251780097035593146738813343698172629256601108211844304953485163927) 11281658680308632476125254966367863267871655301775417641719211162716117083277;
   Plus 56810179045284269225110303129048896784230081474604108945350925834598412158884 14654457685681891066229743770206199244034052426290092959431900339011514259484 1242880841397324192629002207311205220998920704101432547483384117667664413800 96169125941925543536475571668699641339452112734417428437385376012667257589 13093180654485462153942493021418488019162605392130968163642867695208816406845 1513971730753842611585394520549697233835606925566911759697109294417503442855 35339372668418578882891568539401911369653313175114267100025168747671294520419 281077291127582340819055113188728872730484561409988060034388393748768090969 4124603437116165886962716740943934478210635183346065869649316182289620533805188934 (-1088291790698334774954267865472553877990254243724832203982890361092219709196090334);
   Dbl 48354106463017563766564406369253825932299921278697833919504289382147696959017 24032635060160304593507287691654709661832266283965059758020181900559423689442 53882646219998045314902405261370878621318399527352368939997953167509680041192 59453967812326146183007138955302385632828304023142302839509584811890159795480 16242948687682424333555193606105189722499254636879614409584299361268824691048 29668716606269055732869559359727142692993156752567825011746013182822444147780;
   Dbl 1618050461620006027687004844897831505168257469753049347785412486275708105226 30367277722626747756509043029546041452780372217781070443500528112750390987582 57282835083571782333135876408162056873983106626119080383656685543548288970936 50360731531425685137111882773293167332875333779346416548968688701451321571633 (-38542644588585095426988612264152095225410903549226313821453802989970049119108) 363207924103378083131972819452873387089883932046311179013746760184001966013;
   Plus 11335653571948778117048383274697071782436141395381851155421356127654560632558 20886027445211448205564169565203056936974939987073881925517524440748670628303 7264081027037987936990453134263699377051401203538558789636628901222804347183 273085882876870265018817457735788934363202044230414403883125622913471641211 1135404330638159120493037421899251591570300841096743546908905688617686862086 24293822178101398205207234423636833162224297774224856354800422490200312790066 35587212514502863847902048351051357524278483255668995067886454854822386822288 142456520312053415508944848734387978569533575296966102797700077084093416050 66674342816657600746712687401814981410283037587453747443447180260666995701948136 (-1561948039313895613839903698053196991336636583191386983127351754090415312737907840);
   Dbl 26305486309024558101716958022004377679156277983029018828273227568152086759019 56499352931851677030934307074909205277494527853910966412453122714500355443528 12001218294382683583885403287155150539108948426482723696826570393282116476623 9754089213952419066880063254445870796887616982561891328695038060247151395950 (-2725845275462995994171463135544268553790143254448994112340139005936767327739) (-17026900111371743907868985856750045092116642132324043469328207660880002453817);
   Dbl 4482033922122583409013890369555302002309886180410118288687156253275424112678 19990701531033070754536670780678670244859385900952709280885457965823267921360 48421186961341062052441113860503492494610421408857263586055411257689843401702 67088443040553973122120033380164884261896378161595947500235917672931871102207 (-47593242779783472166968246734742284288298411486852983638642953231978229295292) (-59903431934424298647876963588479072566543429616198787117774496081164245972227);
   Plus 11998060681757455986624928325573642757360059901663006378053306013986439605249 54265590371628899450116391776266978716474793025414165819494953341467286072549 7753033720195868947647575482598521915098923176321466492993503519855299406520 756453658114882146303453786352213195634784776263485046622368617760730453554 15992561224826456603629336624542936195887508720762167424708366372658614337088 15992561224826456603629336624542936195887508720762167424708366372658614337088 5189843525143473391375093338822500175712293773792777311364259097824824544615 2141612043880767263293960925567097817563082891480148601342887717102135600605 (-715888162380713036649242873510473523409933159401959494200735396077678347915491859) (-591828073689529064726256296881253267400106246283028978485369749362687762548327021);
   Dbl 22041938019567813785594905582887850280351871157666309596348091281515461909677 50392920836618097506333891712514152469691514477864711348785880132440819315019 23994507654347333058093500556253269214237515695215700387594699362652290796822 53349201639746606973447405413597292762110623929675981867185539882910537166420 (-13356322473953952499246275066063411975865791643759413465312637442982356542492) (-69261280099697127627871199273985261295063291031419455311270544077640767254020);
   Plus 43068661552742449734153890784438763703297335807710811819909065657527348068351 32080098788136790842617678490038203060280651919491355901586274469046175576345 32359865660189595891284060069290862243919214669097417210998995595092579692554 3720120136651555770456254175166851844331389695091083839342155201736582161385 51893545593026097547424211870880112761080210048855825482974462506743968416005 40314336669294478005067113370011321975753211582291769079028704105952655452015 17102109296006306580069482188441005759061339884880987696983532979293196249600 29004885827382970453404844570969239704793759193056204670463084726393553606330 (-1632332347955320792648884873836517563974148693618441281644019371196380593241002708) (-1152927878252649486600927368658426860007566366806790472249851383346309490089941204);
   Dbl 48342361750526627742352875984267620616487746585590083182135408359235322189398 34251516519615103235380146423070665924645835872818708078242511792528492253171 25088849631297499239217665936086331913205278147595835673024550265436077015659 49814151643648795465034258830372557641163538323726674310321596732326789993283 (-26779715263816216871156432167303602024810255701831072415354178995277349484492) (-579560799662158617217979507866044475675558912893541654972127351081146787879);
   Plus 25037371629394324711346554274440125861102805299179006466141194619747925355090 9761178027016640074682791369973620950860201088524020599458394503989755496560 9399350039893581395508268549953705992783100939513264241679955971643198341953 8158964662806644316824270992687972448614189529727740227381900929066441514997 15822004291960463045947018637587741954389670231690910058648251033231480838547 27401213215692082588304117138456532739716668698254966462594009434022793802537 28083392130231940397181737392169016048478505789486196364236003830426760597730 2568682500719716961516677180962832167896884094657157698316713101414572115989 (-3931028881230754442775041771633251400413386213385089077184682633940113571037290818) (-576061119211526442728528874763988095420140820433491365701796586908756724118453556);
   Dbl 25188068832912494138663309625198467967760956436658995188759437404206272898247 2492126853213382445177156677230850023112426627203254834806236867597778582191 26352578123981064118050698450577068948021008541753366303260476058775500520384 12473228168523028576016817717121310210410729045726982449870868235450195934484 3022349268553665082773241724552977953286400561661215427872380297818480436352 8047448096116751514897129269977034812916532561808146856665262342764572264362;
   Dbl 26722056149736955030124754578852773026865702392344446627866537420444812352469 24427505239755214185516880459940309536382996784490331653087388143460021280905 45217135076072438611324104144028340090044556806773449202436686298843373207180 11065514267922606304989050207109568341444202946221392150921592122895172764190 18701641953722248687846855540856390460350751244278447870152362752113038529234 (-8227050601742612427669669108344428520946578472519967428571103475355918159538);
   Plus 35919740954394033835134679724729889399648243115148947649908930470381018197971 26091167286181408863558197301785676569014798891055641832243596720412745066288 36877074571140770698688582847135220828292446684798336840703834899720401108104 4510005385511883838797841894640789934006904556225039867228594763754248692811 19542004191804171348413504367952247629106397427592265322469910514768017024724 19542004191804171348413504367952247629106397427592265322469910514768017024724 48413245174445583125058428392974327190998516076247554228487877226768016778986 12447343347847016944433698197021769557373140253608685960457932495279362506190 551853555014332989069894978288012582599662606632451468192605420452210171173892774 (-2654449516524238282593673545668398196617667894125132137058627788523324701987611768);
   Dbl 5977461597071633870706018316626096190416393947753781515096789486394283395783 14411104097030611677840457467204474875789736621984749864130968427849626073984 9447004972266890405867595499789978860582327909273371658117034313079677846422 34043375736087683087974798269375829739382089017166753185119928288264000756287 (-31399499616591551073964196539464830669959649196384477709067469170173851153630) 8175636365704736007688120290087391959369604892519641278242597120285226042733;
   Dbl 16367613800880687113927487501038947093359141189989886582489961073849940288588 40065731243285388296861411513965264594756594454614871647746646604496551058896 25994550530948559508669293987294601086620973417971070547245602594987203251949 4204259030874713219848420982474790051808189522776622410615899850386251896404 4373098768022677646988111142454600666310077380885715976164806155455550784332 (-20958954234378190618632944494480232839714968705933520723662287041551477511771);
   Dbl 51670344216295264731139108572735645838531125162507847278902612490394313822110 1546339169748125145722901462106044967887532546555657227775867959589051460664 41342781687479562966522909387564959679437447713941208347802167133804067090894 32353878644592121422168870330568671003042960180322492515226799303288405866634 14243372492937354851045852289050613768031074555237176803084491282450345733556 (-24203622379800649833487750060308769345293373830677603941089073522279201890640);
   Plus 56073868135982318127408953881001726398141099483441024413486218154863774797846 1634416155515521967732387716334528856130276468544269853481625711525712847514 51577887573597431469813044296946778949680848492879786910968179471729527572121 8720643702750335860549554125784449576886831054562500894804188241019432654901 12816280259530119658935419670553626759637024503808582186166452768462554132521 1237071335798500116578321169684835974310026037244525782220694367671241168531 48832131188691296436261801493364121592895757109030020851000444625845388141423 11417648074091904878137546533812942214624652178214131138037482232647032320282 693201591741001818550943956077474669860658637890304033432886611713131955676536222 (-167720091741838862645221102669097061897428992469549102875840371955244693661889594);
   Dbl 9775124760631020719417790358613924105645932737083601258127684795821480379464 13477872844461983576805325086849635354223631478547208319393978535174704114081 52710447606057984581934441003515057472557102603103981271837520138555984524533 54355181336287332259093578107973657246946642284132199556400255875004625971071 5733640903398599127592971796265277252467878566586137621897768395259290710576 41992206499880705498272175112348786141224773517295214065720308094649036909441;
   Plus 19897384094884089540536013314884741847211995076314246407776975325038152303208 20718649112110971591101687240541283720274203768004015509479259840302106251880 28959332040705796522133698014518029931941898250201361041696281743971975342560 1649793154668243507170781281826119456721002687590355258116981631952445932952 57099133970496065030872654072954871424686899049093992271298216431305015147224 10782298275569586861444260069479708283378905182837766655515182828139763291264 53289180976553432582823112166456602302628453262582115205264939644260617785321 28560721043721366018204547118340297810703721170175213690254607937325745885331 999991088830977378466029400350770994066234546588741259354556237805586384899833354 (-2320156322887162534681468269157236709635770686858961318769425980053417333571514856);
   Dbl 45778107268107104936637951242075991079940433625103251399804648210469870935146 14896546008551902507861833581581249897269383101427497819164763597328000121031 38632191077965077282021371831458384853434438621867774969135834303310161767206 14252585306737810570915238859353974290936729805167518779390050094779216109442 16305340973902498556686740821504496752575893078240173711635646753295668229804 (-10516137035366564434207909366385175453846757864391281138807574294571571762540);
   Plus 24585363836060522190486471189010374772563334795560743410967591642040647788814 9955479218950249630024612020081751001364681705065937858489586508707314000519 33187520425559596884629143817431375237241578665005420833783885147237931661612 7726183537704155636923968604041179467681854215292150491556993889538482101450 338027883109902463932368364396209132488508014577941851386052477071087132835 11917236806841522006289466865264999917815506481141998255331810877862400096825 52993538100347583127969114086271427435009110603378253391083563729410921587712 193766385061532299325364694808645149829492289886731895218010007554698643092 (-2023706991931991292077889593471765479206106747114533625271376248654009352300452022) (-1108668867630420522365350409026902365580957538028593735574113325914039507959717216);
   Dbl 42544974606701719582127920383332664121953846040418916956390976825381727687252 26488032689393992913822052743315664127874533080011939685237019824962035270410 36519056790510239626137545355861306068447070662224534501262946127182037492499 12151981816106483435621765373017737448849594882295805518113954263948621414442 18380948012975994888477720931140118500688411783201387394165687433816186896984 (-7979637030876955137350040109863658627612768221358319504948865444523028557715);
   Plus 40508046107133476851397501151894113225492779806919056033950806380959634309510 8047385049404066477546574034471471023683495617186820188619048946815956201004 14620925456350621728335480951984487886648213864243544211308734590648428272618 7180512739270622896456353249417940782997905675790461709592246144484714148474 21190426151515194331057642194652531302299626464009551748189615859969628216328 21190426151515194331057642194652531302299626464009551748189615859969628216328 9727829853898271289646363292858748654883824369678338502193437948215320644555 5351378374642192758714769592453762383223710632353757581496922737425710167801 (-3856847047609419666448544802990907703187047337413881708417949949005012536538452870) (-164508186143357931333526824384861713543188418004820754858008047355972882765235304);
   Dbl 11106729649508179552515818981713556036705316756451898465642931855069325386447 52428304004418591725394878486448937626966356733106605391415261096087565531150 49313962598312596060291447767177602145832422613805037792019224719937514827640 29460772610385576215729742124313490022380612135781296978624245359069259793324 (-1800655630405886666597484270010050788844865332524017589365894735658807049000) (-17433073988569391898963976281618597398146337266386032282373878939103646329184);
   Plus 30973010740630571414309267051665752043684679836297014650434146375598492667922 14365702671583615013167551189811344678142067377534549506927962054433563455958 51974211192655527191017898305169671860940494358006075902344126917479518770763 1874534289353309910193656481883006433385838690525474412241404627504309811954 41942643203534873380315902789159150101573085386485284313132208876870052424920 41942643203534873380315902789159150101573085386485284313132208876870052424920 10622038603658002728125080847566946395304393887495035864531839141818725768951 37652585944294264714563132837497677450077680176544639590997301437589168877941 (-1466252906801067129129396883001586956577476640221720722908412087941213177147652362) (-320664966826793704517512704846044045227185694977292752213356287248453376895729096);
   Dbl 16037322742043073506921889323408631226324724994756532371671334066092855588555 11561374258965942087571714298305826102868468939589988506543073232105665007373 11406331420842347856039960928794622470601289405699789809846431594512333934714 20134377318271793861958144296767470433923763550902790559739110308034797030566 (-12211043304342398828141073153775230638531597753699654601804882827085432658818) 10727522384362606743802502808953706776353142642270034354234958772987085028456;
   Dbl 7991653463806571755024051949176585096695160294987826358422318517462130306398 6703519720479716095729827217348405258395122028821743400690375244702634681232 23106598946940486586225391331644338129810650894323626624968306537808246282716 6751084604532204197473886371338749765579093055504735033029619937762639250462 (-3215540031798125561428193173723139120689151700754307122222713572919111293038) (-541750234304463773871402191136891741604963407296986017387908417883222120848);
   Plus 12886122479406611860313782577759913242284781325039546748094449774243787794967 14236063193093128168129286054882270282460430183359107066080112890724734685857 34503594226668279059946621271115529615958159986578995819494042576355712264840 1348788430012603333253736085972419944411858066520832420296395441672215077034 40100442547578631503655157276485096562697093022749563932389575398136046636955 5362815776383772876583861773878724206716097623057394720552300195762107744985 37530752459265207154495846478965022733995324934343435103495826073082852095172 23898167950588851341407352116046549195504912340858951493244827306311391254372 100809230898536907626827494024382453682673173971284129634921943974543582863893362 (-1122778130942204435331809691937234379882975749207028471573021214247874612742595912);
   Dbl 48418598257996483806559533193204858540292381191700045359951400343462406555895 55386695404241615358924637345021854539715644425831568808103224120380294194155 21957528708392832445315222788259027318807404393636601537256147553994156778521 6368615511139478907242127435296117478054946208622864396313019161013997166333 12025993450754215462934294640741135848546087769846077475691067100735674817493 (-21638236348211407924469926545882265399896510308550728545869271069315275102945)].
Definition chain_8 : list step :=
  [Plus 31406533298024967323627523454755647529796685921749653106941017234760026164976 11802273043629714068065006270029927896359548511386885817262733898970000288062 28535394159871393087499178633586832964792684444680241582143434481992899229224 8171831451849187824651726367264835455153049657072351827184259655095919013209 44309356323393292287139709876017483631772515540665255046482579296304235355324 44309356323393292287139709876017483631772515540665255046482579296304235355324 24863365138282908904632766038000066240921897600679966358286950310606911853042 21838883053001267044809745983383298067188258284977464445660300822479208376166 (-4209080621877545100184760070230165736909241430204679834212966815757757644865721386) (-616655105988952309788203055062867074272158107567635825700994141871458001355091432);
   Dbl 38501293310856743531084159152575378179158371335643431569910274524723973517758 50991681853204441562074798379791702070647292781544839766488688163191875246508 52081791545550051529300437873717701798338122369368583362409223433720804325279 19442847783656244312982815637073816579593081900728435169797003297543902488409 21830150541381444038786808760054955185985564107246008647691163336047378946442 (-31239810455879799359037841954388381568526237096712005596055836078955718041216);
   Dbl 48124660576694895147914813076284018110470804336376098912894897995932653867602 46316835694926478169428394003475163141307993866256225615783033603165251855960 19775097196430667528721992987797191594687841156222846831308935855964088961460 70514337062524958481542580159147695840995431090863532705536204352819164699232 (-51382120800013363951506496409814177410925119321573632174542157065798154021192) (-35127131269562963325576234206490607561887337051075956992997912618216771371820);
   Plus 0 1 26187595835145689230469591415084376402084551887632582719101735842039498021991 8122222225738490872703197852475943676987567251844595735711975883380776262747 37053468555941182535542715202780130513046395093004980492626426882532201484768 37053468555941182535542715202780130513046395093004980492626426882532201484768 30655112042971184558329056706696549839726511367961720624960021019854854290862 16760061334493241107500538505654000897334113208084852940225110938905278734074 (-5635184131658924892961674984826809198750378381731929945769858566362703532307229360) (-87254)].

Definition whole_chain : list step := chain_0 ++ chain_1 ++ chain_2 ++ chain_3 ++ chain_4 ++ chain_5 ++ chain_6 ++ chain_7 ++ chain_8.
Lemma chain_computed : chain (base_x, base_y) 1 whole_chain = Some ((0, 1), l25519).
Proof. vm_compute. reflexivity. Qed.
Lemma order_base : pmul (Z.to_nat l25519) base = pzero.
Proof.
  assert (H0 : 0 <= 1) by lia. assert (H1 : (inj (fst (base_x, base_y)), inj (snd (base_x, base_y))) = pmul (Z.to_nat 1) base).
  { replace (Z.to_nat 1) with 1%nat by reflexivity. cbn [pmul fst snd]. rewrite padd_comm. rewrite padd_zero_r. reflexivity. }
  pose proof (chain_ok _ _ _ _ _ H0 H1 chain_computed) as H. rewrite <- H. unfold pzero. cbn [fst snd]. rewrite F0_def, F1_def. reflexivity.
Qed.
