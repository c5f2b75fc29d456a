(** Certificates: 2^255 - 19 is prime, and the coefficient of the curve is not a square. The lists hold the intermediate
    results of powers with their quotients; they are checked, not trusted. *)

From Coq Require Import ZArith Znumtheory List Lia.
From Verif Require Import PrimeFacts.
Import ListNotations.
Local Open Scope Z_scope.

Lemma prime_127 : prime 127.
Proof. apply (prime_trial 20); [reflexivity|vm_compute; reflexivity]. Qed.
Lemma prime_353 : prime 353.
Proof. apply (prime_trial 30); [reflexivity|vm_compute; reflexivity]. Qed.
Lemma prime_75707 : prime 75707.
Proof. apply (prime_trial 300); [reflexivity|vm_compute; reflexivity]. Qed.
Lemma prime_8574133 : prime 8574133.
Proof. apply (prime_trial 3000); [reflexivity|vm_compute; reflexivity]. Qed.

Lemma prime_51 : prime 1919519569386763.
Proof.
  apply (prime_two 1919519569386763 127 8574133 2 576774792492622 1059928654987441
    [(true, 0, 2); (true, 0, 8); (false, 0, 64); (true, 0, 8192); (true, 0, 134217728); (false, 9, 738722385001117); (true, 568590985791386, 727545914671860);
     (true, 551516188110359, 1496445553941283); (true, 2333239349704621, 1627791866040355); (true, 2760801610367175, 474034962347525);
     (true, 234130611754698, 1592438502988676); (true, 2642182373385187, 1321066390386271); (false, 909194381574220, 308700615235581);
     (false, 49645792294407, 1422904383673020); (false, 1054772724053406, 23971194455622); (true, 598710398990, 1823960500244398);
     (false, 1733158629643266, 389468657894446); (true, 158045625479672, 413167392912096); (false, 88932302274112, 1405857012733760);
     (false, 1029650320722758, 575143645685246); (false, 172329690432796, 1040347118601168); (false, 563850530332194, 1740461794616202);
     (false, 1578106994494671, 866923939464831); (true, 783067939294127, 1399712894276221); (true, 2041340153702135, 81880778242677);
     (true, 6985562379828, 1080451766835894); (false, 608160520515949, 984174035796149); (false, 504604666804580, 1149642923455661);
     (false, 688546692896661, 348237932648578); (true, 126354177023678, 1876761100069854); (false, 1834955101739687, 659314630018135);
     (true, 452921437518685, 568675053589795); (true, 336950267903412, 597897700948694); (true, 372469931019187, 695314063789591);
     (false, 251865964282952, 1569228264582905); (true, 2565722575209351, 1320941823257237); (true, 1818045857159560, 59742302844058);
     (true, 3718787561255, 1233058283147163); (true, 1584180493792588, 308972555184494); (true, 99466597142047, 1691588563548211);
     (false, 1490722946492942, 1316385673573775); (true, 1805525996428251, 66860336859737); (true, 4657732816368, 1714022174481554);
     (false, 1530524648703138, 576774792492622)]
    [(true, 0, 576774792492622); (true, 99960005363630057612912578179, 1357890764181271); (true, 554042903304687066388446861394, 759458092768680);
     (true, 173309095677900155873037740976, 78454425872112); (true, 1849475679403096546725255872, 1320549840644032);
     (true, 523990389680395695422278738274, 1693956375729866); (true, 862220156110467774875479440837, 1)]
    [(true, 0, 2); (true, 0, 8); (false, 0, 64); (true, 0, 8192); (false, 0, 67108864); (true, 4, 1329120977193940);
     (false, 920314958071172, 1050703024027364); (true, 1150263703800570, 1672969091722082); (true, 2916173011720386, 925947007178930);
     (false, 446662734664136, 1131232746713132); (false, 666670737639295, 1867384059597339); (false, 1816664587145774, 439825148891359);
     (false, 100778426374213, 1175992818124362); (false, 720471481685335, 1417188017686439); (false, 1046314874568149, 230433742489034);
     (false, 27663020749752, 1384618485920380); (true, 1997550201756923, 708183098878551); (false, 261275430339817, 821990456217230);
     (false, 351998656793099, 1538409348524363); (true, 2465932998415072, 1639521232619602); (false, 1400365964004865, 1373123636036409);
     (false, 982260639543366, 280066608751023); (true, 81725976216389, 1337932286834251); (false, 932557725746660, 661679051269421);
     (false, 228087889215254, 1001669444392439); (false, 522704582871222, 1817493499934335); (true, 3441780615301434, 364420849266308);
     (false, 69185309437821, 1059928654987441)]
    1870148777187772 (-561939919808897) 1290547218147893 (-712619969572013));
  [vm_compute; reflexivity|exact prime_127|exact prime_8574133|intros C; vm_compute in C; discriminate C|vm_compute; reflexivity|vm_compute; discriminate|vm_compute; reflexivity|vm_compute; reflexivity|vm_compute; reflexivity|vm_compute; reflexivity|
   vm_compute; reflexivity|vm_compute; reflexivity|vm_compute; reflexivity|vm_compute; reflexivity].
Qed.

Lemma prime_116 : prime 75445702479781427272750846543864801.
Proof.
  apply (prime_two 75445702479781427272750846543864801 75707 1919519569386763 2 58781699294900834553279248901967638 56747016255153332959347766392083459
    [(true, 0, 2); (true, 0, 8); (false, 0, 64); (false, 0, 4096); (true, 0, 33554432); (false, 0, 1125899906842624);
     (false, 0, 1267650600228229401496703205376); (true, 42598530902131397692302465, 25028188176008862889154256311568287);
     (false, 8302795027212855711539266651471154, 56580480564233741879249161936664015);
     (true, 84865026784993010618038025825407746, 525363819010122823253469691904); (false, 3658354727346700791659368, 14187239010502343284810216046039448);
     (false, 2667849116986611795293650679997269, 51139903851012766799841363386916235);
     (false, 34664529322815938034415672982567991, 46469137633079275752444980012390434);
     (false, 28621653472452636738302808173806704, 68799981630686892325136022371282452);
     (false, 62739656690867980549186651123673367, 17778224489758711899071023030677337);
     (false, 4189307748747627281285879544883499, 40229968882241094293474412253592870);
     (false, 21451856674007544512826447089137044, 47720347233806189130984452018048656);
     (true, 60367428899619713464892154359793151, 18468560993401677925031625497034721);
     (false, 4520969836001003900679748253625498, 23229343619428092347787326881251943);
     (true, 14304390767229500134328427429145024, 32753961333840442901222442004650274);
     (true, 28439578340362558012409913764209779, 68078847400754717137517535718461173);
     (false, 61431324927450983923808694074680668, 45073371629930336582682358468168861);
     (true, 53856184336921152443866387410453229, 42971102267807749004224332110182213);
     (false, 24474762238515003949023892223821416, 47592774870363352653081534189199153);
     (false, 30022547943908435447259870133669255, 48722524022719171530304120725524154);
     (true, 62929610809326620485237223997537011, 72470085821247444221854319097181621);
     (true, 139223657976978123548098563605010033, 30185174562706640841310388719826849);
     (true, 24153655766549413971250243271509081, 43182654324332621718837631774779721);
     (true, 49432680012344824871973740121451064, 24394824322588466860512193392077418);
     (true, 15775781367783956747019089499640594, 8891098993496774299914354183761654);
     (false, 1047795152193649141149779394994449, 23595845868659150720624967079326067);
     (false, 7379664102229353439890419172914504, 66054479624436950297568087597714785);
     (false, 57832244051600442884978381402323044, 57717149401524061738423806944821981);
     (true, 88309054738554283617631556052193399, 22419998889373521538783833000880123);
     (true, 13324982965973867308974719003647883, 43874627144610674934498493071123975);
     (false, 25514811895276353835763086803845420, 52515920781592351666453534436739205);
     (true, 73110113495929725347808450291310559, 41672254019365585796099223168330291);
     (true, 46035140451370669874676762202439919, 32631694856710357160549963474898243);
     (false, 14113825893619568221663336485811347, 16717871859475926632856969644790102);
     (true, 7408963806381322079476735189832602, 69301567322411981641162605964298606);
     (true, 127315594539791580635701739021983678, 73082926810477674181821447406368394);
     (true, 141588295042172695017508381179996721, 13080760679869461802587987436960951);
     (false, 2267939648515745310803544522701920, 28265797496513903534567906995706481);
     (true, 21179610815554203562541471390826910, 31554374427373445403772805978211812);
     (true, 26394572859062702637153813624048275, 12121373420814968771162584375378413);
     (true, 3894925457052096368584428765520046, 18898575225627432890697522413496292);
     (true, 9467899000726056683018652081381280, 73762737377122410642220517343173248);
     (true, 144234628256644324806569158031908487, 60740852850531118790461157353272921);
     (true, 97804144801981383802409641647825148, 56416211138244615478970957223928934);
     (true, 84372966904190369116004620616517456, 69706658412228872767717147444286456);
     (true, 128808350039588239502399209979227813, 37973693337307203418635291319169659);
     (true, 38226203435836232806469042077517048, 18835109685187376995509574567725114);
     (true, 9404415233541267865563960183605005, 47375774832446200791976864625696987);
     (false, 29749395488445921237199068136613824, 67436377777297514487714233337269145);
     (false, 60277323932945120608381249281617278, 16662989012179295954836684311399347);
     (false, 3680199053013209352763500625022216, 8297311239036995625174430186607393);
     (true, 1825031023228908360696315126632241, 6263616174217836768483578692863857);
     (false, 520014875445519891172401512401641, 58621416916463026388768312822378008);
     (false, 45548923375916762083808296582432069, 74479183516488317568236808739344795);
     (true, 147050092847086064529722041560293846, 36831176152643509158522233730869404);
     (true, 35960578063424930184591182118372467, 65703077708265174835656217197796365);
     (true, 114437119105497354116264193440422181, 52356073070347622633435783188875469);
     (false, 36332863201614143283045847432757229, 74962918486997024416429791558573532);
     (true, 148966447746817778816659529407771403, 40981923851260910790607849355824245);
     (false, 22261282317579841980344365832942963, 26295697550299259786407481513474662);
     (false, 9165050982753043382534953011130485, 66503615601871986970065930506455759);
     (false, 58621375939958829550933299778228906, 48484292070966935031564891730128375);
     (false, 31157859233304834676317237177767605, 47061944961031701413151483862569020);
     (true, 58713129859417108480005669020021846, 62166810483162451604049506237078154);
     (false, 51225082392004169399235201478950101, 44682465458225267026310350734752815);
     (true, 52926082037887818499234544606350509, 69624864708664340427325341387314741);
     (true, 128506240285824617580352041517421475, 6741280296826016773998122657792687);
     (true, 1204703741808312115097361180656118, 3869545526819738024999201475857420);
     (true, 396931358367120689461753135672907, 56012821311071537282793054771466293);
     (true, 83170705503519600676979449058380503, 61273529767374573486054482823948795);
     (false, 49763542875877996687565308300948617, 49289954941203021712510947086021808);
     (true, 64403924365523719259072635669552328, 4814181911819773191492140276371000);
     (true, 614384828249261212117907278340725, 38378231988225607398047279269679275);
     (true, 39044999042504252237643592091170335, 973410096174288688281784627172915);
     (true, 25118122946445206773623527411566, 8265492855759132608943725231506084);
     (false, 905530333777643494620962777424248, 21767116697772311521554812997920408);
     (true, 12560221556990951375978798263433660, 16322684511537938205665612333171268);
     (false, 3531414260932896163581913804611494, 63236324164720114890707018754105130);
     (false, 53002789588143948851952649505038705, 11590085039701198534304173300194195);
     (false, 1780486718425140689908568698552712, 15224751006321649690840473011807713);
     (true, 6144632115172098254261958843030674, 47268426716319166950666568420674864);
     (true, 59229461474887934699912627349407735, 65135068534416543053955085139201257);
     (true, 112467032939884189489682678632930130, 56057939102309228668685882701405968);
     (true, 83304745879736795921726647073356983, 1482455650503981732309621930778665);
     (true, 58258447690910823295204421840294, 53042832934621817754314490888272956);
     (false, 37292278198141208079881155389365953, 71927292451670417597059894816457583);
     (true, 137145926921803708604734375089767899, 73275829268763987217162248150580679);
     (true, 142336726375209290060964844232698058, 31208691616004150014705254768945624);
     (false, 12909713878585247628338140486312281, 24000136134063440218256366738828295);
     (true, 15269432599105049898885048662617748, 8977201520408285696053653330125902);
     (false, 1068187378328382064407749740254610, 54393837718160944054781688014330994);
     (false, 39216144650552132506400627819584633, 14281652194242824389558143059825003);
     (false, 2703475250322989457919249483072732, 12040871634077962324165912726243677);
     (false, 1921681221633491320056724558244172, 38264440729169784307155934868290557);
     (false, 19406902927420250779764491783849811, 58781699294900834553279248901967638)]
    [(true, 0, 58781699294900834553279248901967638); (false, 45798343158407497127110698474487382, 19272071963980053171874812410858062);
     (false, 4922914699937485409093593917388130, 10857113732875552884559949348183714);
     (true, 91840957877180881110913198929353031571142600442094525979038936990163, 37861386965902158392126361241741285);
     (false, 19000215729530029768929209346235067, 67447059549274550976172462060274558);
     (false, 60296421032894417933556479848271721, 22845150612647514685709838606502843);
     (true, 406626502771258384626839286840504921532460706886956658990527318229393, 13032174792409769475902886973017269);
     (true, 132324853739995484638156464563060657737712730072296071587475154681938, 56396309446115810308722588662736980);
     (true, 2478043922289624257075121456674227204280892226305861979167589615577624, 43606569418259492473421754424002376);
     (true, 1481533490224101692426377460478284064674388656315761628082875592551862, 41247452127839348557193559971532426);
     (false, 22550685474687461188533698279991918, 60273352786765568393059048004767158);
     (true, 2830468531294361339117184979205289432250470129610101459365817752158747, 17935781077466366980090080633886685);
     (true, 250638751627977546088509627534906123767498057850020208414223720953601, 16430842475225517589341425812002149);
     (true, 210342627282259299897734220191521447840753650730859262819788437242576, 36588309395503799027174081950811862);
     (false, 17743944855969348485054655524703778, 46635804452740277961578082113988866);
     (true, 1694519517152726864228517750540109700725612696090640641098102685850609, 28334687151944976347191379370218119);
     (true, 625524715261228240168469009716221690756391951814349776644785459932117, 1)]
    [(true, 0, 2); (false, 0, 4); (false, 0, 16); (false, 0, 256); (true, 0, 131072); (false, 0, 17179869184); (false, 0, 295147905179352825856);
     (false, 1154635, 37249017818367551225803357327630101); (false, 18390568088419540713180144552603353, 102469992448); (true, 0, 21000198704586354065408);
     (false, 5845373972, 57540172156127493524011025089846892); (true, 87768323520986892609440763078941370, 54651969301387637110966512518401958);
     (true, 79178472738596464028603992035732427, 61606591580989321780200720816865501);
     (true, 100612016363528196112949330697066484, 51294626676562810936092654843532318);
     (false, 34874600400109785010110741815565865, 70907221727050507061373817639835259);
     (true, 133283511924261151466384833446453474, 32799974849867834837920162526425488);
     (false, 14259769805182405020291244956113789, 38671091502185017926787332828197155);
     (true, 39643167703849810160785550627061568, 64134687226725695320034102205120082);
     (true, 109038897391729833739089875975893259, 49129946330668696747602969976096989);
     (false, 31993228866829677464604812351954812, 52731668160668534429276816145493709);
     (false, 36856026726665311569831140646019472, 53232007837694667884745803777171609);
     (false, 37558755042300401026910323427360228, 6815899006979597721589967479114253);
     (true, 1231520888437489561043967924920373, 27351563169514572318976779253005245);
     (false, 9915846538991804092978480448020986, 36418643877802785581023883602796239);
     (false, 17579763701632442834351678143176982, 25515915370493845880933608929334539);
     (false, 8629543046122224655388998502785386, 57793553327652931187992881475744335);
     (true, 88543010309470439154820839753932743, 62153849922490962393205786330105307);
     (false, 51203725768512740208766088776196223, 61109090482572984699313167350717626);
     (true, 98993602468160378399605572779308692, 74425325943528844932868703682001460);
     (true, 146837499280623176155056190186076751, 12989690226474060391927371730921649);
     (false, 2236470025910010689164230430725332, 9010903371459702397200566003040269);
     (true, 2152445451523061074391132479695943, 41483535797710063532135253890982379);
     (true, 45619132322111234617260342837222865, 36992927490348523016874968511124417);
     (false, 18138563752825011389988221154025764, 513309348704093895960925166856925);
     (true, 6984797776589922606771900453178, 25107384053856714034524019378123672);
     (false, 8355422685563742011965376336700514, 48786791113838861753548469283555870);
     (true, 63095733990234880993683556426399714, 23550372780047042618185787221846886);
     (true, 14702495698222504060133497094678883, 34192708828629508492652582794096709);
     (false, 15496460349782741374426957909312839, 23725588849222751655399262015150642);
     (true, 14922084300115426627936480004087657, 74284037970676428699992465145163071);
     (false, 73140260026178284946026360103387949, 1679490236568257179254066873467892);
     (false, 37386986428869317886938646893687, 57875049575816904056842656006512377);
     (true, 88792900146987093422421437432117938, 69140185463195222053869748749479920);
     (true, 126723327870560004734161261178324345, 12685289843374237635476675559532455);
     (true, 4265758634921249914798644829340890, 13171760403748371563029534295641160);
     (true, 4599208872904276656265734953986787, 38784832849308944787944580903906813);
     (false, 19938355793717465847682208159383547, 3782964574628778339320135515987822);
     (true, 379367425910877502586785532538328, 38877602689008559621761620122014640);
     (true, 40067702762777282563722963685911553, 14314454708794176124149993472713247);
     (true, 5431816707254639246062512913804549, 72466306610823254233320016583786269);
     (false, 69604568864888641168444927591077276, 52923723913192322483970867785578285);
     (false, 37124984734424324294785152761527766, 43675134191290428119386496951976659);
     (false, 25283313481485823676523318387740688, 11400356044965588482423009162079193);
     (true, 3445341846656232865445853964758427, 18935679146042012693248632693634471);
     (false, 4752556248222889451123733574281160, 60679732404325505920101321558000681);
     (true, 97607413110038762878864400532412072, 41712449112149596090570426404649850);
     (true, 46123989935674606507037057687651255, 6531672565481006475695702252069745);
     (true, 1130952329964462953850246691678513, 13823227504923762148479631860009137);
     (true, 5065407634161494487114558160920292, 72088510220800202732826346861527646);
     (false, 68880706720798111363682571039351209, 1888738652562569663194994370406907);
     (true, 94566915819754618137492420024240, 67921444504051573029934253803837058);
     (false, 61147586567349870743199647966593842, 44692679468887818587537417286939922);
     (false, 26475140829181573416469200498415960, 25373835843271755692855209936742124);
     (false, 8533707345012022015661890767769502, 65810772782638593774538249456932274);
     (false, 57406289184049389055471778293765177, 2709456275567807824939095492976299);
     (false, 97303796875390224746540460292342, 56747016255153332959347766392083459)]
    8986369574106813140303762220009459 (-7001513097443202581781503170404782) 74602835786463724888147869570305675 (-56113048138023733339996598108928949));
  [vm_compute; reflexivity|exact prime_75707|exact prime_51|intros C; vm_compute in C; discriminate C|vm_compute; reflexivity|vm_compute; discriminate|vm_compute; reflexivity|vm_compute; reflexivity|vm_compute; reflexivity|vm_compute; reflexivity|
   vm_compute; reflexivity|vm_compute; reflexivity|vm_compute; reflexivity|vm_compute; reflexivity].
Qed.

Lemma prime_236 : prime 74058212732561358302231226437062788676166966415465897661863160754340907.
Proof.
  apply (prime_two 74058212732561358302231226437062788676166966415465897661863160754340907 353 75445702479781427272750846543864801 2 8562916886866218785688304546164188478888058893729309188831496247839076 69490809710348678725736597923071784769591275419387514694139338586948360
    [(true, 0, 2); (true, 0, 8); (true, 0, 128); (true, 0, 32768); (true, 0, 2147483648); (false, 0, 4611686018427387904);
     (false, 0, 21267647932558653966460912964485513216); (true, 12215, 4628638295785084893889451652316424292260435400966618603866447547146307);
     (false, 289289893486567805868090728269776518266277212560413662741652971696644, 15332364354788093711008808598298155468112692265701924125307607499922141);
     (false, 3174278557827222526107292405116414999257705820633601479067590615218255, 57330250649429861309007214520744422270324382128232290437001094582366596);
     (false, 44380731295738604031217392185683086777349348121820202495428108695178291, 41106090973708891838101389897987714768736839254975085150187961576977279);
     (false, 22815980197101250396353439345019791913419994164348262890903783749068163, 23945242826029513411849172299223580994042798784118784000000000000000);
     (false, 7742215654975168201809911598809088000000000000000000000000000000, 198070406285660843983859875840000000000000000000000000000000);
     (true, 1059487783963697360434252914274111390113830566406, 18514553183140339575557806636370751481179352454052794437214332974229758);
     (false, 4628638295785084893889451665868951448329240826059778624661076752504728, 22914942042852180170664216294543208430710239546165972272005422331430268);
     (false, 7090294910619748390873257264641946082797972629726671066270942065486944, 14556239066459110530593896064555539865210973445970372691665299812933616);
     (false, 2861047923544484770963286807087786429260562555975460421288474399800722, 68374371026855152641020612544231144033750809634219457695849954770100602);
     (true, 126253508984900373354894381026556239490875790012191310470543944215950217, 13117417266156877797757596079978814322790869001603665404876095842897989);
     (true, 4646794174086721182574813275080574011610525751401744707066584651780110, 20047679271587532369755212499414624199142545264439366494282172378528472);
     (false, 5426939556694593158492829974889293897153386824601573955133766377775606, 64961799547994725065874281182578296004886195168546757757473856842140142);
     (true, 113965359000850265500475501379898387801606939683658142839113474071742806, 23740934965209364792489286609899571911150519750110856637283834186795286);
     (false, 7610661562380469182187706429772284095640119586126409798233905499992688, 8168755345600245717537703177195216996862285761691292375714674112533780);
     (true, 1802057096280258366422318409445296181808458439402809291761354300483179, 17652139274713192475544312847887692193788048695010724881718111497073447);
     (true, 8414948443304004208377296041950108749011417039776825210267541608986450, 28455648359439874638310784023988518796125517754969208118393413381213468);
     (true, 21867228324295757698424031770360050426719985751073422790390933818334810, 13217105514832371164874350797534255318866630777056687337293298564101378);
     (true, 4717690901373996224545563920339630105883539908989457187338350096159787, 10355961428643959130093307169085410106276413062513769988111674380490959);
     (true, 2896260472794487072834764081197825087086219409236579974944177308289603, 57035043278730106897932816711537688585886666385181500225138726015789441);
     (true, 87849707460638283582040663310452147561727958065694330265323838437427119, 24504666612123307174344106069026368832488527002103757337821001201328029);
     (false, 8108198451125958728243069729309306779934426031820993775425201082515915, 57333618419977659353137420462752924873889950472721819865373196097989936);
     (false, 44385945593881917678109450023528970064193873808447348281956677181305848, 32322130936274366114109323046357490458016210026336583110500802732559960);
     (false, 14106742651680678881231215163064095388364561891079370352466739291393256, 6288415898620855136697447113532924530965474995816487699568848970478408);
     (false, 533960691933374887117170649062053045108925557229559736765992858062559, 24789395127676740506121990795443316172680824908037540651963435375413451);
     (false, 8297717270267020319423526823271646156295967462149949919078816131373209, 412024349816548200141943086364028596205517079726380246156891559168838);
     (false, 2292305722456473688039764557035625897552157670017815108944858956363, 18234178220537412970595170876934857876166469715542623238989895451429003);
     (false, 4489512278388218762246303671360266340972211597267651463785352310666021, 25794811537514061671217865641243215712386975086486431578608802694352962);
     (true, 17968899807470580714141723340550681164582422670931817930760761954139069, 40801009893562285752088204383937393116806614912566750335843769962751305);
     (true, 44957131610675095031255730070583083281749073793569577713573758169051603, 12402681362103566692191755834799521852194165119430417263967805021582129);
     (false, 2077102583144541685242326127672162811647713990422651619505854892412169, 37082647931882427398623371648276235824123678039450548771032855310875358);
     (false, 18568133457470550370777040577134308829285887907753606579000865367363526, 54119559549342178926661259191292698713063070265658336630313617810070082);
     (true, 79097958693432679668243128677238253014342254934894011126043702800806459, 13522653977406570011191870511382612755586722156293166353504226889455135);
     (false, 2469168021283752410045389909565289833859967097509021997008509955452717, 21974114212019433659559660885945426361873837407520300720211005040473906);
     (false, 6520029009430488931262510949138141787328616628130623655396124800334453, 54495183552685901177359966483180201528264348421552890689088231887527965);
     (false, 40099874421290504340187538185617285456326844351806929734499171147174200, 3338405103414837600900035204796466079523471613102897481086102142041825);
     (true, 300978060995147545441833166969803906961763571229604732709914793424780, 45181290734804820693966866965428402133636454326555877874946793917185790);
     (true, 55128228379873794493023451068970309018449561489588914095850358748740367, 25090574961964846402298022528070477250387338432928092988165513205555331);
     (true, 17001138123474783195659206062376382745404209548572281437047941991774898, 14541532422772412483748781938097092185207008066522560550988657107886636);
     (false, 2855269623723579966550247597830641256128266587148771158916400279213662, 18346078597584348673254757592498050935287390712506105197126223187525062);
     (false, 4544784264834926983471176612646611394478991574621241456337662787999083, 5452087856263391085256716616465325049151910063893275817725643892715563);
     (false, 401376982992533921267512837329705217395970707643497608865068155509555, 72505816021625066873862501123160121680444432004743548101967399656540584);
     (false, 70985960408552270512257613973153696665374176021924420496983989056354645, 41798357946418270781223368229444732245813545296590575318260733416098041);
     (false, 23590938297769025257350609883988914696325603026261888440487171577370445, 54731198991751086546378799100606212665379413009075113482341243567744066);
     (false, 40447966978247294471429758181847003027684113724936888807286097294640580, 48636049292114472676226644015720072480608741892091854138199179122006296);
     (false, 31940620809837052685532854334485987923845457375964309451959536526787031, 32259316831568265355352392339602711620692714114865623199353385503262499);
     (true, 28103932947924152958568233603747755856523720923198329223729239517512616, 34535417097994849432405185257297814202705981869685441557695476662067290);
     (false, 16104831457917155487947090163203813410013277337496650015491013158244677, 46044699715115020722601546994748792867612014162035495430954632311842061);
     (false, 28627674009785511873408953310599454761089369664240943228112994979959481, 46389651697010524134938358111421301458016973469895535079709533287938454);
     (false, 29058219273279549620232043962920005585761822011042624151113372093434624, 58200707597908217134997745259242940674930352514941598826230714278546148);
     (true, 91477291711845453117543010867639101704696851923500383262015351603129772, 23997387110787384666528813709573122059851639669270839368906264882092604);
     (false, 7775971994147089255172121501948519516665230751954317818886965694141944, 33828936007762808497011543111955492414843289246320578888850315407797608);
     (false, 15452667154552479117107796661539700549656603670573182241988508596892387, 71444372820857717399609969332438524086096280756345732322071908499546655);
     (false, 68922786810941946472402910131973171096285919234692883434002606166247200, 25417467184575767252357029680349076241909971139576215162319634887478625);
     (true, 17447022126012949566229890284461315328947227518565930934691319836051188, 49954247018267400639478274547700329328558255211456670764941595209433734);
     (true, 67390953766965726180723078294745559273563073828075200480878732674237704, 17611019148409857174361663737420163928569641209229863495708252705407984);
     (true, 8375789368983653899108393696229725780619171974719757379839924572006575, 26788317098301379794708081893306661271820128609810925290400693186424987);
     (false, 9689862966995839431746891580240697014075254306888873815680736103536343, 67429644204731085953302479634755481906596003546785610421793126891867068);
     (true, 122788729293153482221397663909818675452932321035539722313486820866865055, 30009215115541763554853515178287582130448806152292901562420694130528363);
     (false, 12160069202627568826768925635170203097944076071368026945468608781916044, 13522026498945079246315372398662500917260781449168065402207743718647861);
     (true, 4937877755663982255414859388128517380901383347537199742509518653019080, 48767240351105272681846202336369063706393231135441187185315757144245082);
     (false, 32113166706449857278408108537660862150949786827887356489590268411960754, 56291050344972431097370445655682286159912054361944766578846226860422846);
     (false, 42786373475997192366056389435546215041784759307172639035452978688310192, 72412170662463890774635813112111773266119935688429115245967565388115572);
     (true, 141605428124094160127696051237130738741294689332582939549791155518714135, 16609732155360190970712018114430129616440436255891635592624638388153923);
     (false, 3725220905196217926987936659760321673503953262316346065050446772032281, 7728265321625027696338631433613288712049994190752233219535202857471062);
     (false, 806474834831817062245357752294925013392455561811990818145222136151768, 32997167712020870889150033703062422367684660713007268013937588004634268);
     (false, 14702124677882099711576890093211156815047128536655385694965810102295148, 999975625649500912286080534088863466101960910698492601649879715876588);
     (true, 27004466216437862716813113653160490515364571609130839941541039813990, 1864007810010288188741399701514243311252431279415540092930578165154558);
     (true, 93832270252768267045241884392711392277937358282070450456510946269989, 28626218806576921961340045529540666170926452197371841027680180287210705);
     (false, 11065084788384638720774662473529561443632848024689134225127493801739167, 31803514822572220289156062795099342274597864049633584675715267654392556);
     (false, 13657682487182926999483253099115111144353355767747567851330477906861009, 19220884436601480912781608216877013296231675185376818870401086296217973);
     (true, 9977081133710788878485526474363420629491015063254761544021916303032567, 60983384935866775461507939732031772304301220030237765593725493615139189);
     (true, 100433783128578596075660806593151298307391274749996097749833075409486189, 9493807042797032635944806014273850683361501286064614536484703472922019);
     (true, 2434095256696191210425617451567549021243371358161409553576415563169008, 34076489444048659561239079338855008208513262077725104410136794821062466);
     (true, 31359307495677893923776046633313933209912949013680927524003958787110046, 61826313265009004440978468937703330075124509582068344407818590139550590);
     (true, 103229415642173157332354731388292763624024471603445041509215906481121715, 38092472508530124247277835993581080589771685417685710040505201468200695);
     (false, 19593187686733661777179124367570306802826125902673235613780615050313823, 8412580975695549096026250807984425299818270467453959999309020922025564);
     (true, 1911240254425378198394069666322209062758283115833186340756343381492217, 46397760927443049928415372891242081617255358156376832411987395353815373);
     (false, 29068379314717853493542162360855650911583375388995232738741341263095680, 65589060776501598804290563247178321167876036293823549237683067292147369);
     (false, 58088424427398887390421738175633245779690077504038796011149788900762317, 51974344635063833093859512245483510711692929980955080034350232016420642);
     (true, 72951598494536368442853167799595569172070949922480415073401006051893341, 33704913627529117480563717855944730838173458350426385312579779050184041);
     (true, 30679141737908042974541609281600598861056693571474527201873994475459461, 15607226933549849188412149648224408871015677297701428383776792889708235);
     (true, 6578217960375540432540592136579209082276806818183506171261852720236680, 60840064566666828104449604088800235050184082297816170272097412407761690);
     (false, 49981134028214738225382228819800608877294010371404312491505000770877156, 11210151264481738265985691976016405560279917407136710771250022789035608);
     (true, 3393748964112091712815680115978767796354162236799456625737792077547311, 64293498626265640742137369508071102737650948951467008432370672468708251);
     (true, 111632560740644715262469357563434341425259886502961409882676947901799077, 65555377648132053839042557023093953082877476083703538010095354435015163);
     (false, 58028777363401262300656498997494618029694395334940420642747655701797475, 59667082426660110222103230901360162163469589987456409263204967218106744);
     (false, 48072463457446456042174531528150491318497362222841198371994029972178126, 2181215040708824600356432598135265150220121148342789236529255445881254);
     (true, 128485386786078082077997155462607710793785404711978971514549341896487, 24071774613980400442812981948208126497856776931130937112981896233531323);
     (true, 15648509778619134562261096402222013461505232876840768348622742805718902, 17913953209660076527292640574682677218388229127185038142443348322536544);
     (true, 8666418152886246588920173943680706393321348206460280069608117129750659, 371480846283010113703753303046957061135269162680402538856103637020159);
     (true, 3726744517950470528587764136716307820738736654655478185329452673567, 29682276558738579352704453691857994359974866308418655819795561839065293);
     (false, 11896554199748784873370513820251028919381540430158295878868795670217483, 9220796693537925466429222464983529936214869305308595239663502903698768);
     (false, 1148057568855933585365137051191848748038273768035305316328413691795685, 35794930560100010156687473970915806510700091833258447157997559803131529);
     (false, 17300944844960312723884608215048401310858970016077908536651247554015185, 54743736280258971203675187500593751096345844666405799066233728729205046);
     (true, 80932999902248468300140484708958273679120605613601074079381214884534541, 5092182106714500945711176257032935062977714911214900685274704292955545);
     (false, 350134274797891328558426599429231013316711410271054919481954330883196, 63808867822073275735339792176675800114600049258448985760339943164548253);
     (false, 54977989104841849702467888481816180570208579150423492501256016086916437, 35476441234520760154751879380824823710469324108163379177643229645563650);
     (false, 16994440403407721095180102669028555888129994255248381400710365588779318, 22247507280918396323159760377723998739059027688696390462137866438361074);
     (false, 6683277410459305693945189275478059230743375277505621395135183221794089, 46866325779079349965483339549245942405815508686002849629816023934934753);
     (true, 59316918704549776903951995802729445429243142322064680747842771604196845, 39850845740953440373997890176948611699563490201265686624961367670503603);
     (true, 42887610912355370015888114187438130839146419209063439058190216577855108, 66354439529274802338907210702568782542386312007989526581484428988660262);
     (true, 118904075126521311668244674786232120397609892262779498434135373874161371, 29965181031249678405723905968250453312745013050990373647487418851313791);
     (false, 12124409179007614758904799660461443281886896336870353894168351523299318, 55567812703539821419447705102927664296609580495506865073393127574190255);
     (false, 41693982270491235626468547074978269675489815906770234181207839877212791, 28874889429504002371803893919545977715965480028873194812282193542023588);
     (true, 22516320845520512438922002336095406480062694714654069063788486020137599, 21477345617446243029579794320946064375794653516798976151512819202325195);
     (true, 12457129540433179075315357907440973171955336139097326397920688076702739, 57216739906273391685808761994764577953080657488179029705530519356931777);
     (false, 44205162462187774578243397150906005315376262742905674936391271963664313, 37378628906462158650990154137639227099388006261582363094841530520425838);
     (false, 18865725317628612289742045265138668221658491394939474687962686433483746, 7035380711417227666590810876491978822955165334061094923159248730604622);
     (true, 1336693931119385263280408430137987105443356298827608855859412689711823, 50792696317277242369046217246118328072763882147087315497958045245082307);
     (true, 69672164746823250823516556564095626911724196281838181570851449872051530, 9448940617414280564426539794122015663432469453192897163986749317946788);
     (false, 1205571610455113189981588535391267288854845976016400096653587335283049, 34242479913380061653905295380126776521067449906465867298438615715131501);
     (true, 31665561113459065534266705461683568934148602871803704960684806013317803, 12954832177252748741321047107951247501585509024404147741027901850758681);
     (true, 4532317768640775825270421807451857074321569495346476720971889619678729, 65083176086450438169915310746334562236446053633666714105479013111252319);
     (true, 114391629319932015003163795194559478888348103099460613753702987044236185, 55642909715198949110656087579556631896400339459121389187075772050635727);
     (false, 41806752922252158735596479174163529461356403712226178273903218759619610, 11447567268194517353183948652276325861307116256737891499257993266432259);
     (true, 3539021305660562191999783395918862747168363200382171270428034792484508, 27776136964880079797717353398993835669243404303021470977641444723517406);
     (true, 20835333617295470855143312424381716154887940821417030786255438287687357, 39748278539264179113990270542757607627332245816611136643167201758124873);
     (false, 21333564348093961926429523082724672791810150060330214511904012628521992, 52173173888014548970949275744013812715644183618233431788780815546539385);
     (true, 73510822719387529850489296395753060385937702661971596107747178078667893, 2353221616674908972258510492962087853460559898516759426930962954957499);
     (false, 74774312974357252137633898932304500715453093311543352621227682470558, 63805005042265740056709226483707767089215524259352690504020272173818895);
     (false, 54971332931636024280426825074046159453777899469404178702163951710453047, 626112192816100370689606523811757047494990467139121588476015404127396);
     (false, 5293355909203933438352634986306151018504358565628923629904904434711, 46388703870742957232210582411727828543221734029460777230051043979717939);
     (false, 29057031859227493852266308409074861207991107942558299955656666464273525, 1853133077678783669732589300477660516315778736200186463272420053820546);
     (true, 92740617870119369668745050242639088461795947722020802733360176337415, 35957690506634113901026339818457221689457701810761477657651136774340827);
     (false, 17458637723813285065138791757272801454391709755840357215103144007236507, 14806834559799583892244899064339596776476858801114407515710139105152080);
     (false, 2960405626760156864625271605876512786590740138580979970811686237055276, 66349444636844600717434566013060067732219112580049021606643346021351068);
     (true, 118886174569593929341682195049628978964668654916786429665844807138992149, 32372565889325925750827761063411896528178707044507442638887595466942105);
     (false, 14150800884747508470947732456307022066365304082157526922933190536408789, 33043686473833781118526975552679152800414294939021190964458217004799402);
     (false, 14743607433844453272152371810057383954043066064353069740413925056151192, 11582302045526555329138884773835695608530111208948770234021666157146460);
     (false, 1811409102704779249029401526406743553180501091481076882641532959048827, 27301679723501585401460767615670887770107452447813736014387123874065511);
     (true, 20129616641340678067037797244560795859005254776208234714578649294633163, 45104934616076462866244328011141574532125779587487763859516876629683401);
     (true, 54942053059458693494945595447807063674377921411159363806588286190025115, 11858656629378446595141726962850593051525347841258325105880955387974297);
     (true, 3797762108068568976302454833587514878473904658124609741837010814679179, 43260051023609302975491150684566069111933147291935841245043109464413065);
     (false, 25269743158984758228451521196446114751408410054336282179881244499513720, 42322980176811199642362744024224961170990067864946489520710524338950185);
     (true, 48373693745898277032287970570038675460846786508684826675655875425786258, 6132545310875193596639989263877865828778173237518013901740318775212444);
     (false, 507818250026469689324209658195430110994438532854668710701813408286861, 51885826342212165621691213901146674622773511135095544600296085289530209);
     (false, 36351660077674794459353553932430767993937784602915847485834149109561934, 33188750509360569261085627736760487340967385603443871443859640257349543);
     (true, 29746684931495388691628493085791724300422628752477270454657922851268659, 28945544552793275899767817501475414754652520982321346619971188233883985);
     (true, 22626647836705443279147844734272476205419649885257686257808192343406103, 69824840827227745672769668983798096560565983835542829108679261672605029);
     (false, 65833460147817795911791652320291189009223681026777771519878090484501812, 50895834909172221693614782924561765196331698218989366824051576728867357);
     (false, 34977700858864938848290626201430506115828471939274621147291211568964424, 27450854856517511367776299244938734878355786778542976268575531449272881);
     (true, 20350192221754119901861332669184747915475586022127161026725137460557278, 62332064015015688639835604837305395205175155152392083907816553392109176);
     (true, 104925194951775018922431486257493154316619262420383503350502041714678503, 67668597600384744556199357078620570984818645165174480099408626640375731);
     (true, 123660534929153603953171358482755215821990937304580891081787771202504209, 16180694220211356100336635633467895081170332421819851797538632019191159);
     (true, 7070515363189919197201295583885612170130557483168536571884249398304446, 46436929596591669777751169727202855041550095936709070120414013109754040);
     (false, 29117478680534059427401300385442718514046663951617747741647854723575635, 4614004437487054384285262317171949693491267101563482123878110507320655);
     (false, 287463552840913016074676089086878835924494597168463829841462645672267, 36179307482845481609848339157336807716876725707440959508771589476102856);
     (true, 35349011045273933580995719120250611256328896255596423504691270962671496, 66535307369269490224587868172340758950271256682969042274128855547026600);
     (false, 59776586058182850195738120940399189034211244870270602024576258623581666, 15064173813767005617549706363041070602460953666876671126720375588548938);
     (false, 3064202123144257133875752436949582284389887177835242866259525688106178, 59279143469451421606871590215296782828910826651011419913255058996104398);
     (false, 47449387729104467184769564176575990418930694227434410184122241356277951, 20506425541384661940473463327449387608860530765032982500561360013500847);
     (true, 11356295891258121486153372028982093085975014327421594348089246775199623, 56324376241442258303437058929130016990699267228540246103312637019556757);
     (false, 42837049962896452722328982594077857896854986435168225520314096918435483, 71425356840474608203703619733383876824721614982639628445214077477153968);
     (false, 68886102048019150418790140434710688719715605809539799104289227233685389, 44693149602587541354497543334952465106079324455869737856534403887237201);
     (true, 53943446586067420974610678965091634003468324309760035231940365969664047, 15602241204812307391118315165715968669053200433916792364806881977358173);
     (true, 6574015808137739710967859373089481240629933992603236535085615363979918, 9273395263634300767696774319545712325282663412431569638073022185890232);
     (false, 1161192750169962843865903453472105257014596667558364102500607726991748, 70075214107254112078977021390084843345536754053461903193563542785178388);
     (false, 66306429104769339488936337081166482283677644283007426828043540882635747, 14510760050501711443706871544543005827908166750461271079486143039676015);
     (true, 5686395862768587843066433539489329222067225831633110943352416020439609, 49719901405035636036265182483128730562551148702430787287584767140775087);
     (true, 66760147308809251780071736063550526925870542574672137548337879938548554, 24777049483517085618852688866200250497962635893108293957661705751816660);
     (true, 16578908900369354518254541934570153708355215919024080091464809233035758, 28639085084386858783498765131685447929846558743848312644172332453958694);
     (false, 11075033601373041412661846728414921298080877836754276180785666230635341, 13383330637015548203237439836505144976208604605500713258433017541991349);
     (true, 4837101310734918797114316701476581090360198562645569122596520865268619, 47324601305947084540464286818508181546177197573896245462661781926582169);
     (false, 30241317014421415286831014750091908379321879219355721136285242509847384, 32897744681744235800756307744508132168458248768409235825753821830607273);
     (false, 14613660865047996262795482575979055296300180208236562041827007747246969, 47879316742206143557453855281468530878464992872339500386272362612035646);
     (true, 61908838658553896780964453496261386802865247684966131926051865095109242, 25407539996202799629132552559164991317066582373393508883427605074912138);
     (false, 8716698187003605968920797014723273034828638335227160721477247278420866, 57842258273074398787967867736816757434061530349917377050586970833565582);
     (false, 45176986031395538946938580356028913343968550981403472638362960881760874, 69506124794764796401103234442390986621400446984907827537409802044726006);
     (false, 65233837082073076656520398050464688750222366199495359011406566433509709, 12681981443826589886290857067318826209650547822167824500792130532345973);
     (true, 4343411686759442018080762121229260591210238215793903620571281355112921, 15244284679672908704527728977362369453742005427831922143696000024074111);
     (true, 6275825646349562875542860723600411650996551915151488639129719752422868, 71635378315474223223417269613213002416450063839495860258741763946219366);
     (true, 138583615160479809560034963871452750908259161824293588883796260572835388, 52976724263460053885640491682516899118269251854729982699764143041266996);
     (false, 37896314400964765887697272355304545568530099034835275048797323441155253, 8819153439228122662293007935925798180710268810710648156998926283029545);
     (false, 1050220691464953650079042283070608766978255051838413705695873118230603, 62913363721103368732084362876491747483978346392781557758194592040730104);
     (false, 53445677240379603014502806702664011303321704712582572098431644455970374, 21671272607125531633107094959960235442768959299508678612014023883561598);
     (false, 6341552666256282314713580885011815265319622175597899443429754683221209, 47316323692617170561732539502443216879721213874520936394969580981617041);
     (false, 30230738836074706891029202410208279965400971969166871244391439495187206, 38234585936263188113153204429568957384070363044741245686231476072759839);
     (true, 39479309796379809129611735756360718810119034473621825901809617699309342, 26342544640302110572830294888487896043360725568301993982296462024758648);
     (true, 18740113554514870869022685295414701225509379963160564210805404736455884, 20563039294965368949738648941513438898316124257909778544205817799529020);
     (false, 5709543471879917066919053490882991514023224675141840779218256514787748, 6896058679297699710658809421963827842280400631326248736978005083352964);
     (true, 1284276883106800510536245701210732555347355381867082183902455919129326, 64874347957920409721412932292940663748872908420433960939529018790031910);
     (false, 56829362574056432745216415320614330021786633040205600814182473719099018, 57426701668729306414677340445338648848696353241708013710933482357318774);
     (false, 44530187036221492969856947398350378863655475919913390499204559555890388, 4459955485037572473818550997453445193442650770193213446026889776361160);
     (false, 268588751936908595670426710425923510931638869976668730379277935040847, 47887171865484411856107134848445943704501965459176375777178811148517371);
     (true, 61929153963128065607913293274239194351547214819835482165648339871764565, 37556798836145457201763531410746608071951528303248769561781797324942827);
     (true, 38092011318510606025749967934120300129414187725968381160172876860675557, 12899785298278094841703870254182536624268901905842378209794725337393659);
     (false, 2246941353318782075002555254433772431291292761630154236313876410339338, 35815698170274133831563290439177935804152398086230910138082670728708715);
     (true, 34642052193630154975055039381013290843893399962514850419104161256064008, 22711565639774933199425807663053267021599759811328948513390119589127194);
     (false, 6964996788033687110325645405788953319250937053291919228737158335739891, 35191527780886979788517868408230402756336644898875445135762822817292499);
     (true, 33445139488450832974554405725121852470707691920190860735169466093318723, 9185722203123450671068554281284446950767608631582595847138297695428241);
     (true, 2278680224100430626051639603860028983830817913470935310970898867450331, 21638755944905968009233527687489337650299478667948462912039469296717945);
     (true, 12645073154387183679835398003695119246394575422633111970335020785137857, 15289781587890675861074756926396696876767179997665361435795034600629751);
     (true, 6313342231188228988786324112506105749512539030632878352591428275619042, 26628249750296532395393132740292489487593362137408879855189697443892908);
     (false, 9574409894615395555665040991300614684233230794749678494919893844821750, 56802009321903528046981429517583031124354115013163065476002109624369214);
     (false, 43566650395102310976939017577196204175794383952337922455758021979060783, 51770086851464221031503262704826230357568244217811678366516641334627615);
     (false, 36189664774745015968648624204716943539415473283419829094416352821245656, 7845580415297430537001397616598205509202838329586982744014653703738233);
     (false, 831145254276915383771082263331854857234225563761833047377794720719736, 35528976449811584508150190885668864274641475587387522367290501238921737);
     (true, 34089620070354844429175994708083366799804649260081899579752981343015680, 40893758467365630351063314254951495285793407343491451367654814655772578);
     (true, 45161756404417632474059009953854559906387647220453277771009049131914001, 46634709408715577863556897612186331440953414947790026646158585953193261);
     (true, 58732071471639693794714070493736675179006875286083744721163605789223311, 8778702619832253067542701701468412290173713593426012803781602386345165);
     (true, 2081217378705819918947979522440587317151491730317446653454693353252618, 45030490995686100096740603283331699454190651584175022797890161775509924);
     (false, 27380422028751217842135288746132709076165806817820814704100458199767014, 66463201670347013562418462857099900992745033074548712428999093693044078);
     (false, 59647093999218639721063414982967700134800166938112654256218183568401638, 5331569481725367790062574531437839647434604643913577963615933901664418);
     (true, 767656471568273161786462420567970701532289280890140415344848122551561, 14078465667482432715888675118206186499682954554370671364949869695551621);
     (false, 2676316214465395659683621272418952095356492362344408073831287299426183, 49218799300941621700777887577765091126079783831576242523622348011959660);
     (true, 65421244052282379343272204262619076524169700747057758374444932680293910, 8156591871279275182395866881698132356801490183586965861250337838654830);
     (true, 1796694478568417886431897533707137244298432479577852528570076412132511, 23433340034704093956194687962317574205731089868991311340412583612730323);
     (false, 7414726941427146900160989402489161233918997662185173758158321202089766, 50906434636095091736247996684001393581293815696839039451544782343826567);
     (false, 34992271508324236463999505286980292924110077295756354663577721689171617, 26780777205520382730579362102228773197482138869253922947930486528568870);
     (true, 19368818157189543031186771993446766939301900279879436592672367896474404, 71522607620235096512517193311528298171072696053002182409632556650509372);
     (false, 69073816556593381106987232309692144585304886737801033222161439736667023, 10864939143422089567638043214629093725665990101315150269836183773024523);
     (false, 1593974499716269206829805050555781098113515926362814959940807772099933, 62156819562095676488270028837045028973653681345601922808711538405518298);
     (true, 104336037166510182854375989103820988133003090867079671482271055584479246, 17564772476073511330041565379811759915519947610164092978358626475317486);
     (true, 8331857352549403176711054629940944240751053207949383179210916877082605, 50523779390368070268484767231227937176772014727309034411098469225097657);
     (false, 34468186440100928947827365128929908919616287024146760054091035271244917, 73926523866934479236542481615125229561745467175177673880405619477969930);
     (true, 147590138335746401317321989853089706382967488980365680673441764939057403, 44959815557586498266090964058205806185499758380963867850274346864325279);
     (false, 27294542230877380581320241156882998978864796723958969590123338442248351, 10416633099259662391457093178282627508095659035421849953000507705833484);
     (true, 2930296077125953899085710482706011428431587986971336322078142600629895, 63797401156125459217029563212514065561112378388747629925304672505541747);
     (false, 54958231424967718877258341434290271805353661695748862791366131167415119, 8562916886866218785688304546164188478888058893729309188831496247839076)]
    [(true, 0, 8562916886866218785688304546164188478888058893729309188831496247839076);
     (false, 990079869685274089067819496795799193426049271434876125113348038497139, 16153155050223087298160014462763671619986142323395781531433756842368703);
     (true, 30169160492865393294054143833401762548208918982329592005660227869004719281274025612133219534816225468054389441639174688116868354607966756625, 25171928313862840063030770210551396004168855366508115988049527562160009); (true, 73262456133059995953719285988050171171837018829497139122467050040976296774118623241088425066893638730490919989607843143335050951779397211136, 53380830016128662912109928654360594796415752176364461903178265429104804); (false, 38476664613835196748834781468705115678974470112494513702026977008765452, 44834681646896416774739443742377987341720075798897526609092454803933452); (false, 27142819198696964090932012945428575420921880469737623229143591720974848, 67130183245633195639869939918442703710504314834311865919213873480129168); (false, 60850260036196156930366811057474256033212425607645421547079812641604177, 38818018837063819385421431524313588415600254480646167217742265151203685); (false, 20346677712519600861533358236967420646558390703252951092134017590391550, 1249425937017005171791187917337941369870552391118378404367688045443375); (true, 180496812309892443193697792878939623467674572699199295326432597883446956961395001597358992175585778875269285056957973826939049435818524457, 1)]
    [(true, 0, 2); (false, 0, 4); (true, 0, 32); (true, 0, 2048); (true, 0, 8388608); (true, 0, 140737488355328); (false, 0, 19807040628566084398385987584);
     (true, 0, 784637716923335095479473677900958302012794430558004314112);
     (false, 8313140759174391779718174581384026376896512, 212676479325586539664609129644855132160);
     (false, 610753, 9257276591570169787778903304632848584520870801933237207732895094292629);
     (false, 1157159573946271223472362913079106073065108850241654650966611886786580, 42814904236012035268477427783926924703409027458941222085764639811103581);
     (false, 24752366511444457889588512937582753344158343999700394018332682390794398, 67350303327341567303664872675307345658867663549221305857041082473184575);
     (true, 122499941354661786233472485700937432900040061875414728670643570416423129, 35611163889389469987654922301840199380342240245497212783977253210223247);
     (true, 34247518182392854538658558488959479179165561695714089566764733098606499, 18418446759371592376799735687423774052183681127705011041697004266691425);
     (false, 4580709802609802649694377758614016532721444361670007055497436936751638, 50018382064960117726139413037012994628874463203589051724205103925874959);
     (true, 67564108073494849678595397947439726516616132207039525643727448587378233, 10820701348675090188781782904093358004259012783131519068556942373226031);
     (false, 1581020839647386328200544932585097837298665051318182793897979002137636, 53882086226459911720719223514639819256392573009799262795782854936937109);
     (false, 39202663809886529253829340683248242738319684636566099630114377491659839, 31026804441375728781910736262517853733312237591303124398479010334543908);
     (false, 12998728410037856559383389039278423275684310698596745005302581405835765, 47195183252526024137441526692345440730174986827957158703624900316773609);
     (true, 60152283995376325647994584946875018567274401010329036844172158211024392, 36291934579476949170961539441498659148733234289554665606497081457366218);
     (false, 17784719167843759080248451890735372301385571443822841055181066035614389, 42939280187358984190817754633417682473964471607542586091661680867112701);
     (true, 49792770173019843489725682141248297432707771882927195984556953030874538, 45426864663646518485482412603622655631572460763133737969073214472904836);
     (false, 27864567034871860577519570032741016091881146573544984347461671156536517, 10649518422501175337413347620245076517440441695780975935993576699785977);
     (false, 1531393189851146376704041272811734152287088311846553906206315285154993, 26468137062010504766510494899990372716311976644238514025378256550645878);
     (true, 18919232686946983744373444805709571712730402048416539839092954989149622, 66794171489631038307525793128576800918843618272561686581786016898594614);
     (true, 120485255594742648986484332523939123206351848922475636959752293680741737, 73723555997206006869384972328794329770427073036451337622245846298282533);
     (false, 73390411519929622829017518506288214258016127354227274680845614202410503, 47260047413850295524340801117859846689527409952507389999000405073549868);
     (false, 30158870963103383167930169422001574142469989357132966553994989329114467, 29758508075917093950376460550151922150999953377758899990487414539215855);
     (true, 23915478654673573194654470649307953392326271387887334466044588590288941, 15533081651677870270914748886790375115989360391793347345549385420752563);
     (true, 6515864120809629562991073281810391185062248833494516442093267749654094, 33032251797657976845775598082804288848602308872313537746715500337914680);
     (true, 29466810460688823946860703076646646679531392451812386380617098723491770, 6555666814127633506350188197211693389805847507378088565552137930169410);
     (true, 1160621240835282919050951948335245017146723158855308505665375786774892, 23106016685637634157287559334335934391370487219714175683276611963389156);
     (false, 7209031751886025387357323333454626263696774267179995147736760732841760, 9873998029049892886497741387572415978018053328879846957763859972516016);
     (true, 2632951390003365084335973123342242516486752734134481300714631218267153, 55979328769682415423166058127506160050484147169866874315296139590696741);
     (true, 84627622889592046404741497839485731337406975361735117551817279388666868, 3972333587906236889512936773951033395330448889846802252475024928072886);
     (true, 426135969297305335777391151775550010303196914667681621025775474146311, 27761516180245189731908187747824767962457452781687581946686976166293915);
     (true, 20813404811946240880143617252782535100322497885252814408259941941988084, 54086688036442362388769764764538014158049767788699155274639419664302262);
     (false, 39500950871114295143440728316281270050926568457830745950227210798568014, 62243176476028797547480952347273962206710983379796077722592821316367946);
     (false, 52313077441074672624183715521083514587340275789277486460515344096561948, 51023904306648405031493181512252039755800111751213581856066693820252080);
     (false, 35153951393554941235147189430086615163186688036328760545643930766393754, 71590560715488230603160546455438943176626670054473393316687045232831522);
     (true, 138410263884334697668989585783302797008286071685872971375087258913406678, 39357750593411277626853990861866899611033627664285504489485487331296022);
     (true, 41832835943989741901730126654307403538393699855890783072761033985881251, 73994299027674238557536821761741624074404976648766356356064316312414311);
     (true, 147860880963161488871598148691873729884102879153389967580661187774800616, 3030880329163152304462673657469374079447722318864915893063539017610730);
     (false, 124040740800502784159158201309001499428680217044235259742974989680252, 20186061522064547348942138738928635052949347431942743397747040877464336);
     (false, 5502118735217848572772976548618763168088411846233689071287546854155947, 31080597194559010657524423485039797717674499604036372503093027172496967);
     (true, 26087681199082037160337956481740719429391040715835570765273587255223214, 58440526477421557842028399989200600975360531510958556328261883512183080);
     (true, 92232718261552073960188940938004804758259176366793297784778916704704998, 41516042357108640934693520320558199706115539433164765985243275517819614);
     (true, 46546674822451590717534199232606053465495981671076303325335704820198264, 56850440753119798199641765124701563093724562108599945471550834900632544);
     (false, 43640975046147379448907198182990012079866321109616377133488698686605918, 59905247070155557589792938963250773898075121489390557708937474376224310);
     (true, 96913994927089439735818909119857892936373873868475114751776280327832044, 51610221560379778677873092924641887428558216155829860483579101455328292);
     (false, 35966503527844003029378274477109145875613536457707873368619714971706678, 12607433573230962643467891411585419083539293033581933793753662675160318);
     (true, 4292498439772539875113245926749808401244742909257348505721785574529891, 7644206704861915064519872494262899263124054706753901718355019928171111);
     (false, 789026550744237461417279879360768391737729621402180595280289091941320, 3656616792795971615964429652879790037527250914219750234205407575397081);
     (false, 180545085764386863080941208067206450607736793694004694604330827698515, 44910072599201880858785016335765272683153853309518365827614176295667456);
     (true, 54468357969940630847903070755584533619290143295762725935134971578551561, 42823733237427961866644958426854511007334944364622345030286946804018045);
     (false, 24762576096899098336158060060456886499967271944551491259875345372347245, 44229501098471092128779605976169943203831069068326638942217283173370810);
     (false, 26415014557319269354969579381474410077524440398545516613213450453762340, 15709313432981918239605436276139977726167899692337037488190852642013720);
     (false, 3332277669552274439986146704874254702288430677915795500904412771491518, 64736048859960574996725171318638238837341298743207500270134321237311574);
     (false, 56587323233587066496277858691136475818689270052206261830675480492579315, 7070111891805060864548757543425365476045914473664363518210803907818771);
     (true, 1349924075082780276702753767445467218150842080270606888311729582469349, 73006098937535659217249858779868473560363143744827874117540793935541339);
     (true, 143937864158956110630592553985582406544529904432008671955108538038374068, 26261028886456709935438836247269744776045331597228431455996526695426166);
     (false, 9312156109758469703849824938210800892317925220974681000635591841851007, 59164004801848140152236676725967919273956568472762473385950375178216207);
     (true, 94530487167808446290027239163393343673157767949897615521410548333089510, 5074814565478457957282033174263980056348248120341405154030853789348128);
     (false, 347749991847549650111835462083637654481009403032134019260908499036193, 70469177349291559466123681724612771667726699584267318722499984723657333);
     (false, 67054075072251032263986933927948862439647103053025031552768932082185748, 55224902731661154825095012409331249029123573085174738085104203915879453);
     (false, 41180981408973794870941102491021225379444826167519209874220736658769210, 12219301287136083619979772169428104279429169654296992171429375052505739);
     (true, 4032269168714558224485966390252941702192553538323437086566338828580863, 43395268309710450924767376581795593145242126782251477239918119537609501);
     (true, 50855921097425868668342240572447226372236984656075340425431102992866322, 55268776644369205451234458373855931073298096374039012089695711263703948);
     (false, 41246440591215224387854183769107645143015597121762276314351387414069189, 31449701159615089460857935188139667440059681354380461699459251599772281);
     (false, 13355489776682415329489866032965129616121053900198373837916608007368668, 4270266321051578943348609850947362855436106466744013275257027353441085);
     (true, 492455158715702634150911974863731001342068732473452735588521925698743, 32447942494260381179317789457463668218690385819077244298629524728574549);
     (false, 14216775334734902284854741485048253965239136015444041419028832683728650, 54980755414433188203062458250353229448483829906751478486261111467667851);
     (true, 81635334000239669851652805874673961220647979182055961350941960933546749, 67956744329022132767714645437480684503377926765859351246559220350355059);
     (false, 62357960439539771786128189601645106508750870812756374588267956349195311, 65059046996379679682899910575007640085683652944613117515805467747006404);
     (false, 57153412699306839625973651182967669345816692900568340219861985411391345, 24299272528052384420260690148753539293873449786856489604039988297761301);
     (true, 15945689846035256996305345415711374281493662633141366364906721213568476, 63451802044238897392199271441770955419508672762410507456557591853977470);
     (false, 54364411914724758443541641883992307341046508006289583044300701856578485, 22597814082411409699612966302411864418534596497329094182886460976015005);
     (false, 6895402717148043514959193901617493506645197422235451317313759372319685, 41038390859567015992972922737202606252633949239260025002469908108295730);
     (false, 22740888042010760031754550134738071144892501565620546614805772040026926, 6863649637622606812243395657090806345933121645807069554558333472971018);
     (true, 1272233952449249670485281565529823906902578794808389441858449973350695, 17624207582733641917495387846056778294471677926149874945567454640532283);
     (true, 8388338887976380979233632060637142191133287221350053799020984786454163, 49193208058566577959104148180871418100167009799773547090851024499038337);
     (false, 32676615189626696606969688926059182374810154778338336992834428126877671, 61578077530096916426596978715402478932905687967287143836897864375537972);
     (false, 51201068624161522796693086448446449429537990654770489420832469529821372, 4105875347237545186198470304769667924697171896217700108781547111408380);
     (false, 227634609924105556505695070201995370181179909042028064268988017474773, 10828997928446210701989189866324491273221686470919068671602815019785289);
     (true, 3166892416314906918693693430858285187093676442534392119535258251078632, 48346849457390357025693369405251523959762280159930721241142046330427818);
     (false, 31561899298008145797706081370360994443202422805003922511586819844195260, 47059771906714119819812480879258455447475740669393630153716347794740304);
     (false, 29903802025433582900323457948355307970738108896316002842234649276338173, 40688680805101588592102734332792292787896502688139661668364615742469505);
     (false, 22354964892793509691491052911460174674276674138938529269381598747491505, 68648931893065637410210464875532471739450541519771408167643509998449990);
     (true, 127269499929120772464615526585854164988136094233458206394173569538618142, 17818161401505918158556069249545863733577477380957474073626904299065406);
     (true, 8573981575186599190983813337084739610965500400993071700566079170689824, 44777293032195950306999229438824625693916416402529125060476520480059304);
     (true, 54146755567315981072578964901811582330213354162598612804536251080325523, 39730253019602770864519918142779519123052512407983580023337025838859471);
     (false, 21314219541077787215780681680441156076396487056065405556911207908716445, 69739347985785909195117120511593078001038509240396491072119825759284226);
     (true, 131344694343242240387140996989731845634947517757697103505563730114988853, 5714243634965736365600732601690172024192946701703246837947486037928481);
     (false, 440904244309287667153166437186660481486210696506512803525611201829458, 8966701809750480175132281441372376453010733244796307400251428263928955);
     (false, 1085655977620320063290744023886737844277678485243321116528451044092305, 38083218005577667609334965538993191743775586963748294557364486941971390);
     (true, 39167337156725204457292637679172753909629793556775606512403684320159701, 25367839317771031639952215701897139861415218974366781842116251919875393);
     (true, 17378957657975145986220623857802246461732111946846172678789774784278273, 10980063351514778157005549468018301628451670697274289593367167498595287);
     (true, 3255865534823263176614466836109888802190293622813622970500202692453021, 10622552789254092636906058105188141289654609219000383430847022521194691);
     (true, 3047295461152220427189866373814562132881496811975363930449659464845927, 37997587183541663779003367602879257353611870065895468345626288664735173);
     (true, 38991398212234826587318456173136271795483567459637684363610044019533792, 21856358015838061538321139640202557757811906244077066571949230072250514);
     (true, 12900672811037390088026761126188186993060667560218988915459697638922959, 21775303980155605413463449083452253346837572633045873128875810151344579);
     (false, 6402583129307733717762468072347783353048882562596280557838598256236721, 37207812695334010458645991763120351975762241618636847401056575066841294);
     (true, 37387381479768463221894128959083980892545541552905982316545567930718411, 37066768459898215312323199364324727412010576745391323375440717851850095);
     (false, 18552234429708552230906066971278449227825349130870566166955128734613604, 65626805947523963538669627678002060436780939641818486051885986015610197);
     (false, 58155301079529712686891825227722310086196770252801774077643867699556862, 25627939115667223615495161442228810027303364201690768059766515471224975);
     (true, 17737162134553459723163524430514104903164791560191599596628031593964703, 22215998879008375740440568544676670894116847390171418840696984340495629);
     (false, 6664360210452402490315611173150786364623480370785771235336876870711858, 35672966278453353814284990201267606061600807179621978912351760668730435);
     (false, 17183246477998790248640666963798796068560927665391050837232183657209882, 593108134046836163611118372097765501214679492636961049514195218046251);
     (true, 9500020205533612460863607035023226341966507504527386742282590405388, 66000338066974899546734582618282039671499733981041187452017325268703086);
     (false, 58819197280462360685460293366817666672279025779735201958445338425775591, 25128021495193710391433785416588563254141892544643471369982176932522359);
     (false, 8525961415556822751429961544556541119070489617166438859227337066592683, 43572807545398728076739399730915348192078017524923048607277794141141400);
     (true, 51272897018039938331575911114022356578353089632635441588719792364967345, 64430789838214670370977400022716497713195584758074789776176847535238085);
     (false, 56054913101500797078504486632617290810907833942075047478446719477245190, 23925621013128056732313651708555195202385702977930316835875695148479895);
     (true, 15459064423577447528741810599168204838058394903725897591957194247937479, 59871792106663572955832521242387634588680708476662779603162677650268597);
     (true, 96805779070265861016038157719736767487428588851836723333874565562545129, 39745327798338992893948292242152723184584720464885888454686274650404815);
     (false, 21330397041878268220440035344430235221085025770882907312885155271526734, 31696639904365753107769442767829799140366231137872339266966295574876487);
     (true, 27132088235915598731399234909181487362125011788829694942919061461604934, 44759233612880384862059565985245276826796294382194269589621359021687200);
     (false, 27051543909748800298682990317910115598901721947196911740163252889717035, 43289307772775068289359397777382943891461722110298613870449815488589255);
     (true, 50607869088423557493687882383678272885283588652159591838997884593648727, 25581444385703881019328578566098791501234095168041173362738593038334661);
     (false, 8836431135896618987616964895708495005000121305835174671583745728515123, 69490809710348678725736597923071784769591275419387514694139338586948360)]
    37940283535957283147790493383286696582099159842122763948555891970476459 (-4386812516739286907093083275457056104889941688880599415971985667035232) 70463328703800545008217672123162676565183935400628861884889913886334520 (-66117633491858138461393741777649859022484251587227054915412604379442197));
  [vm_compute; reflexivity|exact prime_353|exact prime_116|intros C; vm_compute in C; discriminate C|vm_compute; reflexivity|vm_compute; discriminate|vm_compute; reflexivity|vm_compute; reflexivity|vm_compute; reflexivity|vm_compute; reflexivity|
   vm_compute; reflexivity|vm_compute; reflexivity|vm_compute; reflexivity|vm_compute; reflexivity].
Qed.

Lemma p25519_cert : prime (2 ^ 255 - 19) /\ cong (2 ^ 255 - 19) ((121665 * 121666) ^ ((2 ^ 255 - 19 - 1) / 2)) (-1).
Proof.
  change (2 ^ 255 - 19) with 57896044618658097711785492504343953926634992332820282019728792003956564819949. change (121665 * 121666) with 14802493890.
  apply (prime_euler 57896044618658097711785492504343953926634992332820282019728792003956564819949 74058212732561358302231226437062788676166966415465897661863160754340907 14802493890 20909520643987556847778711110693979710867742264783034635400894742951462752642
    [(true, 0, 14802493890); (true, 0, 3243431061157548262502650869000); (true, 0, 155719942053895335472607050756769172103460756088867192150261466290000000);
     (true, 6199754079642644649308062856516650998815366350873442848996117313337428476949, 7298788142525981497646423386016038992603209795022853614765422817614518144399); (true, 13620326294194072371169762325337544096291102813185080236266227508170399740826605167519, 51043725915195085980420910562515601753427662364971454155378288221513499425359); (true, 666148005931460937456531183047158790646646656647017864529995115680155283559192879100976, 45392315312914234492635249347699890020168067268096860692789114280276548366866); (true, 526805944193671185546115185341485137603104776254368603795664336989571798863808674539979, 42843945261277635123878466684595127831180690426922407983658465359201248207769); (true, 469315510700347799559494751915005315522264410449378153725472083783991634657528316688665, 2689737093616054188615791729463100637042953885291552183110817438591728846205); (true, 1849718587523295764365955993853103102822307467807977863215269981346686248259604471769, 38747800073993489384354657645371377889772109791471382300408359028239192607469); (true, 383866397253962803826788342170961429933433412875492291871053439494106606235632616433872, 3963355600017824365852780001742323296276425292039511480178709449349437365762); (true, 4016169890084706756885700885003667014126741334933875946413748091545170099544081088946, 48335480311020836214795760029807906133603151301804573674941359941792739481406); (true, 597335152541093257084141579658781584420047857779329344317143258159660339146387021060459, 3384591728768515716484538332251683028406379656941952610689529682241919635449); (true, 2928859736439499632795017570823472417721491417136161016708162803662291700997933635638, 18595528658219974347530101049149688578553528086599830079668157564338455675428); (true, 88410338894389260909861534375855155819755043105387524748933160648421748858554064681178, 20075798367702479192865029301645538758650328140372239200236725572744473525838); (true, 103046120618867552573512080761312674925935437382272357596405927840438514953242039433673, 15674523502845397173248002570992264282602501646895058999693487736766127546483); (true, 62816638299086961847966494422350111118301115269946807233856215293711880394017777382605, 54785765307016331211156492357740649941115080880041184019168260173234273557065); (true, 767399411166617136358079533746637936344327142636213137117401441257587319381454772582916, 10315228958602684132367298846057564249909157106069103901521499632752608193966); (true, 27204687426396487856971207476033163405849757919996293630500274682628222428203862443358, 20539142443343931008286996668184216548361261905174903920326409451679685108098); (true, 107857564617357388365650502260106303396948414755369471891503529296353808965329372030033, 2810282440657890539784136998546087330316573854837185372833698582164909311243); (true, 2019230677992512075828095787868458459686954133067887612662906935988786844349062216406, 24361465712680101881376438752092194465876441900727935377999120714485245767316); (true, 151737465088355400109518659116947932468682152858778738601222753418583711492860985778932, 25953901672110123044275868275966945297905302606511219542088286984959756525372); (true, 172223061871697074733645424246273126044359901920835771295106353832312817636508688148269, 35170834800284605406959506729977763912233555052358054260737145275631757455479); (true, 316265157935849425261872212538745161678151726840233979787527324500405518959847047905349, 23863035363103299319583759829684296045223525905310052253353180662105523708289); (true, 145591951006656294553661320124678067527044989094053651907707816946899948200607566271814, 31247469889689270884613125916384282721600351207111728689320780874115249929204); (true, 249640884502701796633122150946844886555630221533229189375356023621106484886292043041641, 34748698112658938653996890237578107861349847819287469851456442687975595709931); (true, 308718796316576396932121051812338039673850726490876862433869722388738814118276563760592, 52146182535540340501344062702329350317722886259691292008233076177159609560482); (true, 695234055044451871408286729661149001075397254214909568368321838615451663951137274584444, 34425433207399131317027709965037310834037209677838078917397484605737151827004); (true, 303001532023546296728169274264976353557256901654650092282947562800008787085800401288989, 9738512994346372291989628508257065784379009676166696888278744357639044900679); (true, 24247741437581049073865969244117322415865414321724463199197211493289557487701449693786, 10476235842991889597868116998361960848318353039276360457363258979897949402576); (true, 28060572652151244458313966815495718667586554643909238507917550750743647442594335446603, 35737064474743021327947099130140967126057497321807531914131240024589728725393); (true, 326530495637065167793269629164524646930965178433914878124347847240833940477200147746202, 30010253319665318953058625027073540133443434516518422811618372529259686732912); (true, 230263615193500431740323968050308916668718744861447041783714128530246117186603745550557, 3601293810468722089462282724598408117030709132447302650955678041173339902567); (true, 3315912831915947362186656516322560631119141875991664758387729237291877302140056142571, 19522954074077877996594704142947573898114002312736754786922723349835845773331); (true, 97448926990141716730196784364737105087849100039606636564410925563506804583521507584101, 47632764656832774131244924371199616895515704841145897857998179638478257191441); (true, 580092932739275218766833610779780939363654260230815860015792087475828273029948278335115, 18679913597507073724061061512775215799141835348047373379764084554635002191955); (true, 89214556809291769242662850117203929623895056931248401061053183579069633386758766971781, 39122563128630062835377709107633459682700436156761821156850069780821162068081); (true, 391327705233320437474321664716813778858788115179563207821664009616084545479980723416729, 44200332115939988544343513813756476280097743461739494505507378383904395125469); (true, 499501804354997700998693749231436178514773886585118549646283280007092157396727508607355, 18136371034717018181250234882717834266368658211673373281871400912491798913395); (true, 84098215447673448472360450723627398431333859689722853847650596449800640324526566516937, 23029206239822814537188037161387945443313137603635480338423101697660895511037); (true, 135595080884910380919672874398077568333641118229579701540190053945771479010459762541801, 23131241231572529843961315454528431022572811064723084040651546330685809407261); (true, 136799298955620588890713753888997708939957481461205662801890911622109836642236417640596, 20430287023285408030062730159005445013250417288466787486457954120501289291086); (true, 106717325409855258710886023309722409831203393749047386353697968784079129322760765506622, 47754050129263017650103845616057760424849114436124154920093146115303439888162); (true, 583050830286052919647678915349033764263772513430167811940920397396807391066328183865121, 26970128640790810701307640385477141149018835089728832967086182091936663230331); (true, 185973914313302633472372707423903977636548251296580112511213009602741969742363912972339, 3593074111454329718278946138266289622457482849743917470520089532680112091579); (true, 3300793431976512568711987008400102894563889089070355091204784451652641054219766273781, 16841558936079461941947703963569972114399612087525269999560567415239620140321); (true, 72518794321377124291387190539934202914021378297155002425063750210317992185930208641430, 25214603907951055432272627070680363125880247988839110405976405359962354232420); (true, 162551243724787006450623492917080612800774893182092596888534223779196008311205068922168, 36508227035125273314887609948261215835366632770932773622663409268706550666568); (true, 340774807731884694739364387647607683933275181189752285965421220964848219381937251718935, 8261506721031527725404228343885455630740909850104847615852323101892920373045); (true, 17450365076396534783048783831588864304981381806463176031360435033138281720614384292558, 47336995767944052852081008265500642703085280105364455059847776125971736787708); (true, 572911289475996248922120223548459027488144374621940587114948375463011171312039613517757, 13246898257530615896469512593134203511770561161903572323503380497417192822567); (true, 44865694793133264092609674621169476159104781576368791240703802533687437808754754066384, 11552935769490535115998696765416257122371565747394135885461797990919660427794); (true, 34124847072932133776346518460507941154368389395716614389115436558433328187913521197928, 38982636414538139164059714324194988521421439621921151003632709126660891810368); (true, 388533446749902493459236689146859507331241715659849212118781229086142262108256829206966, 46156474058658365325685375696361476219185400210527397202732774464931788394626); (true, 544692313343675634347839101132599192369020833177508225870334926890804513258075268453069, 5604638392751658070638852524000565207207434539742015846157836682929044484159); (true, 8031213867271302359332154987146057113401866786177140458591511119692609830423575531585, 7525763447710095610924097777405736731315508334882892644127419122918678123925); (true, 14480618861394258365384731313622423594229593036303529186523883436125230145820827618400, 34851165815542533527809464828815961047569169189398747911950974172514834669650); (true, 310542193951014448561818938196186745352645007048272282586284105958682299424145667536157, 15819797325230914408235660293640098494279072902573517310884124000874939129007); (true, 63986422111087563453069324511993763672705274222423387024470228836093821036705925908482, 4779270007119090544220385199469329850691509454560853382859581052332135633192); (true, 5839950015142914665266618961882100127215147968654001281082832242280337312150372026899, 11456523590993332555951765361946373320230542384925340768839085992233655032809); (true, 33557662634575731795592872095627137773431135240034713378785409432337259759630215368865, 13889714498239021579701133094557714385606574238611525235026097327319766773205); (true, 49325629226240151650071545843644689801062578771058307768191685881271256316027994595465, 52556239388901803603541925679692194560581905679425308221253313320771756495965); (true, 706211134267980513671040849365813093490563707418976725122319476241257959710294509250717, 27244312373204192998834060002768552765549692933621984349580667179286630061817); (true, 189774431182487576263605306828985265516463093411075744672085845048793338694276501303372, 14222373662132633277552659396877200232513964145599082273793424902345319434182); (true, 51716623818779822926985064347477000465686296909836166039775588499522021340138172398938, 16228433850555445150111103090563031379263406349015688176612879968799285438198); (true, 67334744321099691933759461225380022090896383580877533996404598560356655735000194796464, 55563664031239192400374226881323641730219192482502159367508903668982901323224); (true, 789346612465732462792449059302952722234688424495878715210896931688918847809281495829873, 6646170330833442540387207593627946175279940129512189291297644602685741448163); (true, 11293509744093416638289233133118253467493023759812766853155834593990378878556956842953, 12511055044434432353548364221835449560253738999569644071447872657885492414013); (true, 40019703424269264489149981093505740907119981333305964802823573757913535260144594472023, 30714531483240615558230852459957294150292792495514443808636669657395460640583); (true, 241198046579873699535916312745110302365514682623201862681843263805948153875229892292665, 33917802017363315362538532671906159263348684718750316599703270982971181004125); (true, 294131405227199916207362056939457392152002818062946950911952490285384516123335521119363, 50607328188125887001964829886731473902763188946620779541688859533872564458763); (true, 654806248291775528275198546913495546066466653493331658010572159387058601635339020800467, 30621272899018620179885814870310093332058326551203422754606319516395947451227); (true, 239735570136793883752392221829130693272014702632132566909410475623396663329192059572828, 44837942777424949907726737813098222604134325484610372088453880142052697972038); (true, 514016846576902279601715098985752511850149028430839652893262776929489567859478091464679, 19100509590200393047919480268927551805087592269049886464664170755892955175789); (true, 93277286659011002968180094729776225358717123854230319036583494708142912059661506937519, 51741540324005943076692426808373796370361423409291063172868158228486744630159); (true, 684486209695141247534886770915243695175663951030332154388973118470111021665001160147953, 32067357057877706765860104008797850638445764860910673245375009656756004718693); (true, 262913163725609901197935995678472042375705348236452570714820412570584958482987729697700, 26990038498841648536840870560811789582934882771339090879942274179066354481310); (true, 186248594570949215760628219675992099752120448082858062444656898544672889684164735186516, 53544479222693052711841332191860883767740301302429581123875739827686556021316); (true, 733019273900756209911573187593789276763823699304739168024533303613422311716635867887966, 21053951601450275331597506361922357547296447192020962492964182620629414126106); (true, 113332178423871117835983687663801559542710594815909634769353473763633007820556594475668, 41032751550788310378648470640461940294860845855131187528463172620944289527108); (true, 430474348481779818307986604277908613017745348469215081094122860691195514585623828604270, 33600980816700537873207775917618781798271734887738179316505952510637422630730); (true, 288662192241379985477727845275136455992591462569013552955566781562339977663673450831332, 46684437701231126410248290420896357293201346172417942560590766510577868138932); (true, 557224573724324786744384598648457883756385539956117230494702705635489723752578407169750, 19084704082182780873096187734350937346208868235010834992650739737184775844610); (true, 93122978219019759322950989081055718350623616064402358399770995837336338078708101860742, 9670721379204222158560792178268893066431276636300107699287655481515570126842); (true, 23911330287550326753341411193819802344338826772502168439397944763533990095284733134077, 55178153327432205797524663676948607736466522630297409702567617218049692687887); (true, 778431352506694128306379367812142446937509452684304986979053679006339658894728909242766, 35080506956144221633551542208282372689892997755907769817914595921665635422476); (true, 314642741771497790355719459944412767612200180976577319297840142421361904725942301259077, 46311731800107050621622199951405225336282277421840006607777251430378252853567); (true, 548362867967851912649679786964282374698517661415697018417168271038220713069708528664281, 48916361908141982894950216384910610749718489782708401616385470644850040440541); (true, 611778619452156245170801233113495154243102842825962911258371843877085434056084495025171, 20468192727240119418599045307524983995376603476849515191892469741079227482811); (true, 107113692627067825056802668023848545811717385376934406535129523005638240407685772084334, 24562879423255309455761092918834118307737065548647534104830974256416127805724); (true, 154256882043839062682966681075665895348157384137645560133298856270897020220686732857657, 56275921332144391783219895293423542310700697349112434879802009318642215885147); (true, 809713208721037782203720841497880531156646629865448340452495567292246387463987146490362, 17024417134166420242025771347467042418058901959208025680223219726340685737472); (true, 74102097301446753134207154578455717444005191264244138309545242892483514337119162594288, 24949267011636657249196419854507351149979708356163395515154599571738454858448); (true, 159148143946959269032127246238024304335744581126513624506623387043146415720275934124648, 220830767156398883069555628277849902137889441213526198451843249111238215608); (true, 12468240147681873624676163031180610822705088183150170285647987521331594641836734420, 42449762278321805644609264959972780268249946557537107595500193223852642008380); (true, 460719422547199262253842968454636640569494092791939328573848363187065470452155627342814, 37182051408779365814718856237399365272315028368429162083528632297925519919514); (true, 353470106034683396175375427362219585208712942493917467849448187482230138387718922290999, 13454127689076722989038770566101842053994086241241582998350869973568114903389); (true, 46280398138948114891020251956465289836111433850145270688726197826506669609523392529390, 50968447692753936555547093337632846735893935601671529539570718509336544387580); (true, 664184612413041418294893128318142025789468052584629969269243967002288054904104810609461, 33171464289883388670640324298447574877594820282955579909731606034306632458511); (true, 281329505109966904429645013785648589328352847828112447683667477196153917074081775305924, 43450408773615227923610127400023509957339133348154926648473799688935129612814); (true, 482696032660303941481292703611604145947392377341720674049985486206933313044995749882119, 1890287663159288707212406785095626246544388981940347010648217653229258986509); (true, 913569929298547695257286672886665544155257238242438964660023383729476401030545637832, 41132647944338765785281989522054605145692658435471755872614906109035176524522); (true, 432572924845036324893153234722763875555809748808652506142107837523738044304280645638609, 34482620490804019946815429872765557733082441085671875063287459781034825151819); (true, 304009056130320321221018105198632248569546629052364511977448238906075776535463276200287, 1166949938306088912344123082759574088958574565915675232833973844795741844927); (true, 348169278034901720664946742948951480135816235201945583201190354955422337356914563342, 3843758612710332214274390722468965800480840150807732713029743057418804930252); (true, 3777445513010804913574778305083608053942230143712464761899897416256324476112802590486, 29893583380215141796713107969258539595628799214139517392193341670203562385346); (true, 228476717832371972651463316645773546379538984130752249500609686044389099694704901853201, 17803446274493726296624712403645500159383759078139382888855529005468348028491); (true, 81039014839297103199935170477218667471592192724025719772026716614772129582734018600841, 44764250964288637810735673454125479021574685619477624295105080690446763957981); (true, 512328646634854956883708015834882815732903328479400108127273008102823044264258974598381, 22276262566608246073925968666370904855404669462769388600017161823685576831721); (true, 126873421670686246004875813001298613879155866484812738915011381174391844201490271147534, 2520625215964830845439454486547016131377212876604495850161532452161445695724); (true, 1624435789568337383255908198988417369123455067979363367954636640277003457417264349124, 15302381147692598828511044581522899702547288201217514007459768952525091809964); (true, 59869278762453044838732048202222840253544683454442346810246520787727406077043814547253, 19754769559891426267291506020040409384325924566344785610202356854589189731343); (true, 99776882899517657687614540394694944982505584127210787807347706965206920205463475721555, 10394719146164100648613943609081636857099594486230736086568058116356563103915); (true, 27625587041436208451675726734988426117545206109796994339219733335193772247922707155176, 47703651193385389915458894951001905426749277145064438133887428396733939749226); (true, 581820792833638504532002825126759939827455515492738179538540219173152221273876327194307, 10179628097669354319622050499101691055044575322231563062066754054414666815297); (true, 26494139564933346804162525295321169757062512883531631817344023880228923117716283960343, 15720697662801019121802734302973835674291319762476570669317146857556630160503); (true, 63187275106321056869541606261032096051837144630281314127825917018158337209395679066028, 9004223182292792168353231861640398659471644520261743893197916659146608422438); (true, 20729007004586099435341688859841382378567515544168143909239914867458773446905581515020, 36411563351033209192189157178508598266296714633988256354481482993433882779180); (true, 338972641902224237843700806389305478507372343089626499847698379177251160233455592336818, 48144621056381313839233892267771287656255659086805305777470115036227270053718); (true, 592627146941458861001971740793305847137012997647428501295558992826619344835431791261976, 10408695648252149631097610546914829317942885726449191197248368307869720309136); (true, 27699926452873816692512758740471747868121317541992591257685971170730797285518215092267, 18906500955844947978200324660181175703038234121139080047894993047004806475057); (true, 91392028772683925547910567825478477283625476741028487639487681154727553038466573994310, 10554886600079122198987765908086511056064013233513131653925277230466555658420); (true, 28483485964045264059426215184649568155254364300902131471607190468103464916403456307460, 11079835595347537588588037161157517534847060847912676429788808864727477476460); (true, 31387203905134288134838520023169431138861702410880182606214634239949154197309418778406, 37727669252241702083166304231087759944484796745481229380066084871025336702706); (true, 363920020567366623083119328133778273928882926662628631842494999930447514066007806915903, 52124259792316463484768971161827892122273939954729368569532478178537326167093); (true, 694649612114719824878765488977146680878529409018529246317905150325234002473103038453442, 34776114736761523125065554207817946032530386530606464280702418646874081520152); (true, 309206145005800233338841850406147331389655282123013618631964704903050702267856121763819, 47148670321395725053306674305904870552947974708381222950309668916732272409329); (true, 568361818160986708567465699561282571633914226106842510883136982707061219017667111764566, 5101989771262032064755208039298106681635525001662018252592517568211667600356); (true, 6655262094458927232004461086238870657149260107999710924267150669219386615700511958096, 30439077775319212672279857003235031270033206561568794844031388957393560785936); (true, 236891226660626297764854920355657947452095654689681002467653754826413526252194410999104, 42454025392945280719801870990638134082719503900639719026820890352774009527744); (true, 460811964800760448504635032466933977300534917411976732114882442398940022764527344920807, 14056694233495591804110805171753717257129139715541394433325028348365013756197); (true, 50518726273495528116717834436925626407756511189928346281831880334559721253926389823291, 22020782735614810523826462806943914255565612814717708134132266249928314704851); (true, 123979962387915221272183905444115357642383789094809810343136190644822743263928719518191, 44043537187190524396853172800692591225219573684431528281040756581035041559631); (true, 495964254647633131278608163346817079784401301889194566921321632191257186366584106452147, 37404590359858654851478832413799792483931770320181924497433806580683651875787); (true, 357713888231472702125354826592253049774255312612375803181447869694498354519764484488418, 16170643131552425466459072115258848895617978226770263231463155975201404804728); (true, 66856029656324757776357641963050554910230696022302843115773367628301595756968405255341, 51218995243617743814126672639059415119266768239722665989495189856432973560151); (true, 670730577577617824457310612073660297757573510896572371378561681860086494630103020813064, 48778768803843159077509282063509734856579503092090824111150452398578532972154); (true, 608341808975708516635461330864913112645753853086577590369811392169126738336802349872523, 25961194103718115619366643648206308705601772064515162472989625772089760373913); (true, 172319856670295107996643782696932620525278178196067892638437415331141934122399045163582, 48205832937752359945802093181537389868367474594232683559242368457616648716092); (true, 594135057177951868001132506802674232069806500949762556567297954635076940094852832060861, 24963383110094289612431382141469638638161220959685123030018914330170597528871); (true, 159328284422319634517290983707590237492961588966529968592690945367096832519961118714802, 33166219303786847043516247050323555625600928269269815640056400989678144658392); (true, 281240545956801296536657539314874003022930300165399592978596296519554866749350955455963, 44917561024989868388232183987149043173779742065503479246791520296007549787073); (true, 515843935562338583386870266125842286257856114967205604925199553655841761020688618214695, 20214549090355323125443829784563596779700027011970030463635209325845407769255); (true, 104475416896294426751731774817013424660308257963674026905794144399629976498882975644092, 32517101076617326939672904459965983231671268235804051254103151963666188705942); (true, 270339582111104907833120757239590530433399610332524239575852321644513783396442943602923, 12138909766212819341862097600125476725458621092131512628546190509958048895033); (true, 37674314808314667833058126827417832561440194372746962900611882121787228458942053069141, 31361649845336633957051539619545096271171902148206656457498815563771255052401); (true, 251468620493973291397324105968624034440269251118266233344513734940944849527232274778676, 34790369590303048394444562720661333309854595763352895731407623721661703958366); (true, 309459686363605888685293244849750956428549862466228492454413978323538450579381821003405, 57011017949730695318368230305667775894352110626464257962902433949968256442495); (true, 831004905079194927422833713538331115731278857574881612683568939191363530236045636480566, 3437815093295432582543428447193949436142600055706994632183526459703183986116); (true, 3021697770280695329192819205050825220551260833337744881845186576588915644864962030528, 34836787928146937600880485375428658492582562805260270863501465896083201660768); (true, 310286017746654490811757351517963209330104278217313844193818065558735824899170329956708, 31348640025800032918727915565905370671124517682546629473242157426990137807468); (true, 251260029248709496285340128689251612871920735787655377021370433796580377584963699760100, 19287497328592608018290602745288025031810252672916880707162098103006316808460); (true, 95112534363170357505916951509877484842548801518621555460556473483490566889272541528102, 8754629766041753012308252637306632459301470081676555150291068228892583817202); (true, 19595735333481825567214505066040127898458588881797185817472547677945568848676009966001, 29574258612725465467169369852530148957485101455495388497727829543219758653611); (true, 223621588764204106918808250866719758562362836117062663247497275755234959648469469571908, 52076678670561514499260047712779360434334006485668805395451216292545770855998); (true, 693381982714894311375599076210221388826166725708253011146317284483315935686484102736869, 50085632979469296829801568187706753587025622647923735402827123800608861615879); (true, 641375445972430057358522335416706333465372681678584557599659467804567272909630184465587, 46489000560739224043687719825703768269411910389286684792538709544324361368427); (true, 552568871258328157183608123033745242520678959338579094959713044827075153138183279080601, 27834576408993812227887517606727271722054916155305263707980033466532902840461); (true, 198086659979807774829869447345786632039658905885340903466240623769211513771479892874884, 54236449806262976939540688934201038807276207788012371687384796920486446935774); (true, 752087730883572928046581576042738893771234373857873777145640730025036973658404918791692, 21499243139631941458079429822671482325010006316023912288775983390913090781932); (true, 118176830681540175021306100100938953111832575593074557869881781822817896579610207827406, 44892474299354883090766148807765196646921002613773038773814471801780444745066); (true, 515267892641936199235989569273910971126997355614878266254717588175298805572794275815314, 37568506041070225362061466356269210480267069821484502901158205742049589085854); (true, 360855929947428668712950571212883456400176483277103052848680745017003071344274687021029, 37283604525560473143586873045480696611212322563878263874470486245027952371719); (true, 355403566394356531306296470599555923872943534089787338398263942490572976212227278193543, 13927207237607480713622021961405786350641054154859845129979252075373731698983); (true, 49592279625099819687780435246314381987797550465279664794053025786738204318338288089373, 12071548990719843297323091907614908040620230808380730301051695435078995692233); (true, 37257353176807237847608178349201672372580377077160473433107324319643636094108669158377, 16429545779278260022199633672608374391407500389389049409447172100555176811437); (true, 69013985752919480821029807846119209413740458245971363234422850431549520177707766364278, 15783483426609855967589646252094339991327503929862805541679106855518236757588); (true, 63693001212842759063863148777007305225920958417368536427819461609098110646764149113104, 34443846232631241967203238962305689010938897030937354574077908656603983472464); (true, 303325749695923333707688155566793687034954054088917768986987346075397419142060740660474, 35750070980290913991842225231556741396337792632983651460904589136327415785614); (true, 326768220453982325172027182376377964802260775706519011541349516741426957167028447698494, 23398707151502279167088761857671147713927449289966818401491737061591570297634); (true, 139981202568392806053830358236109888022609399654328128401695082215796561648714024604744, 48877735706811109338397509775929677963960064041966410135425445812839391250784); (true, 610812834043575134265306021314789247581791025674401554683231621354612964580018232022376, 24702593926284819781554968900541116051169428460645742742977341971079305273016); (true, 156016709732003632038709313306955224160887326320800034318609926037536651516525344969973, 51183221608731712310771137655521117620023173009740399290024132155154715084463); (true, 669793968365750163738669454238165782643990347597739176247672695876489498329176059523214, 45160611649889438103803058248991609481358193014949483990149568946751796669324); (true, 521441541295170469419781167492695212676637231569328308387822002005204626435266332742959, 56910023418577376640519324639314647490266705833069364142568327659294117787549); (true, 828063276746565020230918140779671892051083879432285757033824416300350088652728457170410, 44211404166391010504315378575451212487318798185513802155387549111050140570800); (true, 499752083101847667413295094145228521687329970641478550418007616495858152325027448507872, 24181416328735519642296702018779484485906396220421992349546416256796380461472); (true, 149502847600484830694486865528522180266818729297738712316008163674631033912940118265476, 33496609417349271235371450483432418499250236521436395822490592996421191769036); (true, 286871691828480913836757107634438772943751596691250017843784661297254548621899425275838, 37715214506855963077122077262296172347631706065065193354682743128669173509178); (true, 363679783990768026908888472936383590342694491616446760312631416696881749280991335271047, 13807287484712993441775589308400114159283894075132051828236665205570802254157); (true, 48741931067734872746758072115586126380328340361633381496951182896635598736222264040836, 43989320109285399361821759345395336763611230088752821468530098284721999297246); (true, 494743953832765887817067072312773630580603899286283867997028121549400311923985515886211, 47905920902971107321919009115585175450716869910176461603460345982349645784001); (true, 586765245475827438991466289408572281387761702085422962757152865380065814846991486423135, 11608731712992719608799201310205498262638700301399513747070177040505858893775); (true, 34455261075885001157755155747286890141624731793358395714948542662152502477408048392810, 8250929786674892936012258427121395333865761930461653707686444002106870014560); (true, 17405711426202413180875335332557374047668938898735997315677809921043358978055306119771, 455206051546318843073950969684796804732855236787085955538142045760274992321); (true, 52978791834584520474001789834868727718831653049837427142627895189676767189889388325, 34670566433801821112636691453696963535154541424902852530179971387014246184065); (true, 307332062325987625929930181623949851754347135477071941368536223737454377873948695027260, 54073495214912782403842864807127049416913237952645231374801353105182878675510); (true, 747575192250336055923657306178367748149770327600605096459146700460532708599356919467092, 26388947938200692654204601576777165552374858010122614034173234888379565170692); (true, 178045150391316224421190257903047022628541683277927060169001043751293941166643987637979, 19725095838914468431326231971540689252495435924631069774441429455065344097889); (true, 99477357491671354308101066426446283874175088240205732126526737562604308713997748234874, 18037107461492396424150080084264890285816441316648588466436553478232123677264); (true, 83180165787997107850523076090849831966622306741167385301062267137371580560842364360062, 53187096719754791998703219745458358400001895313367072057242572084890891520602); (true, 723266858215093309119371798706239789446206367231998401583189451521046507827959193521921, 51425865029579807009944458898068132014477620618843296376867173762517057309531); (true, 676159582921556065201554582311760847257569826743181843516201964864935488103838240108127, 42770894467123126340192340133463376532714036906738071560402115741430237712767); (true, 467716468277443887575602455955560273233724881209566210584520077169442073814838227315821, 3910082553757184122376045294524146289529346409705934832318489803095293061081); (true, 3908929607935247495549903985731111772663381000844359152167685976131046868599533519390, 31941415955924739470761663752004797393909808956368913779442070508465563081180); (true, 260852092560759782314801946619188362899117316453530447091222864634175760492335721873523, 30251928027524815306467372892568569130845287091541449055571926995230679125673); (true, 233987206832860411032914769864578842627098328191375362922822854878325233676632281438877, 32624871476987496607636666292444045905016373237222350107918015834198103846537); (true, 272134507487848787236853063886021660551250835695764408143906794909900129200532727282573, 23638452729771793278197702906044786020994634571939837636924467774371819676633); (true, 142864421979913182152210014560059963851628630148513398473332437661249518905834891456140, 9277492825105471026822139883366767394083143645311770616125255524348607993350); (true, 22006311214347357206913514681928522058752295984188303999639684914984575896393774153842, 29097350056405941389748985733907609579999343548450114226773555094747493930942); (true, 216467585954213334527849727147971893315174305353179974275700370586552473286422743874852, 2639054019072539003025662651495808451641525581288017214277506504788445983412); (true, 1780666367645933719612484492104963673769149142591620366918691426960122053286934247557, 25349320973054692082697853265560282538321806310272468553851039130741383629567); (true, 164292847616592301788655445843987060309364444275110625865331433317860113801251904389751, 57761665060558181725799145215244130070917142829362119392521789128513814799511); (true, 853032158468104755501423607918173431832756206921117071038101623629983023565121584859593, 2797385339697981156874222743998439067771844832619477903152266391527235049933); (true, 2000739679116952081532056438237433251057373572611828248839661271479457986031658382737, 41269999024274351330733474462868754687196437772003292143360704965153297251797); (true, 435466663043069440081848096188364937827012489256641479776353739067556556501394625904675, 9843496565148094027342260753318191603841882468043635683829215001635064671435); (true, 24773352618117032976493227261777391310020706263695805561467837598534942544880422913210, 4502887458554380477076194885886972180797274206124915714756205019305058008960); (true, 5184038062572897897961110165944025067258648635128140257385501381169881749214602429176, 4400030870526787785283887518970256328592669737970120289418202407045414991976); (true, 4949911602200390556422623279336258542505491931562314016420368807079861786271044357724, 21581587843368947648963915230372308892287127544294687690480943221553642804564); (true, 119083827449181636706158209339482640824652827780590191152561365310637860804695085283401, 43871038611082728240383405145636145829815812230081659226489569555758540746891); (true, 492086927949351254601105676116167055490103294218284438816280871414580323184587945627032, 35921870937960129804862958310226060265460227887752137941001720824855641705722); (true, 329916390774683642931465920344394889151946249126102117773304358307764602740161371017439, 7280527839525838658949935600472679091817903428252997957261690835545958664149); (true, 13552260153904403603624516810622902141246602015771560331048572730880023238372541273870, 14815887495176363554025530163451327572945492501322842893887208250751720499260); (true, 56123059633699728502546236894777437235759725976390160203561814059911009154014614155430, 29364742494722018930846701636371184197229736573774940288471271792878403490930); (true, 220464358871321519796344034597176329676129251177300770696592537251939702431597188760246, 33204552716085878550317876775722233469640334900409874633761876479181992513546); (true, 281891035539315275716245628739916016782985842578578818162741174121135413853970041033275, 14518393755122343494067128794446174455194507600957353873527126763839548148265); (true, 53891855636104588068495023064554390348783929870954111480355131513704378381757650174357, 57858973984597898255917552820113510065364639817440624750571644835991863177457); (true, 855908722409413075822826260798632270704890682047464704499114895875639404086571655898998, 45584736881480891346684532831561269271674987047981681110278205243798773341508); (true, 531281753836593645894424191455685560700736331587924723391783030843162068166561915605487, 1263182608143630821705581878566771335052017241388519739831122333093075608797); (true, 407960646439148176586895212300438355704670411386128781574767951316038741955413670853, 45389387062321713972199285925209457251890457605648401172690249070205188406513); (true, 526737978061055004662875149651928671224851782188355565330667709050212970381362072886759, 20412672005331628307111053503456903540597024509024840925595337226011216222119); (true, 106533381130841818617860119526129650797405097975829549665835207064994713098942629980011, 39199491903232757164267195624543454790910403935791056048698482836785483976851); (true, 392868195238269006397255351870856773147969766273989890291683966738661078963213390249524, 1833218520591044027271881547596516902068313031373103772310644296991375957614); (true, 859239964559421197828949470554411798845999571465466973277333239146365660576226318496, 29466339290400768930071494209787380305906779940130495721769180070316780517736); (true, 221992532993449929362968419516486187464135642170559292169033348996522882681686123704480, 45165705837247794908969535904283533785075679616341377124927679542096398925920); (true, 521559186766713281895714343109279888000052346627760158861570578025131035607557803017104, 34047701694284531822686995791239029269903454235796851541909713252090931088304); (true, 296388670535634402656384762840100067593571613394777352660653766743407747455254544218826, 29529632948479043965187009426416183110375669590167040766427075442039699738366); (true, 222947236582795313568417577857896320239127189752885003873005516831901913789324975377212, 46712927557353074023342677110065188742000584384201749123499464613280694166652); (true, 557904890025228089168742798304351976046080114688093798207189524065636899772015204065363, 31717964319068162290645345325098276108302854266906298839409931012335325248073); (true, 257215187677769545400361279891722092225948578998863267892540565071079828160604731678309, 23667137771528900106217780454715374095430134026885694539466651378667145273569); (true, 143211361641572248630303492575664927247957991345644584714717669745882393524388958900317, 731947834380449681333835129437115596893541549908844443153244140321572156457); (true, 136976560406848369787617198759884858422059641443489355502854991257951011791286649967, 31953961489550209765996329187185888179055471500836659951958008601114276400927); (true, 261057040980931647450424553928057678554676736393775957652151630350576027145158388716216, 37054191384136633490398950665233824441423179258308953861755264770298359406826); (true, 351043290515997228985539826206550186003563295598120302981009334445501794913403011260936, 25310797883148043688325079344257169224388498624100093001109999426770533761376); (true, 163793878903532712885659133485347580662828428383423818921303225645279550240345968981864, 10700268835203117965347941814479900756958937875304601030331638968649717867704); (true, 29273548780960869642876645311118891689122126409531498216916034859507188032555514892247, 26583380313316683046792883768233670416736584491021250980637962997009673790837); (true, 180678470400550860833774317919737081551513573988220335860025146625305192901953549776069, 39103006377193455042486539940251916752611840405625752214624383589936637422929); (true, 390936565940898663322183623362360649629910655201108728864861425399649622581746893197335, 14568608479413086377561071573061093189277332804342778636011038222151923323575); (true, 54265291516101253673503091775340451058084406102805196721999251924612990047057790201602, 54293039145500049125326102264513562111170041308208909374134840217906751522952); (true, 753657979347055676365786685550236540411703678959022471847900514943253379244605192596517, 27767852911331123826448836917627341474844445660764691106816682140784177284927); (true, 197138113608558133955566681057465165048874659465068435044829856026540248562935914385957, 40440122615432249889069876407848450194349738027113068029961588713724997983617); (true, 418129610230982339255745498969904390983342504102383085988956899852709545385384108412364, 8902042927764320013342276905175929095291354988280038357507416416397556620774); (true, 20261209381585335140013315684165056269395300614191671863961899647007991030383117816383, 46896403080804195943042294479456839942466132237912169620037361899648578621173); (true, 562296090567181247315701379978476519235852133417554538176788054845705197980273924946365, 12527037328020355420734768951565427695157461527235602058356276502567111338425); (true, 40122015304491675082375117332806905781980296926763886282092495313180417307175211288053, 20230131287117424028371726001860868395986652896483704908009884514775396111953); (true, 104636546777861388236915833155081086834220860573232736593320834669329927746963351201206, 56969588494313143492530781913044366050967079710899536032073196873627573424516); (true, 829797574545638920740818496019424630409344134359933293877366444567901071506357125424318, 6596996113468792464896998114429529225584879340471652156156788202967056576058); (true, 11127009340633248118750445007597162333739814473601881361263875935950055641650721920644, 42780494614977559759628413233806278434634910692742235817669266948450097558804); (true, 467926454588168475302911309910581521074660703995614659384891346573172215768211348633616, 49987790595083119900408305306553808448412028854263587504367062620922998552656); (true, 638872037132446411180537734907032866174900178253992851041302349143091184753193977172492, 45631360407720423124860582436357211839267067547046332120408536361166106364132); (true, 532369086914882121382094456900517361696596666758263144540488927813883429789387875456294, 12114782913975014627543055491251207816044091134538751775152193341212378170354); (false, 2535025769367363451329238604477254297788397361189828157361684270865353447902, 9687985886487922031960807710627470106625420648177814179232417650289662688318); (true, 23996781167091791264948656468134025075748842073574539660270952139467657751510964581664, 2230831206619446746798117177561043218304585110204063625720172524396224837224); (true, 1272387571720035101894682725643465955550004492451466034974875753131299985106747700207, 38214883241950591754978413199355411911188925816896391856984770930832735035197); (false, 25224129054323719816679133738212428264722732144896724537772123696950910136689, 57896044618658097711785492504343953926634992332820282019728792003956564819948)]
    [(true, 0, 14802493890); (false, 0, 219113825363487332100); (true, 0, 710680587112985430689489060260242958550556594900000);
     (true, 129132304367873146617825732613420977, 1828728539446548820700183931580849961616697079918036432008428293815055329827);
     (true, 855036159438528505137481848583051282480194008749515787472083898425589515661365481468, 30129256464735735423483020594679295365567492346588100957500846576144663228678); (true, 232093418125555493871013148314169784022340053140157873077471244003564775556856380898238, 42970535385203285730976158503260437441167454737687018841594989415301903500898); (true, 472092961660872369153085942702574284281653646221693622866516382733500410311169328057237, 49171292889499207546430803068626607199297724660385751476991885814893951450647); (false, 41761333789730573077074477747533903372108597305096902002005549079398814288984, 506387310611737031035383542174398733194714848832359122430348971807262576793); (true, 65561914152438815901599084740254195773450288879052566949575535771885934097722793118, 45111013199493257465666905171300084072055164659478541641674507413846848961628); (true, 520296805234538568712547229895789003253376742845448745012024348028512867222022881886704, 26902771822920399832889986776989694075967370255756692031608000032305715495664); (false, 12501011710269318036917499835196199858405263177859797771641857828829639544116, 28248641501861826476300213997257709382297095456237442080090970525193220430812); (true, 204023940109332694500454175398106297150168818139967872930594178123935426163498384052401, 27649466576497737738082197652052776801557288664515412738699497652813450060611); (true, 195460727327230134275815514985392159119894951261526496696904687514680525349719193769812, 335292086723681911162345662707549927233724113141693511714514067930504729102); (true, 28743033667280666837550310866017590457199921387164898369577951153206114990682488736, 53626852941061121108021335973754691501534969915197621652593392377777161077096); (false, 49672466837836484514835550354811340592839444997904305853349624947712860953088, 16168933044827906551973753381425071459401795570728898298606801930719600240704); (false, 4515583016596537028342229773789138563436465440868053151227201081886049691308, 942481214039449344673933034553353394807234666342539453691885636350688112324); (false, 15342513373202220706793487231670263299312753305384938793228214293109370089, 38827674752012472584148166805405754266882464542435400170856957075821349575515); (true, 385450632091221613292158909808355947892049649093114032558268674673550865951960149296016, 10287029002160863266985317880720322355814611739289396697750035551513201452066); (false, 1827809937420064613165968396317536128459009763037406554996880572988208833446, 26195008747685240036742203840944559843423688991633270875494859131366576454102); (false, 11851906081165555579054034370987383707786504320602355775077446068633573319338, 20909520643987556847778711110693979710867742264783034635400894742951462752642)]
    3028103445185691201823788458927359826302338697109258327247741379376329895047 (-1093618604108150259904924447694966872541021677936736463992306573080091502174));
  [vm_compute; reflexivity|exact prime_236|vm_compute; reflexivity|vm_compute; reflexivity|vm_compute; discriminate|vm_compute; reflexivity|vm_compute; reflexivity|vm_compute; reflexivity|
   vm_compute; reflexivity|vm_compute; reflexivity].
Qed.
