(** The generator of G2 used by the test-suite (BN254 of the default build) lies in the
    subgroup the pairing is defined on: r Q = O and psi Q = p Q.

    With S = |z| Q, the relation Q + 2 psi^3 S = S + psi S + psi^2 S is checked; it generates
    the ideal (r, psi - p) of Z[psi]/(psi^4 - psi^2 + 1).  [h62] and [hx*] are certificates for
    the doublings and additions: slope, result and the quotients of the congruences. *)
From Coq Require Import ZArith Znumtheory Lia Ring List Bool.
From Verif Require Import Base FpSpec Pock Primes Cfg FpProofs FpM TowerSpec TowerField TowerM Fp2Proofs Frob Poly EcSpec EcGroup EcM EcProofs EcInst EcFrob EcApi EcTors EcZ PairM PairProofs PairH PairBil.
Import ListNotations.
Local Open Scope Z_scope.

Definition h62 : list (list Z) := [
[5177265587178645178288452943447840393504237547205167832099725546002491369268;5435464565944564261521404591150178480336494524781579121586652365321708196492;13889148932912342990667122627568216528850560453418644528794310215422223804151;6335661008842434102617658855920154123050116257819920833901067258918026501724;12330556749266978589557343079486964691800957314036848179839794144946358396453;11308308312801634581618365762885630431989625741123538819763182057551318698353;-22381740669987026272073180339658677457675171307591897478757549863163900735616;-5062840454145540616276914664357579614212398909919335540714654363574060614942;-163125273882483127326325595792864353473998413526133318463651114197751338851;3350477616046713441075898528817792717190246729243589642890057949204321054402;341895598034572339756753371356751222166338093453505725299579905288429360709;-1045013515324467471983294802369600656877925395065052985514782336321630206991];
[14362343179155614235597216865999977541227608867833283698594017290119554195040;7676640913160640667134631384614297272567451206619032924167145921924295353434;12055715136355615882197098588283438226958941837952814060562626943912838758786;10825833064553046992242166944168790650862734010947094313830859295987984953845;12404012391079707645752671390764072412134167339712646898145186608879003881853;13718683176874073565528646673950847318827963486422451712074454694911919591691;-16533518546137517319209165524171143625166769485483643417156831802265462775693;-823873323354657160320684077411784616151870928750720367185892157930779313500;8771587816559840725169471500916888043114471571326913575300638813194520812772;13127019597674937572375443581309510974076111730060355358725612190556542122049;3619564848996648402572622425802403595377870914880295206582226665938242311896;-3001217572205994177232337068200649367517626726636550045575861696481427099038];
[4760465809273332656087068240968713887224516176429240264979455956095509669598;11832448666987211514505025020226905390076538922709806606080666208734033755584;10670355101051157897846727500007249225504219755166571774633567204358398612122;12838027022771617224884863322250007528946372565976787283173106963134441414680;13132468935804536509635926399489551029742042462976015231943766891741052617263;2305125407719574042222132190155623139044520927077238023063055638070840758295;-17322086524649310996797638815769791678101515161434467161998409830671214608631;-21366966888924876784920979183713577180731478929824799790031106634481742506360;-6985596331982477791740449874480307810542500893796175978798920339256742163902;6706465379066292072067940456162383901992346414131590251578762855468775563978;1809974044524772006232971384225397830723203566992117644027386792620497083052;405594526884438000886768771860935470223418338371684820089217924181515671020];
[4092330865048516318984595806839154788323825219806745167287166214706393192725;11926854993255903878784346028052731668329908950569500726735933397261953760128;5054271956622882222203009947950156806622272782051633181004326590467086356985;4400513170632587572081418583249218824947082886094278523629467055045111218813;5634487606532558201676636650558467204247585447276837624296490265112993425490;6132314973141688916027644496332819148023127052518575404802878398258072743677;12226043170427960643175074242586602301552944575104392638825548017395623001486;-29157631582991287604381176312886060488466408492457091962069971698491385844734;-7471239776499233464605743649578006919116716959449681500007158845645925002556;5811206201057557263616662683025767840622546245099039155116958809082785466049;-4622552161604680084407770376951934031829879009888058811917806989450151426948;6043020037584252314382365707682583570366664792395914747533491385452540809393];
[8910994738756484552709327992339263925009089087826963401477995402710481400636;15390468620510598995106935030350958333709586636617240479043128589336712758699;5339445578001168225249198895955998611887799782681149416047812564491717079673;6427457645465073022788210588862423806307280759261337407445550992689304365586;6471475186482440449937146577417379155704380335882940412531880321155043325296;13724581748385879991616140453707618518741486858322583011494165239051566114452;-6362863328660316358681721978331968808171316383619245688857724652198444913058;8886507572845197934349837614024555866640636864215317280949927906589352489858;-9373715794209741878966994829753498486018729080096506334364456808153425483676;16328550683940379973178141380984017271572343679741276277288948475915174523892;1705813740971055252093603916098330211694346944748031757148927143149155767751;-1336522318179208629907711419175371819109732627063180205044956720982360931503];
[6022775655356712485282561481714008836930424463312226277023588090531655044987;11240634578308884950658486875244343320843485754676537958011960303850695315719;4817074307707899230172130250688261117039758592127945267650452714898225117443;1365521456177058252415196879687710459675620017543954329286945934157496912840;7497672502715551360405199506671594277047748127308195724909125383384439169457;16416868219652094813949037467239380369903448065920043465626327342232895743040;-11440926767333054869330185311037557000201268242418337534302781972972575514277;6244320062357110127000443634611404683554985394356883032947454218711754495236;-5362391717467386317927955020357760597045383542713333875680671962291543089247;8060409820303098583996910967083280842193887376160293262876907869069865704378;-3199958450886469840467071567967098671739829455275352924210769871716232885079;2164451438884567787927915374409318430663695486290670933512078713872289161660];
[8146153002479599890860470518968043893626116182421883853871509686359967324111;7303898157246907473014515690352314341483584073937176331120005328520113651100;6589095907379495171151595643018481609488180567055950250216518178118894461074;6318424026592028761435209647053756363309854854899259305880407770755210685251;2597220381783815780750665634040166648550577914759253282121707421706011564164;7427980306795762223080088641347262148240455594060384440080291090260263304106;-10815417578289879125768546640356924753309190156233628685463101264410827390991;20093107438211824288334078863646779219831775535221416482130842854667866577720;774663425314410460120598171191757555643386736456821235700421993953563583107;7083972708618614594960758685001522567005744237355477891356540822092184271703;1294213368336686311357428128873266874265154866874010589687852584340826769706;-3172367097673580410642947422558818236202090243910084788651449112626625413329];
[15821750106813933936340840049102371291910741487578916438882105842106498494410;3736006964130536636110989350579264228675522706938259123238154128045083266582;8685834735849491609281396045186434709926152133367739060888619608781403577136;4711432759208024925108303375937795403947972046420565769924213836745197645585;5159029248953890308648298429342168317022103505973123079402225321829154845859;3158464839403816006932085178870793273226228433128780822724206051623402267678;964517111035438820873863876281399826904550860112559050766950472030414730077;277266446997870538972617731053562833773137833504974542486127729673215968764;14071228624089329414617506405489785966975785250424917596870124146387625706404;7037717106170362185811792519048077215191975656233597690628578948167242252411;-2332274958859638496898247683540826056479600361943616699070946595260915753285;1047259764355107379835702329793237432650758981672510083656662872502192788104];
[10258249372522949616565638194630422649347688046259658597739236145699045590675;10514785231074261676056502788030299255776447368923355662224307698815296442390;7215155279715674056872462945520158796201274630153532003750502088286997589641;12313513474187869340330992112855471693914202431082878476486533986186907082905;11184213535017004185915990700232875468870015470445498697952764222927384826974;10604406485673464920898187414684089193005441207315028865604816299064011192688;-7162373035504278126976016266340960563791091588985024576480248086870956959361;-4300695395478599997135150289146116567591062012016708744594020838042318103480;-317239776934558666061613283238680497246651946205091239344684066266145033356;12842313468268436944619302144636474075154751373137602562205726232902095183475;5656639337018118088172482338221020630519511645453302828868028044102052821404;-3721857150732339034299816198604052512002683035955113060073673937316168050692];
[9013429344305262641659228838972912538332357268808575799205104107622734243088;13594243260029171094671060894733568908559808096715971791130229212970652701460;13005136801822250927293387928558897048852360065835075325210116284964358312318;10572469649629364419043675906718541967526913859106694984479819833449855874370;12313035654314812619518856802893312372318708293025188395716398039052675197801;230395106904902412140711286596286896785817707666090433353846296530159230110;12619927793681834710954364751752765918489325239798738935940406441709057405152;-2251294774209314484785628912108012862140251886533909225799168612289428784594;-6165071492652653523634156728469930827902652703268782414752059268171556683872;14588636503743021512486110111095198134838481017080659939102734056465139905860;-4515732327157838868321327729938034718275385302758187268671861670660826589937;-3751472430240830758772206145074255624886473559612244855754260006515951711606];
[4916943784167912927207789684317380705461422584343036580921378704909637516008;14224670251043862632052003631719437419938724013309296478710593385598099847488;10015201795695729101239431019460707627008463241267576630172431507909545009569;4819756486552811464389097134009830685952046935976396426787142248567764780948;5281311655184347591731385011098283467289202016410466343483991485343706412214;14737201030821523537386576955302762245293110829929968252538705082739359000760;-3425325299627524619584409173444829084928831649317661297515533565221050158992;-28123110095451046440925769147273016616286973663379264471815304071630229033688;-10606248026321152481606376470961443954428220554018358900651876671430873465295;8327354596005016819182152815881222796946896792730671739548981612962520216440;-3996229964044537532038794927928605765294851560863044437605033006506103282733;4215748802288546724674906267388775527857484222291643657517024288141705903166];
[5397827475944026203235651385846078402300404462099738286378427612042975601660;14430297688976138506102471641181170731970791380029254046455815943603779892195;3924128917375897242326373160332857727465654619571158441437907581581870514783;6852866080757562084851641974847054245105322095157491378628587801530400099886;15013314173135247353881352083053710470222118413051842488782762392105903695360;15032738662630305759985564228870158429058724687060589470387126990940225355064;-35690435779884839144863359868509766318199198864041265034839237923000148431617;1303392748996321142247375654521806626229701780688134247025772101031072693956;-10661732984364561524170569198562730124007264889656860150716869181326422850302;9273931797784786040287199145106304283479420318478882933694497903052881419366;3703806078144002732392204371611983270253313073110580260799092330544260013552;4579183364146995319075231077673124591294617118967462029364866358192202308042];
[6351225048972826290515798330066011616438606018327679773123973803385924736331;8813102733566499203259487495676501846992189394447006331402308467007630345437;2828384066905447793423303419109391087456384492325790244078484745567031463315;6254089092082016884584778125538421760046680728606004984150055223479978175272;7378603583585698032100683050889982400336580728947414329125204769540655413107;8467701205960198264665523402559536810163439934981300183247396358255903164062;1215892294584223358119586310315761219689857045060063522414079871807782817635;17515733350750696446346946516906157197271080411185196803216004779360807928460;-2222435916298524802738896623933683213834826790840586174351807680518924600443;6664321530107576779554414980128223661699362571890669662986737598410503462750;100144549177233972693728966246251579739448878000844219735937414975271802801;801273498209057876946811371814846955890557475097912081687765109706628656088];
[10678828404210016745507685059150414298444348569110527262772240423630831403898;11230907122781745369234892410971484242253286984351060543851377496459113313959;8448335085652976674033019145082586883353670254836526958311420062046549519286;12563364747427130713069789556819210645866865236098535576880612461888910089421;13530931237787354453935843266293303806142215212573252026110114507310196283257;12426892260176198260351670933695179046895715008359032761420712510921818814002;3615369699422168079277747630774419528910654181266584262548835968056622903471;14314306902241420944417379531076249876245779871704846165666102791128772645926;-720075033902677560351996087666019364101095907242637540976250057659629319891;14279337264481867728010264447458972312443236060145418678940897089871993541013;645572457089517732209016296414648002916450574526481932289911044299620994803;-7768304283177182621627381246986963743139948400688602410321784900690366108285];
[6293154391375178776851938387353200849521904514708888080051769838194175690798;365856169064689175798836006214267620492773195865556974243302085460824348809;3348534317384852203820790426233443550787555064812790496995676349499326239072;5624598810775925392697200458133483643943749475935331203537065716747281358456;14586702257875347892691878842430751752191823074248411764245450216232252439046;11724930673422383656071016682618630943347129938738766003650875260294919997103;25038704010841503259516994810103817148625706207992080501801888845317282833277;-28010750861427164774473803122084382720205088331560564940621504342900975823966;2349665792099866948268350281335043966783195563570023847310155641603620793373;274124830816226785206492981400017963158088528296167554880882189388261874542;1759438740968191935008389396259130136697101188567202431818266691195314020008;2710574126298043333240514493977788594073688945058652563075088088283037260617];
[12468796010946501851404912981296351144877893840556967649750144616496857634774;13701119702858731464592625586811833258069137082109322150104966270368354072793;10607846310156379606481396960388845568905527579624984322648614357078352791573;13391733625263169312395506189867187575811839486587967784680211755321700295908;11535651452040833383974396960551806967795437745362300655192039496801763602176;9852063338329521551716289853549202534716520861321634280236130542744064846477;6175585794015818183994576850766939840823824797921854456368881507361857503422;34473813776627188417244603971789669743810866950448379693130356074370997100096;-1919847505804190242628990982147181589656946276971709872776602173200520508630;20339964389095185407096187062624699702404112744444114038608627434726337727528;946747260569953303120485820884859314795204360521517867525035325723334370280;-11686287147449104062865580682530845686723897488076672942442498772569449816427];
[9191404716822248248221520529882664596923271851778780736203715243688820173516;1295728280565581590609008081560625549869785734879831545568505904851418224194;2841642414995249825642785247090835752330917263936509576323447401305222602989;510689825155936842982172657377888219260725890731025991654621838415466746763;924495945681639236147287283257965353198061397560110223540865092973775357679;15749825432410339091500049731719609508788845970322017342125408778750213099900;23036097265691061748851584935462217195682995141176797854747258733348215271307;-38179415343162016483444309119488829243848021762347074881742810645691215018624;4929305448444819500173841883155334061309278746733506516252188664311474308695;1417964750724680051731688698105300899904023938937319405317453821525057555023;3255842145955501649188388141099325257685732925860420405214487091645961890533;7647157118605590630778369390786657326805399430736181093130082708999885866593];
[8493296337502067005404400176143732160178968259778448967371311331823988154225;6706127990425480952523065725097463953176380173665539497618994625572274911224;12445388358175129681399134567594761129040377670718337933452366433093790929727;13151571671697585939375640297868933749676545937634016796706492747404015476551;5408144005721014936650947489041324273217859367828767754189383271774001235756;3663715977502363308031772667786300184133128281812633073479728455527590822854;-13035934006156524334935902791615234443004533043216608078278457888905020629222;16146356874706133377383623130816212184826577735845163580964642492770265277850;1617082642315724609528423959046358776570311399529350074883588440583016381528;6781374404933556411756551829984159583811997166993005936455941206915067696001;190730479278814282264405281428553757602077419364146070182201952810489981249;-10225359754659419709328379277633083418498180304667169368277429401481614142042];
[16139904777850691901496965123018442598893566281924350665088129601131406132835;13625562559661689406421397654099058033764959002912956045183103688849353913446;15570631103921338009188020421796561861588460020418730127875949091540315676174;15373869045404703908995496093717176153841481518021237089073680090352117290637;14412394948322316048245822992210161585585646051765659158975365006983875130319;11474073042871077381544957152560257750457092480127596608920650677994215603337;7677168678029788975650365762583117769355244418220420986980814426885493112816;-42648636839809477396088301929432248521533178378366253885280927932472158853910;4455297460519970572584952042773159286502097917449908104428946268690149718947;26183338348267527122571027313068086427133012830652188237459454735275596509747;-1200198710177954303933350074823108581611148688389813902780964482642227966668;-4670219713552850104524625357868890788121673705598500750619146960233909030681];
[13863332937772811202602901670085519234454917263651829343163219900438086132622;499664474406513486189587296414603505928871969091547911304199967952368552954;7393796501895007421222648579925921598062027264228785848943612258942859714022;4901405921972096653028178226445409510685181917188760587096201454323895682732;4744070822341075588621136135993840920099682349229683388164077289855216191498;10017754369845648578013558530743415483434532949007029325719324796403424305452;22018858260847899269020658343916026491406599305744366531597036934265123350053;-65706477197229588660850775824640922883068560882266194687110700653584794115476;11426425357168482550827440747189705864807953745250465118460460466041777325226;824737484057928319212325634920476266191223783702820046651385144598895717990;6436764067554755263272957418158418936601070330721732614482787289645321410959;8886054919195545376544703173912330845548861039838830642155206093423842205523];
[9555837687465917200084069983632461677627703447145900101762738756058481027850;8458923217589553320738337386424218540496289777889912895298750407219256603241;10278020180271002625117918830261575931116981187871994131910181552694851669626;6537098135654462390937289781144917662767388146814445870521983539082414477808;186910545285141597531389851124411337367625176039401206602089887625254722845;12898332057696527730662514783452851682165257845965183076318128600887204123551;-10164538840336118847478557401943814420407647297653771906441535433782011769028;3231050843872247010445643302452794950515645183758564376743423376974755370044;1176361709793706068632924355488147016719527209198328663751469706654282298463;9623952145133489928564941099879450162477624719328879843614842262115074564836;-817054985268493623649989492451376434449957119795682264723424554761216651049;-2382877535756738199371973915514684561775153486462828202372500685104135654429];
[4298345837258173003294130835067610688381854869254724840854216394444356701139;20914218225810867991754879526970367121078247368096927835687011601855149424;16753781436475042654948499228634883272410983485464021639184627787123381502911;6968220550594758355465819452764666312901150540761194759691077746092699026682;10645818398679006129821028631149351776574376490610972628586318179538275879743;468716782891083380739295416669013064907906179952841674274279522493755336489;-11170593553811966175384134770375967803565733935873852488258558434223611619338;-17397182149500578311956629372107925559913891990575201422044442454738012345570;1099846406996879103350250845230933641330662831359850733713403772855043443634;10703174302526001319518216299327713612451834602678636323969153602498080738;-1656498674701194641552688263043214592518504415696598888684661067295516935449;-118379321954630591919984485751370356226582499623199370208121739371164069042];
[14809662748336964026517667506794268693679532953764800974029420420570496476109;7871168295071115819001776290660698656222665097737015887264541188088537055893;12389374812056076867433870490087183751660938287667121972850923449627019702764;448066417322453419110957199143479869811261945767209971204696174435080917682;8888890433018769985159758691825533735902645645116723441072214569639659805165;6902129021542042541782756179277275161370227380340211482364705727306924556849;-23124985532083130646982161064352158006764117628901212630656277804712481208777;-30895807467236609499389021169575285736023093369238421390737669123291961616844;9368365386252035200685466233408975088654763043227717668477334039451990832802;13878865740423907420300255717735138087687539991325428893607783599526602425236;792598733861012941359464240220013991230451597831705643815124747737857547505;7793392990018244368914122940152094908764715031427281630739833725439696768271];
[15088190830441355191967805784527019161606950240590385073319266519814229409858;9761001712940181383319761707807934743313245966180721141566287471896680931491;14895672472673526241361754321581501554985474337806054182737679688415772060585;7570261343996362195627497470020476725146946918173650148683413227464425260812;9203031411165730488459105118465369034146532710538206608624110047290580220246;6469633106098093899812011054998791553313911768092826075984329491586390291192;-19430542779559838350944061181200300318275319737982324429323900003619474375378;20746541053129744502083745637176746764115549218199040413388615353191750324662;7880431673321371552901869395177828920610793642500030311519626772098906143390;17534814055486851317357328488125797119031586452291427128206928958095172339060;1887370775219158953366498981212355606695253652654223524711017113459877115787;-7853563401461814444018487269023943617234063628271722829872166667996839364604];
[11159353248732942732739646971082357539386761533381166599354749408606397373754;4697314713048758617545928151989813562401478458325098508821856337803922828809;3813022465389353379194367676917490843533068666229087044459717050751922634058;8580431962243311855913485925185013408764533124001234605552230486884860650944;3331708457597293643934346687120886214883947033695678375233414184993749735496;10368333386711140709363132493144999410942999879459004252254080671399544854505;-20781902235669145261178518768085679850212255404759934069896107863031714005497;-26534647207476589431851498221838921086027333917921863843882801698547505155572;6099877138394120252334266734250557946348983276476520008053622539779225308109;6241059043342884768811055908350695550558447814888346204006238311695260836948;7644925850135975444759091469081394548215990823150090866747221752363061764948;2428002153181132022855491520967277140743547517660817821448022483568229675866];
[1833729445111285002124986761689249709999693257199797953476325234969424007204;1334668560894319911830002126384232163689274597812798873609476978381720680377;13731846691624183061217726758611410566220077660058895871988935374820412446185;10831161220365191491297960762117010104677256800647753978369073119828151759990;11482267741887420687571978603614661222208891567884678002931700590623428123027;9167023931640369321791413337360581196524509850298621511174658544702989635275;9631819046083776428478175209396350505810426967645299412662754625501454673318;-8892988602468161684196887173913914805636797418261779298001288238910873176056;94131043901916981065155217434183224875617803326296741997900301355233639382;291392451229623112391202055062413687924906570357046595625893021972512799206;-903938812861312240639119948204190570763035242584366142456609020938007376043;-1033781340950635482386902172017993274627903141646984895735714372541768959841];
[14252031045324671225568395591576864759865553649955363208272918650340321386435;12530824527585254643712949611958000543035349991709499925026126616707738655987;13810590668590125863362141860718519899619029517461379999070793874944365121608;1360060400364524617481351741008020204913569160292543314794663187474474571032;2163136584676603995412857900973302421495504855919773108861203653960410480010;1954365410895611216737596196308735595307619253318571926744985973599365957922;-6917334945364180433880185641989390635318739994901294429855597298592011042445;-20438556142297576626866802040625176530314056846298521511341949451153930607024;2744286652380674618935072830368101406328879818836706536023624480991761916386;21263072295860898212628493331640402814961134926013215524129547812477327098586;-7131931694289210349281332649890894059785646971326006906001978025305700437756;7976832279617104667287254005069675493285243434964478985050050764109440525184];
[6847226511408093088988519768001311770417488041598603373845335195620896036085;2953893271334845172566792848135369138938727722691462916451885394664470195385;6203381773511379244048557148291010851462215610334731374364308596324150786744;13673493067039722987754223786183317858425215613757021599533975647117741651593;5546635309378475599058494987985714322059769355748318256494572537794008791287;3473073150166496834757798392190206699077107902575562030282748591717903821339;-32656709221581072459965953674253724221861362772504675632954528003865156465920;-4355020645571201647784767011828529735667079928128939973175710568167066374952;2271626291454834522046020361460652858281976701148887783651586743092938084480;2408125419739535866135822036770725153681231969002781703254259858482803724091;5266119522252890806751513758100280286161708475251244098973006783296997277736;-3681484649441568919262890525471642522745488830273992621288686852688955366822];
[1705236822936878595813855680644473989391417017866355220376296725948267494235;3857633607349372423920624052887886004968154637488158026494178166737806619469;15790867625391187955458131541552844660792299387273746173204422583387408611883;13664297824242932478064361937455970211421203703218009941727370706579152760132;13773929768431145518626819215143819755998514871722731424960281223437057004528;14115989985158711344131440545656790770737431972923279622044717514883786276643;26048668622296001736896771698614595618841447768836019570700791143859948058389;-27044281907276672728656848398271938010146079898025597126869296327583231928792;-712788839385456144618651029990677641896919403029259799318464010718884155209;783204702622873393171300448774820608106714016903696931626821166654510993144;-975372052533536607290225577954333425719033557501385110870465311325352752243;-2200802968808358130327976031727392016890332000868067126661329887315006024506];
[11155820948237046214866766675407281558044795703580030414412969276443878549263;16654111197831015318728616495911025131461902280778805909373412327354484885517;14761173485164730238813659703260328184728409577250844965375669520857762872761;15203261922183931602751507116088679391305203642456387735861611297078040182993;14927489620690954784247258318838072479893939643884317388209988957630922446403;12668814654323589230708245153839237659884222902167334885394333863717827770563;-20881811570344803680712198448381747152670110794402094844379220520084910079123;-31008888417615093214453643266735080435729044683954532948123707875994101003642;-9102636565167009416945181394443953365699360051168178427845429669299044086189;22120380996461987812421917915051644853123308909532047131111549079592277052095;2209603668528568080197000901269884756205260296018612286123786116024975721804;-1176752194251498695231636343014986775364765272183917117473906696779051525];
[8229725641042437246872288300086982867869660086535666001480197510334986507800;1284291176985935647267725937400381390065619623188020793120509809989144547105;7925433938203860852710564580764245468989178585781611291260153350481072466131;9420058367657908990211459937025223108783621442345787513487976209689966758179;1575408905842332364184017138551949225314276333106433931817625864168496885061;253125439892788613462247404713208693759750651202139589125192558395887265863;15055158274335911609913120606188180823834795462771481618189280470186103729598;-65462351400235892090481028523774475496199660794491626586474325791634147070496;3933715477001287371496705812302367267317623669445120401638591408485929824414;1258399287568674305467411550862982008888907509850370702820160078957561923145;2906811981468069392397088099077551649520346286953058714571440214461806650942;3355928900751745144491657457891137956829774317709060836840684777771442537188];
[3698906129297188118102870807496988721744255862370263232141403987112427237717;6136600081699270668864906940736848454071201951140358307733707059523536925977;3992804584242967101615645139617001872019374928881402137716824187799680923583;12873479091151084437577094464669467230335141521571297095863615844075346454520;508457649218992190780156072076159761982206125190478375685357806070816711031;15977050171875749911748501454016906553093851143358500938890048845996513331888;5138846945909198257406842892469208598738539216344558770818597879251866246044;-25404075258225373537572148001620083322432785641590823911349488714775459192946;-1427300798755413858549561050870318452845936967305881537940050576753515665295;2702531340725569687182012671452774781494225435873432249134294259722615136180;2127542408959567417026765022899943901203639306971955092457458216080280865047;676212704390062331033111852722967104950613964748555289131713084660010290476];
[1809485106712124932259616201868220931106527637113921120737628061610793564243;1450627824485881530192266553144502113564683569262439627683509505098158006236;16181715333982377498552911389409709360493551024471830913505672823249539768851;4200199011852542160811047328394471631055963924146820283164494567444923677828;11975483340975821173759716647228277833036296006112835656386388580614061223558;12898780490338440717410676780417167920370206405092887180855049636939186257089;24100243598365322551606039682865728118334515280877783231975120845880990060381;-14829769688560470484493423877983982463923026213432228191190391449919926668120;69645653863415631070965465494413233842787668955370069566596101068830913432;312522020879987243436172338488722818707782998875022197453853454141871456636;-2061979383270234192256046907366724388498765115145907232023290384085761750675;-118311054282192500295154011052237501313200476024877122638382377792184615303];
[6712850187690235607538344669014887769009745560598951705534661444681090903304;1403205497528444064944791424992554735357660376658782797745009135665632501143;10693842039371776794364252527521677052540021830923730303268305378390475861334;6315567655955699293637151997605727282131648455248346063930128159866552460976;10892671621127845045121593694003653341113711057179275193764070433350214555831;16307288323755608481965090590310994149734434057634682817071301148002051778336;-36196857406605171234923029841855603880942338564290757738302931586942119367267;-11966541088864188165124038851464869944493515546932987133442426334360410653516;2565370463075505824617441367391344991516688428225512222467590935712303113697;1121496287264734249669187886125973329573676965524932035317029846584953149544;2369764883885506296464319620519056070251515066990165979467189368552830003141;-386920868708518081080736344390314192147318608239700674641979003834613216482];
[493529804633199202981952934044641375195279711321291441398056905765828331289;16214993188646438479218138465672034760111431904554016201749302798359547744970;120039342105955742472936231396464542095020963176569556550034901991931048996;12553656058765580623760735196004753236749408609464602656635934236663731652389;7777598882359167797752423863622840131658932493609456469476406708969786795597;3718002679689523091482254667376725821737202805444610125497516082122863725208;-44142410440819114923447080111642166522028420690478222245711571837924103581594;-2135992810770615177419242693725523226707005310394924478640461345859275480572;-15637619487173298699693078736628119463435633283783340629395538507514226493841;952795644874646823749661091694285096466054453368014168044043911757391136053;6332203788200846143977796640872707024770821615950651586468409288728345021968;10023476979443927531169662194515961980399402537798451637737012719571819451733];
[8721054591183274950806943713178316319957371540708932859294452242794176478668;7551573892655034928828780363954495852230051189345490382089738566393104069261;13877068087007122315392677112321922622364032747821183985147936827539544970511;13839469211844110991224521885843022807585471595105077119822064162514340317425;12236463849351634475495100626590975057620185791930793581242879029252913903970;549301772573788978623321442967149361093679905524727902035208304283253201652;32875355600000376013433900002207768233213013802009985660538754111503421451697;10315115892110229697163510944958642629271703615024005455121711897448269621246;1132896877315243378689362298527086685784927632743351036427924027408097585200;7841083686474785057567260169112556359289777154766313620186282559676854482991;-6564184541533933319825986827778793489587772298832962664174951898180427342317;-6852013381723084961499429805396395443115569886158036211252499225455780940201];
[8118945736563697189480593382681465631997899990593902121539583896463819073037;15754558136118853806663269391357136358380245571177069231631274064949131111975;5189852302905769671133717460331257104663798311041811714891044227506980506225;5729764374495297436564609286144129318606214929297298186375225894024439368412;10327677454100302814955371122828564829079891494699933830596432552401245670722;1413817879490624717615524294243389562031575839873170344374194043723533962487;10611910516649777796712705342427490027347233586529943487741287365185150086004;-45113880771961479840677803044633449023001818733923087346453948444652112622674;-10851746771617627379695530212391532285771490122645748204640257961796960466861;15229143311177025358129465126631577319940184958639581346406706048359032410856;-3407156346604773069996598776204892235258754724025746130997770259712729878795;12067162016361053869081942735346061844992880735608522823120887949193135504104];
[4687953632932408763781352843049428478891323748128245828363349957646565714677;8174940711643316901223833576190139306715616422630375408850116256207442137825;10760741784374183118388724947385114533686980487414048741967243109603826766860;13786779874301454549426126807865145489950307721841314235424803575105817975069;15652780778695755208690216883254759447497330286559427562555063953631911482718;15622369690211712039433675527572869930135373416970665252960214626263221080207;5441236953814093958650180235277611578580419832024733969472554630703821200865;219807011375503232067105290078708385316245662751981168910950122071498667926;-2670106920521569348888129862743603245256977817033159601254014493387406527922;4562864024971433343540215442185257710644455813114661090538237908187710301559;2366311176864731108169866807588705727261263596894971949782718235999043442030;-4959642042988044011484960820153388543599785701073629932411464233483695221746];
[8474846460785553095926925914175111953968979071285288788015533656843289569659;2509911076822393628620726518415490648633063456500979835103725720459125040603;1137062587304483407073344182440302129016190188997560198635661154956734470354;3236523518141635877626484836944495500414076768623203748052715833032935573980;10116604681583301154193331118368236191546675835885838323728552134122021426688;332670753347811727976290405230829995235542653441810481027505521561383332901;24391645709798530485485593758270701448376912664773381379265268373811134868855;-32549338361362832124535293264665588858517885745800806284634510109599819387822;3900639647566519360880770109494896356736864430315861881508262546973976724626;2532560224118562529334664844943924123965031154414953044553525008831559364532;3278880924831917761918565706669458106712415666702214343665424434807781655847;6760664761456398906222734522403885072824431672166441794053089021339029247207];
[13731221105610104077544698547713896331053818953249445968854018111404912227402;5578413311419610542040251611614238943680229832081283849350244607423994141047;11419667408236232414097564187373515557130235524947656276921133583498113654705;9948998365544905432012423507705024123643286144422603767738033787059490858763;15767352202419743391054762595255340321417892941141556113470092493346225503333;16464097212792871733178571892624791781660351395175316726192774559867863282163;17958071698588000874806484501791219993967294083283325189192258813122912781770;5948549241525447156432671439138264107754307553318467632883848169654427612572;9371753719361044653442081716468948351119825309795817381737450312617162893834;9119886985390309314408735985149844366088664580373064955081138982651499687155;-6176157266141744936471099926013392468939875714026655984714861722625828271414;-8901662579942788050607027487912134243346049951111083699209537431095349122349];
[16414187141393464858258794184805723867533445536944991509140236611429243084872;1898456163612765503676405633235957685933410504270320670694995804465106834238;3644148442743889568559657739465894543347861299009510639719862861483968341621;6753698549847341078808467677341874445049766862888600617270061633329997785603;15523607597138916917194448544772113222997877978617233483383041022281894119294;5060729328089151769221493925866703553890893099727942981425609233580612055531;21480102668230218516894552638729992756676011183581102684853232012473405959052;-4841539967690540972636711690850586284154617980678041793087836692428313732770;15824484051393102529329835788980561391930769744396559912704515385535295554983;3710133711866667577670735142893510385151260824057076205132473053409880742141;7236688887891987899821887637333287147409222582813252306593830817996342876767;4001029647400215765318447349695374176622180260884378058513402163325910830766];
[6985576527885893677955886438382608829080790721783666565283926384087950837777;3964535150731251261195837372946561854878998116467467239265141790495462659932;15049009252632316391841841125652850999812470861183126062486442121463652717651;3580182386463464766729683070498217097527800027091096329068899801071070727181;1356655507366582125847187366034198079247717958459351873858682188588853762977;13786688542658382067515796739505859259441475034048155520785061390056583126132;16296697572935337807381367777796664280629452130156489238720636496841132975852;2745732892079107278673785633987625051853370091131729121802196487384581346244;1969313390887081168150526148572723364568380687470049877813381784239563210844;3297343068364818061268747682344805262269813087044900656168992615990173422567;-5491751829667598387134244548366072566121548009023617410309717222185837799495;-1371947992314571971715330418920079724236586898371463669942195677948831283723];
[2749218863568678443897501283300133595672506698304996807504682706392649374213;2377840261734297747347890659866326910923887254451428540947631189574900469330;10585029086183210075260537228563161346064146506468005659057883158192917314650;15428691486809115531918394041470106172909518750518384914772574923998664992963;9069555137814791981796543709452006925872443092711103944440160592870475003758;13664679026298941991482249337137948528554093540928850343753881127568973362222;-41616025485456518598584977455028214060409200704718400143928705189189008711906;-14347574624654783371287584761965286861187262971216466801316761427775416966058;113350858716704871659213517840745721633140467639773960420821668155206773879;778326108824715360223635014036232864852745313898848642276709741530610704685;2407790133293150323860787437870195880372249184753313674136633759878943145406;-1307261032066280694485866369077945474709197779419765252884146850255583250330];
[11500928635598236321993519978703592775387580157849657683173983281889868008940;6251395572080029034442377542878180961163678104308000660913763228985698164423;14777953188209692583131760497737470859864187283229083895617911406158026294034;8825822788326883938653124631612471778315601978609588997822700008982871970898;16163992027613594924591256431731667739518532290815096085856822747404771013040;9007211751525828389556271551849926484327036041543264714411145279884661930718;24751299819077535576858086003654761705407862313343573692470678202488342241145;-32871030153533048672332078209562418100769624638318096076527149063539769793664;5547732448619895943545626182668538317430436328637016238011593592643149261219;8560112986367055710928372590999485492529430972541712345762010464546336585392;-5327960810930631831965805343080510695483369323336627747762831188986621853111;2960303169973968734835259375793295089268002953554473165648760970849298284936];
[12316733533959833905076370988251175815863149850246262501678007762722815959724;145220812447126993969504253942590223713896193123773738771315033194683014997;2868246789217278135159454772203094368326117185340426420364112326279004183008;11449456717727564953982793932969422710449324965255796871846070166857870659767;15145360317869239729277638933317654575547715053477673849024755038392495297684;11445732715610880376146007719463349420247305498399063445364813705311778141681;-1542980936692477219220218609451027514257595887818800283625945280528849688036;-33098489527522143995812912299147159414064447792394999519391969328939622695416;9029637698566694409619108546535428427979670181419570437226779057118738567617;212958027494355416737456986599056145062099334075843550911402152983592826191;8755133615924842045104063455618952465543057331683711348027053075473510758991;-1820744421265939660311463251165396826508582658967998146642247320805585620171];
[67551822011812289332551190944454095972219704398710883471466666122091356995;8522957031304716201238157091744086301026749497563696623324021755794301050736;395665107394510682846772968924969231322831543287383436406264548170747175511;8316070547401229180386952477315753956587077327805058970638787474530193059302;9996481054486168210917808228171282576460342031342055870030455469815708688755;8193136527908900837321426779035718692751064991698849157974717294112655341496;10449561816014301957262849654527923716212175931402904995195725417301986501161;3730995364669116082880603842896694830306037726863233028782825051292391707714;-4324072100729690510285892267776631706358474341035103317436531952452883704826;68548345008623293991468151397211973799512720442513208501199107844705535748;-1579861680826896695711210399498824394675632234353101826834290272502329982068;1267129158185390821848342713628260164415256689609388118774655974382581787230];
[6187042669067763459300129292452266100083109875083212842383972492510498732152;10126391969021432868084517059886091419533616006238321873880237467290266328486;2936435082293685482282910811089332164181978438215585910783877151079431907274;14662286680965319684839349954320550091386532602073424025178583765825294347357;11818581403776662383561647861339008328164655241460272796867451427759304903617;15870863570535783382776151861418406508862489714211849444796999781492784855632;9808539986817394714187201112302940654814682386662883416421666332056663927059;16912431773858402890276640688900236269170922055301278105383436250778404988344;-3825687662250913456189491458441721933075085362173914282623797012856922466356;7459461085682822578189110068596438533945755827046955250336471512956244878221;2889874129221367576219885460931444584552571801924657161780262267533439168634;-3869075008095076933774742701134465536807547987573318932355471104788514580822];
[8480218594587787917416346583768478692728946655502054371035663381188348538677;9419521594141969421730067697318083392865592604016462894177130098031892353086;8970984396316387057104560785782881383232078977987691042687964053745739550597;938865349209690181756541465570907414254989765484344070982357208291632389848;1194924840868350280912816491333194340920868493327857607148623675025262065947;13259239635514026119990656717057656540193110027533167766332105148099158286833;30987799330586424808552329409718498571590465499370585468162117684641144265571;13900281036109267510476798336584859841444301522737185746965745640883875490928;-1000903132593167963000260194325733057276216610706714370653666496322479024844;9510547104302898645282572837134905676131413039980991583530428470983055059134;-10741825986013908638209040578968959577360330294406563591115580120669649388083;3544151674327511247176271200668625613474529902831434739864926927206783381450];
[12203160577590857092842287873382460119058062185938380871700446751574479112120;1188518296094751145043901656166623695390474551243294509558683613001164026333;8330254745018123377838423975497683062547085867934667749213939066538573161416;5570899272975031465478357134029841573954162295052044127256957508067158161501;14089502365032874727091745112446610878868186235341079185770209993259473208970;4454635583012759559093838913121246033598258748058034850790912991140635094588;-14355500426988989465362776144847262501333772049987769790511859269069813255031;16425323047949527813536087972207954015239994897204834852142718526515711740682;8781021405699378712129507769020045970523154095327738823966973143647398538087;1726822923805642429230417399568874134366444593205333089515207537743743422001;793195478223185791221731954541647083258316502341130633597261214176155529324;-3319655548852141318723111890114888397056651525543763688548625265163477991796];
[16345247009643137564762581950559277772836320130966935135459869053499568137821;4931909024529934698394216613444685074010777171925884165458713502953267650570;13024678461877374466548812354458443650437459167044647202321476308737144376612;9781997312190601747261202916039455254163067801740656550489035370600073388897;503014525572566402428322563528352587233591154983382173033324445761349556714;15561703059287920777423943636177740221869871400775575039658382471084154057073;17953116421642211635012708971438785267982237806630126205797158161596476669685;366616569601129921472585569067063133611846460192022280217883984551708315600;14456590147653047592479159114731782446956679784791350922222283840010500666539;9597898492725733314301797425769732659386367574836791670584343302253392701267;-3331491877646613854205319625395278795547830651463379568345393670784377971560;-5475849085147893033260666974377233944175817533363217993215118272009979307139];
[3611195070503972098364827130943973061598467643631210228867015972755289341608;8384492006841852578661677541466154577400736738459102420534505659071705111470;5335007476638700545148342998109955733237288315892051995430400937878718102276;8415679471671772551621023838989882724500178006952682650832771706472066949847;8334746213478559356805185443011951746380986298607527691599471457929817133518;6393858396950386374441137465567697662419256468553904312147201305836385752123;-28526146794764776783636967555047302129301862142078667683797375943178209735187;-38314818367519583042028691180848238218339028983776572858701159550415911294672;-3408656134594510718150679710318116900319631883824227186720348207137389925232;3604933946865368359594918137164627844098587915007941890139132419248582123773;971122476004432888086867841902488541254593594325074577946630031902433559572;4131895219444938703208922742890330066291458882626855472615764117206591520588];
[7464218526609500250272434623041404950061861818650771684528009628659126465984;7192221808381215181276032596820680451308682551655385581574136167269283425640;10231557432932355436333129277441630773857272076757897401168195377255168677445;4052103348012696610545176539897710095856977281512244418846432251904620090571;12875434681763628309726208247393898314953672836978202459203662500802929909927;12455703105772881904380690587684082009466562332551664890709848531150382024602;9497301734080817560753241948133826828184894898045283525830444886802109915521;-3217343017938546583080528079114340849353171600386525045267378302106705776536;237318601508127382727042548037764938561213478375232259762913834807749049633;6391709463159010878051023843718180737454064180113688009785694348292059258685;-4044069921628630449604332397730328003355190133032582547636146775769363457847;-157540808871543327181515922355931283838746574677531667114067712475762571887];
[2266383694562687171788858279079506332958771614909260714018442880922831760276;762971176314305990851278728376209561681767317858875913890018367122195370292;2150993111381433973308052899293917735506064366109005243675345944536008742916;16441256607749676952108923836292121162253790252845823333037630095603450658621;224661026544058650432316108265999201987205050652720337037599048109079814797;13864162309436414520662309374413354392987511193392637276844290784832478643918;-13420618710459694941562036573769532329328750382889658567022412611027841829192;-10277942332969664683373249186399561704578545354936729675818834943487567280726;271123976396464449529490046957666608656635512105636515579527786332396540422;205878585632358524794108363607647954672162367903528158683237322248567319327;1652937631370400476095038361369173319009301040565518434384177376622623977560;-1304512169941393904581760263984031580127778721761313743058647565342228001524];
[1639675433506848424502777954537274254481174728680123884939278301075482367715;8520799774448086757662189684184856701054045619908122430803164657444826949393;10527135354971587010620076220034028076073076378461832023415528918115824556290;11447771259506684254969357391467907110337229213674978276620211975050479684626;1012023627410561249012452218573021914152650936449128008465673612039877288579;9061935805334735016191058497435337773488844603562168657762829082689993782158;33428387183078733185633509060548943935396275889916306643003102780971095441679;-9697290623860410230382732097771612025238418714262661261486138048576880837358;-4162105055308848103012764818597404984282582423530110967872315270032210041302;1663442746765496559375640445480728878730140910650156174897957329448837982014;-3350534539014669607334042721054251649700666034618207436377711388161389393127;-3761360085149105433691661569379634382757413619098167946341727360635349803171];
[14905890946481950852976579840985261341296630163352978837612019814453909621425;13973776470657394177313768360989462717238716253164127798180028271792552070247;11771600084920758162094165371664571193399549749121581782807623248432085701271;8954226928212578253620318461548405200047340249828729871333935372673803905024;15445981235453815731727606287947778333817149911413048425010596583925847057255;9930189661843013264737772255914581850580824242153680102891306944886891382598;-9667519215146471470523952348571458932921808538482144544345494351821289941738;-25278880766132895498231020480646025752916088162305751753158923124704182105318;1602511121196111380366644568564800385403880642011121124489912687524321592055;24799409447510885309383044695275365721083470964279473330902553401194055807438;-3178577273878334953823044988339397186079985743943004078731075642280999704511;1177431830408529309454988516537339336623698269572514336396907001641179215369];
[10934012786834435657833047541852811707792097690280510590543263807462512725852;10041567304011150473533392440988497767480344099579578118944772573164857061570;5519063542491996024043925696790955040854162442083730362436819119151316528697;8178378319203821806858588409522696948012810500718424166662504675590651946613;12597918527951075615954184719331003640934154750141493486389314150656740205503;10435740120757715751994574744697422031870140911554999182218640660939453192289;-2192710478102800091650250490979494602596561654789594982712948557500658843665;-6255234485778712193801117782287681136467450973385563077540907208231889648284;1114385077595646023883422147889046917155584650473073601264156103957944990055;13072260343117435951533623741032354227375287152953619012045860920143072172153;3606035622816073359427235128474721392914171269692153169459164071471374420740;4242644589598821078086758676784864569763630600968255283618232528485451619955];
[12124593905478064506904052942582108038976311832344355276477670338906992101511;5588359308095029977287495844761498744667619216886198148002086523759094126395;10969212465872227407599414965167025738645146927049877467806673976245650210559;210040650682532155053591922857712801647993820050737781893262592868977215901;16536495664088412052160543265718184173071942762583855326529393688080563484828;12780211005252791186628233451667396451945606186692790738685220437209945643640;17747795001316379773218017329723110682272214784610393767459210690823363701532;7324614748721836582766674775904831389167534291277757590184866346335194996494;6892205513744292687578957628858941860861119585230188683879681302274194048541;8067168547783672874343937761391024504953546210948658738685055080391142618081;-6584716063663675285247742636564081394532906385361819377980844917011721983711;3938268820936955280345373144045183577336112491615532600842861475741058492031];
[9942419056461178766900824524545052448177630710674234348186901036617122751116;12762621330676519171369528481261132571044255441303528436606849761924273650057;1730541472380889181742316555282265988450144603207326181461907076429415932501;14284326406966662331047543525720637156758735825467368829250469779807901046852;6504700173197102796026305153908768760153197102898719666055072931244255412974;8907851880531403280175050743398373415284548294699839581093954611794734086881;-21325672360664072350483142025333086039431225691745712204624725714243430865448;39433404018680342074524945307087785502021045611525890836639705118965180614466;-3811905706844691424551620801206144105699189296093376624785589493148741353244;15107811428107436740843467742202215775572094710065715549406314506919249694590;16161314496553730336147124000068275990805885028362742138915147131443614400671;-1311027793269480911782465557351648663253157051812763214218511437981703292897];
[14074213100983784407346401111717824888144556080489418852471704457207885802414;10010812692479887996177049199795994014810007430230065175266544730905358940759;16283459900547020084522745980800786280452227448947690228870586323990351646231;15114788013707967870704980276018204394022095430973281759420539552844594643992;15129314073250282262951260085439545898365530422816518315367848885405275379410;3846559931674147467781959703517090885034719847018868556587737302459757395337;36187944162515187635828924522072365596935723962517334434531755443067348069701;13850307174352608416719941394092512446327456621800937066291005182689482124856;5826078710116126828377834150288165987272292155402318140193968959613481446534;16775020736453452963419947013943950260275825931944856507005731844086582032972;-11698178810036647038394412349274937996671715178136396117444965789061119143728;-9368592420657320728076643049914147874394597553469334960633300364552658196176];
[5039017781852996203011475510352874323471773289493211355035970666952742219323;9572939704904448352082191997420849509745229877714844669066193297457751207179;14260216919121583862075654581961497477240857940912745242154390834784313158930;15831805948893241165552553486032660521603462445665361975563327730344856929887;7709291864077262686701123671806990451899016477056336759247965100940831945761;642553464350869819669235879220301073419247961209979933094905288260715025794;-1860611614699920575958922308527003087023665899080370868873487614914099708799;-68358676262749763533355089288355993255302912685390473402652430916131196742410;-3943865077238315458487363731521069471548244890868298107047502532649072362848;5743291006153998047034775945166173049429868600704561361676853350512295830481;1015538540346389019108419979878882932332777535079290319084467588142154103259;937922071855640914771038145179282906391586509690249504092472341902278605781];
[1181914461036506031622772059196288963388650962469163395068855045936147243509;10221358432961222282559607331719642121970592194371414308393783615378549197996;10168558013746832139554375181439830802065898920608428812352674741601813676768;2242619238332377148080329402452129438422209662642514581989331785055598847700;7580573907710434792843152494721174091828280235639689305601930095836175365059;9464747376230878040982961131747606811731295562960493800909592008374909396799;8748888934844274037155537898150990942577633025173767259066735789334580846059;-71167069113651777871217849304654641550871129804935315927803898152181064868472;-6136360233907520743774168564746155528675351805604701316807358039132641445081;1438348987591503490985001330384126785980265510925597705519646856019377927298;-7980895915005628630343580592474271148192285098025275679283800450746856344218;3445838425686252973346830103444580499690178853003920032480970873733238069354];
[2456906135179771949470834399537892983216445406480382820530899064870663753787;9592744172518751987061302353186903250167662524801223711508837394160610168087;16715867253224649228763217976798067426479633791350965192923228271552616754807;8170521847490870101874160850094645141587608561162256543769605631847814828998;11673504460596179202492461228358653508668705135889471016773847714587344099940;5586723840013763911461056167438730059369943664938150511705128438531805657550;-26160503156663486920787807794554848423909016160601349838333312253921995448384;3281308751152024392013165298934334633185931736637227612061962180766918507804;-5118692489681767815394648357596987527472902499151897241207588703178860532341;2806086374135056561648247081076924812770638786141496257979051514578215106980;2427578581782734425612662141784238973652158689783977337539529813814549294158;-4605932970240384650973895794827673910979762589841589107485040517976517195916]].
Definition hx1 : list Z := [7291736728680668046509024443645796946471412456582440943504484186849816087031;7243799956037756971250741587965224841581641932341000692293235967866397252528;2437766008972381283764270805529021123793869713213911467292197032280830709759;27229314979002002124530993598438241627471613347268926339576169257120999658;6959084407790460359480899088597554317528590606339348832943153800956026639901;7530156866315596805303868738233634008481674731033879608021317772428795623860;-2484166402599920811808509787763315162518151740376258979862680692118068951633;-1791910723810765773534708765008231498223372666879709415555510238081591661750;41480069480173185540777056174814252827978916206765371972683585616297313580;6288789177454233978822838868310651040234374645069460897936985126127645045072;2686241284187387978618600924876756862520187609164303543213941662918411893949;9691951458590161548171816990198377675444946480988848349471276706908044610038].
Definition hx2 : list Z := [2715624742740928936585811125261925013710470338711478429498560385054445091850;754932349412230445738384964793939806521069033392401277078330077676025850273;6842152285878182191560365292476776295552110315316448163205100170054344698855;11105158233557336170305064805247473027935153086827506336622709602417333841087;16581306041873875369490110222461701337731253431714632663310581294362596164352;16271938625596526670442609213836924398175440327184185169532045383337185255921;1476692827532352553650821303503343073079001676269032291767890403312657814692;1131791311039461459559352161495133154162284879463393903322851201241071410760;405086965453054669727351623566502657539012181521252709547870379233117309892;244088545917563764457597956427942990874343887486651010219264139419993376308;-214165386272767990664756871084820353272633002524586417014728966321321952232;-1988825771062844837728604961450272269419806573656673439104117466835358933893].
Definition hx3 : list Z := [7716041255915520507078524478528696077293424056661720944014581163491710123732;5535044893795524105106453843209319148170089925647692413324851561162190067291;648757522163989884169347447486158132348689034099351100571634471094286958302;4749180685292137756120325953729747567762711550380678342516978330785966038193;8755126823395504519560275334253951119078772492275528735356516942990625283166;10805104402058029095861185331720729015221072451020091077784825768714190461977;-17076320387892861966340821897905520764761249458637777753658878760769338432180;-8818007065725004711404696852162599609965880504913645350073576907273759584118;1720465747033580110634924653004866663786444364717315610901667959049484507929;5084933719355450882090550109939521004469939093244411113063339565438987764227;4113399229237760958397015895537405609331018182943486038680910973698977785418;4406811729107226997210106867999121131740754983512396796349236785956953496624].
Definition hx4 : list Z := [12190739542848947207993787308110134015510928690835611919404111090425211881179;16345274891434678240475733523319280413351193255545881624181804999298355103659;16273215096277278694361384782223951326509628695104853648117581376824649714795;437252058396221471121611928728935163508793542128783286488582289750376403385;13135445622179959352349255697051788899167535617148513699294235637878950230084;10669219540355907348706662737902291019959359720138470688908578878945625039504;-9327657093540766354282829188059827143598364703160510574171620022211089188183;-11328048710291934169956062260038570735043596457244910102317776875135377787388;-7057573121674553153725430124738980399995828201447367712182450115380600140286;23724217070917703459989207179920194172447001688558951125258224377243833055651;-6207029321564263055499041728525009621067851065768910831460759833741945103420;-745956673785178377995907243678757958531440664342807007870639829165669917844].
Definition hx5 : list Z := [15328248657116386095126747743490457593727789810289131317476888372161888102457;16721323871281556026800196601909536239684527630947644178164466547483442379983;7533883108206963309462503392533489663360763214327352309371237601324403613345;4529630582000215412806699927971859990936044114527095902317328284872169855703;11906673454210297376621186976722565885450694339425224256534039271117928955700;7139212063480909876204532749805067571080615667607102536046685857083793333475;-9370941460057976984508759092883804178671928132811994277243543878950700945641;-1293335844436140265436070254974624300403068954143212868336626806161628774580;-2657886422146056865415941147828137799718908574897278384118611059883560518454;30516365178888793529498627712630830708598005920333522375053753993592914360134;-7176673961641328690552239652557554782500652678496772486555029297066285861298;5311590085029110714945858555206111259175737790449266400056431694573357929114].
Definition hx6 : list Z := [14516437665945582947460368661529773158752047688057665313424714442024580810827;13790283282066366921289961520686578462853004531842572549087026495108125142789;16273215096277278694361384782223951326509628695104853648117581376824649714795;437252058396221471121611928728935163508793542128783286488582289750376403385;13135445622179959352349255697051788899167535617148513699294235637878950230084;10669219540355907348706662737902291019959359720138470688908578878945625039504;3384277114670968577941986697483892669584002968204864562358895817689924881934;2748745887179208249640684340941797758266922740549860539022255983198018921678;1223652605110949857363578919724506921177697355461176176650229176322497105529;23834324549909261878472902963485771379248735329706932310625338004394775343708;-10911884791311621303402190763576224697300705457122142526935031446584617326932;-3637975384414988892486271273654451127559771801722749453958088331902037706841].

Definition pB : Z := 16798108731015832284940804142231733909889187121439069848933715426072753864723.
Lemma pB_eq : cp BNb = pB. Proof. reflexivity. Qed.
Definition pt4 : Type := Z * Z * Z * Z.
Definition eqp (n q : Z) : bool := n =? pB * q.
Definition inr (n : Z) : bool := (0 <? n) && (n <? pB).
(** certificate check of a doubling *)
Definition dchk (A : pt4) (h : list Z) : option pt4 :=
  let '(x0, x1, y0, y1) := A in
  match h with
  | [l0; l1; u0; u1; v0; v1; q0; q1; q2; q3; q4; q5] =>
      let m0 := l0 * y0 in let m1 := l1 * y1 in
      let n0 := l0 * (x0 - u0) in let n1 := l1 * (x1 - u1) in
      if inr y0 &&
         eqp (2 * (m0 - m1) - 3 * ((x0 + x1) * (x0 - x1))) q0 && eqp (2 * ((l0 + l1) * (y0 + y1) - m0 - m1) - 6 * (x0 * x1)) q1 &&
         eqp ((l0 + l1) * (l0 - l1) - 2 * x0 - u0) q2 && eqp (2 * (l0 * l1) - 2 * x1 - u1) q3 &&
         eqp (n0 - n1 - y0 - v0) q4 && eqp ((l0 + l1) * (x0 - u0 + (x1 - u1)) - n0 - n1 - y1 - v1) q5
      then Some (u0, u1, v0, v1) else None
  | _ => None
  end.
(** certificate check of an addition *)
Definition achk (A A' : pt4) (h : list Z) : option pt4 :=
  let '(x0, x1, y0, y1) := A in let '(a0, a1, b0, b1) := A' in
  match h with
  | [l0; l1; u0; u1; v0; v1; q0; q1; q2; q3; q4; q5] =>
      if negb ((a0 - x0) mod pB =? 0) &&
         eqp (l0 * (a0 - x0) - l1 * (a1 - x1) - (b0 - y0)) q0 && eqp (l0 * (a1 - x1) + l1 * (a0 - x0) - (b1 - y1)) q1 &&
         eqp (l0 * l0 - l1 * l1 - x0 - a0 - u0) q2 && eqp (2 * (l0 * l1) - x1 - a1 - u1) q3 &&
         eqp (l0 * (x0 - u0) - l1 * (x1 - u1) - y0 - v0) q4 && eqp (l0 * (x1 - u1) + l1 * (x0 - u0) - y1 - v1) q5
      then Some (u0, u1, v0, v1) else None
  | _ => None
  end.
Fixpoint dchain (A : pt4) (hs : list (list Z)) : option pt4 :=
  match hs with [] => Some A | h :: t => match dchk A h with Some A' => dchain A' t | None => None end end.

Local Notation KK := (K2F BNb).
Local Notation K := (K2 BNb).
Local Notation onT := (on_curve KK (cb2 BNb)).
Local Notation "A +++ B" := (ec_add KK A B) (at level 50, left associativity).
Local Notation neg := (ec_neg KK).
Local Notation zm := (zmul KK).
Definition ee (a b : Z) : K := mk2 (mk (cp BNb) a) (mk (cp BNb) b).
Definition P4 (A : pt4) : ecpt KK := let '(x0, x1, y0, y1) := A in @EAff KK (ee x0 x1) (ee y0 y1).

Section R.
Add Ring KR : (rth K).
Add Ring FR : (rth (FpR (cp BNb))).
Local Open Scope r_scope.
Lemma ee_add a b c d : (ee a b + ee c d : K) = ee (a + c) (b + d).
Proof. unfold ee. cbn [radd K2 quad qadd a2 b2]. rewrite !mk_add. reflexivity. Qed.
Lemma ee_sub a b c d : (ee a b - ee c d : K) = ee (a - c) (b - d).
Proof. unfold ee. cbn [rsub K2 quad qsub a2 b2]. rewrite !mk_sub. reflexivity. Qed.
Lemma ee_mul a b c d : (ee a b * ee c d : K) = ee (a * c - b * d) (a * d + b * c).
Proof.
  unfold ee. rewrite mk_add, mk_sub, !mk_mul. generalize (mk (cp BNb) a) (mk (cp BNb) b) (mk (cp BNb) c) (mk (cp BNb) d). intros x y z t. change (car (FpR (cp BNb))) in x, y, z, t.
  apply F2_eq.
  - change ((x * z + (- (1)) * (y * t) : FpR (cp BNb)) = x * z - y * t). ring.
  - change ((x * t + y * z : FpR (cp BNb)) = x * t + y * z). ring.
Qed.
Lemma ee_eq a b c d q q' : (a - c = pB * q)%Z -> (b - d = pB * q')%Z -> ee a b = ee c d.
Proof.
  intros H H'. unfold ee. f_equal; apply mk_eq; rewrite pB_eq.
  - replace a with (c + q * pB)%Z by (rewrite (Z.mul_comm q); rewrite <- H; ring). apply Z.mod_add. discriminate.
  - replace b with (d + q' * pB)%Z by (rewrite (Z.mul_comm q'); rewrite <- H'; ring). apply Z.mod_add. discriminate.
Qed.
Lemma ee_1 : (1 : K) = ee 1 0. Proof. reflexivity. Qed.
Lemma ee_opp a b : (- ee a b : K) = ee (- a) (- b).
Proof. unfold ee. cbn [ropp K2 quad qopp a2 b2]. rewrite !mk_opp. reflexivity. Qed.
Lemma ee_nz a b : inr a = true -> ee a b <> 0.
Proof.
  intros H F. apply andb_prop in H as [H1 H2]. apply Z.ltb_lt in H1, H2. assert (E : mk (cp BNb) a = mk (cp BNb) 0) by exact (f_equal a2 F).
  apply mk_eq in E. rewrite pB_eq, !Z.mod_small in E by lia. lia.
Qed.
Lemma dbl_gen (x y l x' y' : K) : y <> 0 -> l * ((1 + 1) * y) = (1 + 1 + 1) * (x * x) -> x' = l * l - x - x -> y' = l * (x - x') - y ->
  @EAff KK x y +++ @EAff KK x y = @EAff KK x' y'.
Proof.
  intros Hy Hl -> ->. cbn [ec_add]. destruct (fdec KK x x) as [_|N]; [|contradiction N; reflexivity].
  match goal with |- context [fdec KK ?u ?v] => destruct (fdec KK u v) as [F|_] end.
  { exfalso. change (y = - y) in F. assert (T : (1 + 1) * y = 0) by (transitivity (y + y); [ring|]; rewrite F at 1; ring).
    apply (field_integral _ (K2_field BNb)) in T as [T|T]; [exact (two2 BNb T)|contradiction]. }
  assert (L : rdiv KK ((1 + 1 + 1) * (x * x) : K) ((1 + 1) * y : K) = l).
  { apply (rdiv_eq KK); [|symmetry; exact Hl]. intros T. apply (field_integral _ (K2_field BNb)) in T as [T|T]; [exact (two2 BNb T)|contradiction]. }
  unfold ec_chord. cbv zeta. change (rdiv KK ((1 + 1 + 1) * (x * x)) ((1 + 1) * y)) with (rdiv KK ((1 + 1 + 1) * (x * x) : K) ((1 + 1) * y : K)). rewrite L. reflexivity.
Qed.
Lemma add_gen (x y a b l x' y' : K) : x <> a -> l * (a - x) = b - y -> x' = l * l - x - a -> y' = l * (x - x') - y ->
  @EAff KK x y +++ @EAff KK a b = @EAff KK x' y'.
Proof.
  intros Nx Hl -> ->. cbn [ec_add]. destruct (fdec KK x a) as [E|_]; [contradiction|].
  assert (L : rdiv KK (b - y : K) (a - x : K) = l).
  { apply (rdiv_eq KK); [|symmetry; exact Hl]. intros T. apply Nx. change ((a - x : K) = 0) in T. transitivity (a - (a - x)); [ring|]. rewrite T. ring. }
  unfold ec_chord. cbv zeta. change (rdiv KK (b - y) (a - x)) with (rdiv KK (b - y : K) (a - x : K)). rewrite L. reflexivity.
Qed.
End R.
Lemma eqp_ok n q : eqp n q = true -> n = pB * q. Proof. apply Z.eqb_eq. Qed.
Lemma ee_2 : (radd ro ro : K) = ee 2 0. Proof. rewrite ee_1, ee_add. reflexivity. Qed.
Lemma ee_3 : (radd (radd ro ro) ro : K) = ee 3 0. Proof. rewrite ee_2, ee_1, ee_add. reflexivity. Qed.
Opaque pB.
Ltac certs B :=
  apply andb_prop in B as [B C5]; apply andb_prop in B as [B C4]; apply andb_prop in B as [B C3]; apply andb_prop in B as [B C2]; apply andb_prop in B as [B C1]; apply andb_prop in B as [B C0];
  apply eqp_ok in C0, C1, C2, C3, C4, C5.
Lemma dchk_ok A h A' : dchk A h = Some A' -> P4 A +++ P4 A = P4 A'.
Proof.
  destruct A as [[[x0 x1] y0] y1]. unfold dchk.
  do 13 (destruct h as [|? h]; try (intros H; discriminate H)).
  match goal with |- (if ?b then _ else _) = _ -> _ => destruct b eqn:B end; intros H; [|discriminate H]. injection H as <-.
  certs B. cbn [P4]. apply (dbl_gen _ _ (ee z z0)).
  - apply ee_nz. exact B.
  - rewrite ee_3, ee_2, !ee_mul. eapply ee_eq; [etransitivity; [|exact C0]; ring|etransitivity; [|exact C1]; ring].
  - rewrite !ee_mul, !ee_sub. symmetry. eapply ee_eq; [etransitivity; [|exact C2]; ring|etransitivity; [|exact C3]; ring].
  - rewrite !ee_sub, !ee_mul, !ee_sub. symmetry. eapply ee_eq; [etransitivity; [|exact C4]; ring|etransitivity; [|exact C5]; ring].
Qed.
Lemma achk_ok A A' h A2 : achk A A' h = Some A2 -> P4 A +++ P4 A' = P4 A2.
Proof.
  destruct A as [[[x0 x1] y0] y1], A' as [[[a0 a1] b0] b1]. unfold achk.
  do 13 (destruct h as [|? h]; try (intros H; discriminate H)).
  match goal with |- (if ?b then _ else _) = _ -> _ => destruct b eqn:B end; intros H; [|discriminate H]. injection H as <-.
  certs B. cbn [P4]. apply (add_gen _ _ _ _ (ee z z0)).
  - intros F. apply negb_true_iff in B. apply Z.eqb_neq in B. apply B. assert (E : mk (cp BNb) x0 = mk (cp BNb) a0) by exact (f_equal a2 F). apply mk_eq in E. rewrite pB_eq in E.
    rewrite Zminus_mod, E, Z.sub_diag. reflexivity.
  - rewrite !ee_sub, !ee_mul. eapply ee_eq; [etransitivity; [|exact C0]; ring|etransitivity; [|exact C1]; ring].
  - rewrite !ee_mul, !ee_sub. symmetry. eapply ee_eq; [etransitivity; [|exact C2]; ring|etransitivity; [|exact C3]; ring].
  - rewrite !ee_sub, !ee_mul, !ee_sub. symmetry. eapply ee_eq; [etransitivity; [|exact C4]; ring|etransitivity; [|exact C5]; ring].
Qed.
Lemma zm_2 A : onT A -> zm 2 A = A +++ A.
Proof. intros H. rewrite (zmul_S KK (cb2 BNb) (two2 BNb) (three2 BNb) (cb2_nz BNb) 1 A H : zm 2 A = _), zmul_1. reflexivity. Qed.
Lemma dchain_ok hs : forall A A', dchain A hs = Some A' -> onT (P4 A) -> onT (P4 A') /\ P4 A' = zm (2 ^ Z.of_nat (length hs)) (P4 A).
Proof.
  induction hs as [|h hs IH]; intros A A' H HA.
  - injection H as <-. split; [exact HA|]. symmetry. apply zmul_1.
  - cbn [dchain] in H. destruct (dchk A h) as [A1|] eqn:E; [|discriminate H]. apply dchk_ok in E.
    assert (HA1 : onT (P4 A1)) by (rewrite <- E; apply (z_on KK (cb2 BNb) (two2 BNb) (three2 BNb) (cb2_nz BNb)); exact HA).
    destruct (IH A1 A' H HA1) as [H1 H2]. split; [exact H1|]. rewrite H2, <- E, <- zm_2 by exact HA.
    rewrite <- (zmul_mul KK (cb2 BNb) (two2 BNb) (three2 BNb) (cb2_nz BNb)) by exact HA. f_equal. cbn [length]. rewrite Nat2Z.inj_succ, Z.pow_succ_r by lia. apply Z.mul_comm.
Qed.
Definition Q4 : pt4 := (12723517038133731887338407189719511622662176727675373276651903807414909099441, 4168783608814932154536427934509895782246573715297911553964171371032945126671, 13891744915211034074451795021214165905772212241412891944830863846330766296736, 7937318970632701341203597196594272556916396164729705624521405069090520231616).
Definition D55 : pt4 := (11771600084920758162094165371664571193399549749121581782807623248432085701271, 8954226928212578253620318461548405200047340249828729871333935372673803905024, 15445981235453815731727606287947778333817149911413048425010596583925847057255, 9930189661843013264737772255914581850580824242153680102891306944886891382598).
Definition D62 : pt4 := (16715867253224649228763217976798067426479633791350965192923228271552616754807, 8170521847490870101874160850094645141587608561162256543769605631847814828998, 11673504460596179202492461228358653508668705135889471016773847714587344099940, 5586723840013763911461056167438730059369943664938150511705128438531805657550).
Definition A4 : pt4 := (2437766008972381283764270805529021123793869713213911467292197032280830709759, 27229314979002002124530993598438241627471613347268926339576169257120999658, 6959084407790460359480899088597554317528590606339348832943153800956026639901, 7530156866315596805303868738233634008481674731033879608021317772428795623860).
Definition S4 : pt4 := (6842152285878182191560365292476776295552110315316448163205100170054344698855, 11105158233557336170305064805247473027935153086827506336622709602417333841087, 16581306041873875369490110222461701337731253431714632663310581294362596164352, 16271938625596526670442609213836924398175440327184185169532045383337185255921).
Definition P1 : pt4 := (1446912583251463451986264634074182521868220410714253059636573283308083142602, 15573376085598908466831476393120081483912819746843935457138501335685015986790, 9804716885020776715776182989439485975508469818321683174767835171535657010125, 1871038101102481216894465289767927796911046499677331320740653155183877005833).
Definition P2 : pt4 := (11180689090554573911489766598866610040313444180717756077523829346406147043801, 4246037914207032662649474702910078360085813623897310452674432540347336881034, 216802689141956915450693919770032572157933689724437185623134131710157700371, 526170105419305614498194928394809511713746794254884679401670042735568608802).
Definition P3 : pt4 := (11105158233557336170305064805247473027935153086827506336622709602417333841087, 6842152285878182191560365292476776295552110315316448163205100170054344698855, 6993391845995055569164621152792247934380717303117386674165880254537096854598, 14927070629913351068046338852463806112978140621761738528193062270888876858890).
Definition D3 : pt4 := (648757522163989884169347447486158132348689034099351100571634471094286958302, 4749180685292137756120325953729747567762711550380678342516978330785966038193, 8755126823395504519560275334253951119078772492275528735356516942990625283166, 10805104402058029095861185331720729015221072451020091077784825768714190461977).
Definition L4 : pt4 := (16273215096277278694361384782223951326509628695104853648117581376824649714795, 437252058396221471121611928728935163508793542128783286488582289750376403385, 13135445622179959352349255697051788899167535617148513699294235637878950230084, 10669219540355907348706662737902291019959359720138470688908578878945625039504).
Definition M4 : pt4 := (7533883108206963309462503392533489663360763214327352309371237601324403613345, 4529630582000215412806699927971859990936044114527095902317328284872169855703, 11906673454210297376621186976722565885450694339425224256534039271117928955700, 7139212063480909876204532749805067571080615667607102536046685857083793333475).
Definition tB : Z := 4487670147142811624388069051070689792991121559221630186874470001192167903786.
Definition sB : Z := 16798108731015832283133667796947756444075910019074449559301910896669540483083.
Definition w0B : Z := 16226349498735898878582721725794281106152147739300925444201528929117996286405.
Definition w1B : Z := 16226349498735898878582721725794281106152147739300925444201528929117996286405.
Definition kB : Z := 1399842394251319357078400345185977825824098926786589154077809618839396155393.
Definition jB : Z := 349960598562829839269600086296494456456024731696647288519452404709849038848.
Definition zB : Z := -4647714815446351873.
Transparent pB.
Lemma c1 : dchain Q4 (firstn 55 h62) = Some D55. Proof. vm_compute. reflexivity. Qed.
Lemma c2 : dchain D55 (skipn 55 h62) = Some D62. Proof. vm_compute. reflexivity. Qed.
Lemma c3 : achk D62 D55 hx1 = Some A4. Proof. vm_compute. reflexivity. Qed.
Lemma c4 : achk A4 Q4 hx2 = Some S4. Proof. vm_compute. reflexivity. Qed.
Lemma c5 : dchk P3 hx3 = Some D3. Proof. vm_compute. reflexivity. Qed.
Lemma c6 : achk Q4 D3 hx4 = Some L4. Proof. vm_compute. reflexivity. Qed.
Lemma c7 : achk S4 P1 hx5 = Some M4. Proof. vm_compute. reflexivity. Qed.
Lemma c8 : achk M4 P2 hx6 = Some L4. Proof. vm_compute. reflexivity. Qed.
(** the value of xi^((p-1)/6) *)
Lemma t_chk : powm 2 pB (Z.to_pos kB) mod pB = tB. Proof. vm_compute. reflexivity. Qed.
Section G1.
Local Open Scope r_scope.
Add Ring KR' : (rth K).
Lemma iu4 : rpz (iu BNb) 4 = 1.
Proof. reflexivity. Qed.
Lemma xi2 : rpz (xi BNb) 2 = e2 BNb (mk (cp BNb) 2) * iu BNb.
Proof. rewrite rpz_2. change (xi BNb) with (ee 1 1). change (e2 BNb (mk (cp BNb) 2)) with (ee 2 0). change (iu BNb) with (ee 0 1). rewrite !ee_mul. reflexivity. Qed.
Lemma g1_gen k j n : (0 <= j -> k = 4 * j + 1 -> n = 2 * k + 1)%Z -> (0 <= j)%Z -> (k = 4 * j + 1)%Z ->
  rpz (xi BNb) n = e2 BNb (rpz (mk (cp BNb) 2 : FpR (cp BNb)) k) * iu BNb * xi BNb.
Proof.
  intros Hn Hj Hk. rewrite (Hn Hj Hk). clear Hn n. rewrite rpz_add, rpz_1, rpz_mul by lia. f_equal. rewrite xi2, rpz_mulb. f_equal.
  - apply (e2_pow BNb).
  - rewrite Hk, rpz_add, rpz_1, rpz_mul by lia. rewrite iu4, rpz_one. ring.
Qed.
End G1.
Lemma pow_t : rpz (mk (cp BNb) 2 : FpR (cp BNb)) kB = mk (cp BNb) tB.
Proof.
  pose proof t_chk as T. rewrite powm_spec, Z2Pos.id, Zmod_mod in T by reflexivity. rewrite <- pB_eq in T.
  assert (E : mk (cp BNb) (2 ^ kB) = mk (cp BNb) tB). { apply mk_eq. rewrite T. vm_compute. reflexivity. }
  rewrite <- E. rewrite mk_pow by discriminate. reflexivity.
Qed.
Lemma g1_val : g1 BNb = ee (- tB) tB.
Proof.
  unfold g1. rewrite (g1_gen kB jB ((cp BNb - 1) / 6)); [|intros _ _; vm_compute; reflexivity|discriminate|vm_compute; reflexivity].
  rewrite pow_t. change (e2 BNb (mk (cp BNb) tB)) with (ee tB 0). change (iu BNb) with (ee 0 1). change (xi BNb) with (ee 1 1). rewrite !ee_mul. f_equal.
Qed.
Lemma g1_2 : rmul (g1 BNb) (g1 BNb) = ee 0 sB.
Proof. rewrite g1_val, ee_mul. apply (ee_eq _ _ _ _ 0 ((- tB * tB + tB * - tB - sB) / pB)); vm_compute; reflexivity. Qed.
Lemma g1_3 : rmul (rmul (g1 BNb) (g1 BNb)) (g1 BNb) = ee w0B w1B.
Proof. rewrite g1_2, g1_val, ee_mul. apply (ee_eq _ _ _ _ ((0 * - tB - sB * tB - w0B) / pB) ((0 * tB + sB * - tB - w1B) / pB)); vm_compute; reflexivity. Qed.
(** certificate-free check of psi *)
Definition pchk (A A' : pt4) : bool :=
  let '(x0, x1, y0, y1) := A in let '(a0, a1, b0, b1) := A' in
  ((x1 * sB - a0) mod pB =? 0) && ((x0 * sB - a1) mod pB =? 0) && ((y0 * w0B + y1 * w1B - b0) mod pB =? 0) && ((y0 * w1B - y1 * w0B - b1) mod pB =? 0).
Lemma modq n : n mod pB = 0 -> n = pB * (n / pB).
Proof. intros H. apply Z.div_exact; [discriminate|exact H]. Qed.
Lemma cj_ee a b : cj BNb (ee a b) = ee a (- b).
Proof. unfold cj, qconj, ee. cbn [a2 b2]. rewrite mk_opp. reflexivity. Qed.
Opaque pB.
Lemma pchk_ok A A' : pchk A A' = true -> psi BNb (P4 A) = P4 A'.
Proof.
  destruct A as [[[x0 x1] y0] y1], A' as [[[a0 a1] b0] b1]. unfold pchk. intros B.
  apply andb_prop in B as [B C3]. apply andb_prop in B as [B C2]. apply andb_prop in B as [C0 C1]. apply Z.eqb_eq, modq in C0, C1, C2, C3.
  cbn [P4 psi]. unfold fx, fy. rewrite g1_3, g1_2, !cj_ee, !ee_mul. f_equal.
  - eapply ee_eq; [etransitivity; [|exact C0]; ring|etransitivity; [|exact C1]; ring].
  - eapply ee_eq; [etransitivity; [|exact C2]; ring|etransitivity; [|exact C3]; ring].
Qed.
Lemma p1 : pchk S4 P1 = true. Proof. vm_compute. reflexivity. Qed.
Lemma p2 : pchk P1 P2 = true. Proof. vm_compute. reflexivity. Qed.
Lemma p3 : pchk P2 P3 = true. Proof. vm_compute. reflexivity. Qed.

Section GP.
Add Ring KR'' : (rth K).
Lemma one_mul (x : K) : x = rmul x (rmul ro ro). Proof. ring. Qed.
Lemma one_mul3 (x : K) : x = rmul x (rmul (rmul ro ro) ro). Proof. ring. Qed.
End GP.
Lemma gen2_pt : ptP G2 BNb (gen2 BNb) = P4 Q4.
Proof.
  assert (H : forall x0 x1 y0 y1, ptP G2 BNb (mk3 (mk2 (rr BNb x0) (rr BNb x1)) (mk2 (rr BNb y0) (rr BNb y1)) (f2_1 BNb)) = P4 (x0, x1, y0, y1)); [|exact (H _ _ _ _)].
  intros x0 x1 y0 y1. assert (R : forall a b, rep2 BNb (mk2 (rr BNb a) (rr BNb b)) (ee a b)).
  { intros a b. apply rep2_can2. split; [split; apply can_rr|]. unfold f2v. cbn [a2 b2]. rewrite !fv_rr. reflexivity. }
  rewrite (ptP_def2 BNb (mk3 (mk2 (rr BNb x0) (rr BNb x1)) (mk2 (rr BNb y0) (rr BNb y1)) (f2_1 BNb)) (ee x0 x1) (ee y0 y1) ro (R _ _) (R _ _) (f2_1_rep_ BNb)). cbn [P4].
  rewrite (one_mul (ee x0 x1)) at 1. rewrite (one_mul3 (ee y0 y1)) at 1. exact (jac_aff KK (ee x0 x1) (ee y0 y1) ro (field_nz _ (K2_field BNb))).
Qed.
Lemma gen2_on_gen c : on_curve (K2F c) (cb2 c) (ptP G2 c (gen2 c)).
Proof. rewrite <- gb2. exact (gen_on G2 c). Qed.
Lemma Q4_on : onT (P4 Q4).
Proof. rewrite <- gen2_pt. exact (gen2_on_gen BNb). Qed.

Section Rel.
Variables Q E55 E62 A S T1 T2 T3 D3' L' M' : ecpt KK.
Hypothesis HQ : onT Q.
Local Notation ps := (psi BNb).
Local Notation L := (Lc KK Q (ps Q) (ps (ps Q)) (ps (ps (ps Q)))).
Hypothesis h55 : E55 = zm (2 ^ 55) Q.
Hypothesis h62' : E62 = zm (2 ^ 7) E55.
Hypothesis hA : E62 +++ E55 = A.
Hypothesis hS : A +++ Q = S.
Hypothesis hT1 : ps S = T1.
Hypothesis hT2 : ps T1 = T2.
Hypothesis hT3 : ps T2 = T3.
Hypothesis hD : T3 +++ T3 = D3'.
Hypothesis hL : Q +++ D3' = L'.
Hypothesis hM : S +++ T1 = M'.
Hypothesis hL' : M' +++ T2 = L'.
Lemma r_O1 : onT (ps Q). Proof using HQ. exact (psi_on BNb Q HQ). Qed.
Lemma r_O2 : onT (ps (ps Q)). Proof using HQ. exact (psi_on BNb _ r_O1). Qed.
Lemma r_O3 : onT (ps (ps (ps Q))). Proof using HQ. exact (psi_on BNb _ r_O2). Qed.
Local Notation Ladd := (Lc_add KK (cb2 BNb) (two2 BNb) (three2 BNb) (cb2_nz BNb) Q _ _ _ HQ r_O1 r_O2 r_O3).
Local Notation Lsc := (Lc_sc KK (cb2 BNb) (two2 BNb) (three2 BNb) (cb2_nz BNb) Q _ _ _ HQ r_O1 r_O2 r_O3).
Local Notation Lon := (Lc_on KK (cb2 BNb) (two2 BNb) (three2 BNb) (cb2_nz BNb) Q _ _ _ HQ r_O1 r_O2 r_O3).
Local Notation Lcomb := (Lc_comb KK (cb2 BNb) (two2 BNb) (three2 BNb) (cb2_nz BNb) Q _ _ _ HQ r_O1 r_O2 r_O3).
Lemma L1 a : L (a, 0, 0, 0) = zm a Q.
Proof using. cbn [Lc]. rewrite !zmul_0. rewrite !ec_add_0_r. exact eq_refl. Qed.
Lemma sum_zm a b c d : a * b + b + 1 = c -> d = c -> zm a (zm b Q) +++ zm b Q +++ Q = zm d Q.
Proof using HQ.
  intros <- ->. rewrite !(zmul_add KK (cb2 BNb) (two2 BNb) (three2 BNb) (cb2_nz BNb)) by exact HQ. rewrite zmul_1.
  rewrite (zmul_mul KK (cb2 BNb) (two2 BNb) (three2 BNb) (cb2_nz BNb)) by exact HQ. exact eq_refl.
Qed.
Lemma S_is : S = zm (- zB) Q.
Proof using HQ h55 h62' hA hS.
  rewrite <- hS, <- hA, h62', h55. apply (sum_zm (2 ^ 7) (2 ^ 55) (- zB)); vm_compute; exact eq_refl.
Qed.
Lemma PL a b c d : ps (L (a, b, c, d)) = L (- d, a, b + d, c). Proof using HQ. exact (psi_Lc BNb Q a b c d HQ). Qed.
Lemma Leq v w : v = w -> L v = L w. Proof using. intros ->. exact eq_refl. Qed.
Lemma rel0 : L (zB + 1, zB, zB, - 2 * zB) = EInf.
Proof using All.
  assert (ES : S = L (- zB, 0, 0, 0)) by (rewrite L1; exact S_is).
  assert (E1 : T1 = L (0, - zB, 0, 0)). { rewrite <- hT1, ES, PL. apply Leq. vm_compute. exact eq_refl. }
  assert (E2 : T2 = L (0, 0, - zB, 0)). { rewrite <- hT2, E1, PL. apply Leq. vm_compute. exact eq_refl. }
  assert (E3 : T3 = L (0, 0, 0, - zB)). { rewrite <- hT3, E2, PL. apply Leq. vm_compute. exact eq_refl. }
  assert (EQ : Q = L (1, 0, 0, 0)) by (rewrite L1; symmetry; apply zmul_1).
  assert (EL : L' = L (vadd (1, 0, 0, 0) (vadd (0, 0, 0, - zB) (0, 0, 0, - zB)))).
  { rewrite <- hL, <- hD, E3. rewrite !Ladd, <- EQ. exact eq_refl. }
  assert (EM : L' = L (vadd (vadd (- zB, 0, 0, 0) (0, - zB, 0, 0)) (0, 0, - zB, 0))).
  { rewrite <- hL', <- hM, ES, E1, E2, <- !Ladd. exact eq_refl. }
  transitivity (L (vadd (vadd (1, 0, 0, 0) (vadd (0, 0, 0, - zB) (0, 0, 0, - zB))) (vsc (- (1)) (vadd (vadd (- zB, 0, 0, 0) (0, - zB, 0, 0)) (0, 0, - zB, 0))))).
  { apply Leq. vm_compute. exact eq_refl. }
  rewrite Ladd, Lsc, <- EM, <- EL. rewrite (zmul_neg KK (cb2 BNb) (two2 BNb) (three2 BNb) (cb2_nz BNb)), zmul_1 by (rewrite EM; apply Lon). apply ec_add_neg.
Qed.
Lemma rel1 : L (2 * zB, zB + 1, - zB, zB) = EInf.
Proof using All. transitivity (ps (L (zB + 1, zB, zB, - 2 * zB))); [rewrite PL; apply Leq; vm_compute; exact eq_refl|rewrite rel0; exact eq_refl]. Qed.
Lemma rel2 : L (- zB, 2 * zB, 2 * zB + 1, - zB) = EInf.
Proof using All. transitivity (ps (L (2 * zB, zB + 1, - zB, zB))); [rewrite PL; apply Leq; vm_compute; exact eq_refl|rewrite rel1; exact eq_refl]. Qed.
Lemma rel3 : L (zB, - zB, zB, 2 * zB + 1) = EInf.
Proof using All. transitivity (ps (L (- zB, 2 * zB, 2 * zB + 1, - zB))); [rewrite PL; apply Leq; vm_compute; exact eq_refl|rewrite rel2; exact eq_refl]. Qed.
Lemma ord : L (cr BNb, 0, 0, 0) = EInf.
Proof using All.
  rewrite <- (Lcomb (-1204757563522651643875518068243080193083221971453362569220) (-602378781761325822067366552155857196430680545779802701829) 602378781761325821937759034121540096534639413503511756801 (-602378781761325821937759034121540096539287128318958108674) _ _ _ _ rel0 rel1 rel2 rel3). apply Leq. vm_compute. exact eq_refl.
Qed.
Lemma eig : L (- cp BNb, 1, 0, 0) = EInf.
Proof using All.
  rewrite <- (Lcomb 1204757563522651643875518068243080193092517401084255272966 602378781761325822067366552155857196435328260595249053703 (-602378781761325821937759034121540096539287128318958108674) 602378781761325821937759034121540096543934843134404460547 _ _ _ _ rel0 rel1 rel2 rel3). apply Leq. vm_compute. exact eq_refl.
Qed.
Lemma rel_in : inG2 BNb Q.
Proof using All.
  split; [exact HQ|]. split.
  - pose proof ord as E. rewrite L1, zmul_pos in E by (vm_compute; discriminate). exact E.
  - pose proof eig as E. rewrite (Leq (- cp BNb, 1, 0, 0) (vadd (- cp BNb, 0, 0, 0) (0, 1, 0, 0))) in E by (cbn [vadd]; rewrite Z.add_0_r; exact eq_refl).
    rewrite Ladd, L1 in E. rewrite (zmul_neg KK (cb2 BNb) (two2 BNb) (three2 BNb) (cb2_nz BNb)) in E by exact HQ.
    assert (Ep : L (0, 1, 0, 0) = ps Q) by (cbn [Lc]; rewrite !zmul_0, zmul_1, !ec_add_0_r; exact eq_refl). rewrite Ep in E.
    assert (On : onT (zm (cp BNb) Q)) by (apply (zmul_on KK (cb2 BNb) (two2 BNb) (three2 BNb) (cb2_nz BNb)), HQ).
    apply (z_uniq KK (cb2 BNb) (two2 BNb) (three2 BNb) (cb2_nz BNb)) in E; [|apply ec_neg_on, On|exact r_O1].
    rewrite (z_nneg KK (cb2 BNb) (two2 BNb) (three2 BNb) (cb2_nz BNb)) in E by exact On.
    rewrite zmul_pos in E by (pose proof (cp_pos BNb) as H; clear -H; lia). exact E.
Qed.
End Rel.
Lemma len55 : Z.of_nat (length (firstn 55 h62)) = 55. Proof. vm_compute. exact eq_refl. Qed.
Lemma len7 : Z.of_nat (length (skipn 55 h62)) = 7. Proof. vm_compute. exact eq_refl. Qed.
Theorem gen2_inG2 : inG2 BNb (ptP G2 BNb (gen2 BNb)).
Proof.
  destruct (dchain_ok _ _ _ c1 Q4_on) as [H55 E55]. destruct (dchain_ok _ _ _ c2 H55) as [H62 E62]. rewrite len55 in E55. rewrite len7 in E62.
  rewrite gen2_pt.
  exact (rel_in (P4 Q4) (P4 D55) (P4 D62) (P4 A4) (P4 S4) (P4 P1) (P4 P2) (P4 P3) (P4 D3) (P4 L4) (P4 M4) Q4_on E55 E62 (achk_ok _ _ _ _ c3) (achk_ok _ _ _ _ c4)
    (pchk_ok _ _ p1) (pchk_ok _ _ p2) (pchk_ok _ _ p3) (dchk_ok _ _ _ c5) (achk_ok _ _ _ _ c6) (achk_ok _ _ _ _ c7) (achk_ok _ _ _ _ c8)).
Qed.
Lemma gen2_ninf : ptP G2 BNb (gen2 BNb) <> EInf.
Proof. rewrite gen2_pt. intros H. discriminate H. Qed.
Section GW.
Add Ring KRw : (rth K).
Lemma mul_1 (x : K) : rmul x ro = x. Proof. ring. Qed.
End GW.
Lemma line_wit_aux (R : F3 fp2) (x y : K) : repR BNb R (mk3 x y ro) -> onT (@EAff KK x y) -> y <> rz ->
  exists X Y Z (x y : K2 BNb), repR BNb R (mk3 X Y Z) /\ hom (K2F BNb) (mk3 X Y Z) = @EAff (K2F BNb) x y /\ on_curve (K2F BNb) (cb2 BNb) (@EAff (K2F BNb) x y) /\ y <> rz.
Proof.
  intros HR Hc Hy. destruct (hom_aff KK x y ro (field_nz _ (K2_field BNb))) as (x' & y' & E & EX & EY).
  exists x, y, ro, x', y'. split; [exact HR|]. split; [exact E|]. assert (Ex : x = x') by (transitivity (rmul (x' : K) ro); [exact EX|apply mul_1]). assert (Ey : y = y') by (transitivity (rmul (y' : K) ro); [exact EY|apply mul_1]).
  rewrite <- Ex, <- Ey. split; [exact Hc|exact Hy].
Qed.
Lemma gen2_rep x0 x1 y0 y1 : repR BNb (mk3 (mk2 (rr BNb x0) (rr BNb x1)) (mk2 (rr BNb y0) (rr BNb y1)) (f2_1 BNb)) (mk3 (ee x0 x1) (ee y0 y1) ro).
Proof.
  assert (R : forall a b, rep2 BNb (mk2 (rr BNb a) (rr BNb b)) (ee a b)).
  { intros a b. apply rep2_can2. split; [split; apply can_rr|]. unfold f2v. cbn [a2 b2]. rewrite !fv_rr. reflexivity. }
  split; [apply R|]. split; [apply R|exact (f2_1_rep_ BNb)].
Qed.
Lemma line_wit : exists X Y Z (x y : K2 BNb), repR BNb (gen2 BNb) (mk3 X Y Z) /\ hom (K2F BNb) (mk3 X Y Z) = @EAff (K2F BNb) x y /\ on_curve (K2F BNb) (cb2 BNb) (@EAff (K2F BNb) x y) /\ y <> rz.
Proof.
  refine (line_wit_aux (gen2 BNb) _ _ (gen2_rep _ _ _ _) Q4_on (ee_nz _ _ _)). vm_compute. reflexivity.
Qed.
