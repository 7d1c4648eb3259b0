(** The generators of G2 used by the test-suite for the SNARK curves (test/test_point.hpp) lie in the
    subgroup the pairing is defined on: r Q = O and psi Q = p Q.  As Gen2.v: with S = z Q the relation
    Q + S + psi S + psi^2 S = 2 psi^3 S is checked; [hz1], [hz2] and [h*_1], [h*_2] are certificates for
    the doublings and additions. *)
From Coq Require Import ZArith Znumtheory Lia Ring List Bool.
From Verif Require Import Base FpSpec Pock Primes Cfg FpProofs FpM TowerSpec TowerField TowerM Fp2Proofs Frob Poly EcSpec EcGroup EcM EcProofs EcInst EcFrob EcApi EcTors EcZ PairM PairProofs PairH PairBil.
Import ListNotations.
Local Open Scope Z_scope.

Definition pt4 : Type := Z * Z * Z * Z.
Definition pS : Z := 21888242871839275222246405745257275088696311157297823662689037894645226208583.
Definition rS : Z := 21888242871839275222246405745257275088548364400416034343698204186575808495617.
Definition zS : Z := 4965661367192848881.
Definition ga : Z := 8376118865763821496583973867626364092589906065868298776909617916018768340080.
Definition gb : Z := 16469823323077808223889137241176536799009286646108169935659301613961712198316.
Definition s0 : Z := 21575463638280843010398324269430826099269044274347216827212613867836435027261.
Definition s1 : Z := 10307601595873709700152284273816112264069230130616436755625194854815875713954.
Definition w0 : Z := 2821565182194536844548159561693502659359617185244120367078079554186484126554.
Definition w1 : Z := 3505843767911556378687030309984248845540243509899259641013678093033130930403.
Definition hz1 : list (bool * list Z) := [
(false, [6081413674370887270429786674524332052519284902546735684221451645272823354110;18621193252520716991641050446069710358787473283846428128938448294837991446474;16934496343100978327526860714197396024185473682731016554448063858604579266905;3675277269262332436442519059744793921708426284404190926731453094986374494327;18485880526832982157003454883435385974420661162661750020049734463195433699879;19635039219099166425198087738397524703877070536722687321953104740661040993236;(-55340248244268665694886562986666239861772683532664374765895474456066122264047);(-25304278667904944037542985029437559084695279525570972602020899013688594468492);(-14152129418640181685469936883076791018589157964557863651213912750234291113131);10347397910562980748121755240972040877079018657560574384596558410616326771089;(-5022370017364300271276932297527302093533105477060081574281719584390739609719);71078811591530456932908097555387922719783514708586670558736767254624304676]);
(false, [10631080789411943611582290965727334804895660362805094862846002882927493464682;9493674555478599024858045715223071826299669105755391680926303519819353653582;11194759525819993234734480705392620083779745231893875957581149763891634647412;17175758307480235230006563857358588957904791383852042205935130953669102363147;2712000709363677802810059241339761419509923679497686340010583278156584021351;12008593230341582825233806602354231150644504443054167562673991086221844162873;(-36529934386206800189709116977932570045168596193825485759675397242681113316892);18048384656791183769161538557638024626699384460742459741754749777113468880150;1045767918406620107884311125311121102229442980520723767575645024479766726966;9222121828475169627862157345071272734206353357191700494590252837598039141609;8643397290566949407811442754978141632786386342864914021435734838185884804292;(-4067640868075439174592456400445811952412208206779368805486893951772828143481)]);
(false, [12492813875753204206789594075746551474567245226481898505089028368715926127480;2459640664782667023640456405952061004531504149245891566221562679869435420397;13325467731306070950999804944716496973146260644442199286226785679111396338270;20454247320371558959610620158765199819554955509210714518426869004168085269758;707997715719198792074729729788251054891060403770620786730708618425906868143;8638757533197834546783276238291723551590154523485290511691158565933784676123;23653771229295066382516621286285098021915336412613160359198810921061706886071;(-38389905199208554061897898735186020641219981528144216434139191738277797370670);6853933740262495766098665204758094950756320589020696896621426418757714605159;2807702126322547486622319320199672207966091003969306312752904754537028577796;(-847698750793687834877219998581853270624493558772788757461075343375188443449);(-2110645877298361487612214157806637661031641958625535561344067508176841375794)]);
(false, [1803503879575725385117613192160672777527853353771449962186521849945891783453;17298135489608671803648775656241372658897867752691611056809634222407454496697;5286405567468215050002611200942133321644999652918068246033078710058324594387;15553745178831197379871549121304351483107502844182071559078482926907547122195;6055817639960292903521128061343142242293854705250996172949472110405991569770;7653688998812184022675144466124190569173774628989305604648875084872005732596;19467500829614575353339540592090916636414599687730987678604203318135767648736;(-72172094342467610053414281899399299730063907532912421551117052726762229597460);(-13522002058648742865649031530108773577022812235137465074858893834150669769169);2850594691186763628450785619754300065888963357822717650137972650935240159437;(-3210448212874098586363892192665217389626854709476470009867254422536412823275);6757000185422518005835862384258552314250368728559396038971146275359095790437]);
(true, [17255512852207014520274909530655109883488550635771771827613544868543382124462;324796153111846451274251891611550039080989175046846728957793154917394268825;21684882311157620637841273287877121706209206977677298367231293051078843099791;9276577533674728871691933444180778210493658192564407525569419551716518750423;616761302396574967318661134163993178441109420050543097565870465626387600548;7204354336206399910844911469372747378859564958691169505192065627497887566745;7965534673476075651894978486792697607674084622720783621802512531321064875458;(-4991314797628193321514848824220848178310285092275651333995962642193492446281);13598498198069099848930309668941547198291684975089602413782888037204341423665;512103619023660258242608264745566265346973959128677908705038882200699259803;(-13020822538368812586422208147503104257153672998715361654032953402763008563902);4705246803785892087460407341143057137319754114507305295867170783667111264681]);
(false, [1970421325136701925178423158565232570341595062025932253039689450474823947654;21180666382283963489916348886812861406341335284347747366360504399651706272188;13700198631155662616695148848403432365153856051828413839560231695460235898054;7399396931664211416420791230910735128950478800981710689126693665992511559261;741253666725345017408268770880064524351702838060981924631903704614331953261;1268117598900644707579457100932460628421899187009166053615242548758804493406;(-66487437616481444016519352730344021968210456435156940723054721589887246993224);(-52651594810662715377216953101769701386970591253246307130185438908965476205350);(-20318582482984350223405208189901013266717590323507381372450131836837546252208);3813447882922853517832764524201621088421540456879900943822146105634883667859;(-1097700953594814964113861113269929664485110358389408290975601965659408792949);7895551913208520573526751083704321917363248396857765066022585948883951475191]);
(false, [11526481130955980423538407110205141870346407676755441220791386810155925060994;13086981088556966103269755391214854041743376725749901756373501030292490760187;1503064341672741313208200332751292612434500504774240418969931326126087200547;14009030656650061260518199443186491695646769251968689920177735617445245642654;4949808428042203616953048203591864269679821089100825982067951632679418724011;10526074911034826069270804113339534332965024554116013891744700825923610318043;(-18957057194411547392474862667259395617162472711081520683352354299088810660167);(-25566411930658452165058812577062800508702635611096293462516887936974440922034);(-1754791692273280731317159428791103145116127994129102935913954817121031166236);13783366847825361678481541159123426272281181559060933183153651818512452653260;10374984923655352819183560859507422223861834108807566750576075420071296896719;3811993856977049556680832684766876266434038470349786758189569334776471100346]);
(false, [8264379488794729054714771481457158011698783861002836641089879287232795160375;7589745416621874321486731313684498266987358122248492880094082634134361288283;19930164745687713316876707059235611045293488823196347586660437096753544421580;4971837832733004324326485545323545693922503174248625459923582899009542618233;492645111840923772950047855581645873928887439750239774330970945502448091835;16057117317727577619329717441527281526424598314992561569225427289800734954266;23026743096403118217834443239811021073768248942517077993079761286573041013951;5609389520884014851845098913425550564328378169581773883268672271396492607856;488651962987813515400746698628950330954644215128330463743599238387305495914;5731345061690907956745487188039083393711897058571082064973713048054595611123;(-10091195749455538157303336441716756963601543915136624826975231638872384003908);(-2977407104093614726087357812045326780195560020013756487671978289011937140931)]);
(true, [16638997259964448286484567160616261522920837990686649891075249423616126503102;1441822415734742118607156128560606687241886158345943959228047159620308403913;10980157351990205596868866060937229075771476451910882606664624824524011157234;21552012122875821396499267711729142554411509923180202047555606987862468297050;4014444522040699427361032462492377694226000790523323702615139302706545841431;21830889290045244327652553911212528878221216544883529347039668551310496974047;(-3811847977956750919425343283440971760445888324617642974748911338539081680559);2781229179951871332879777763634063190202214975714261016714304143895965705678;12553651727435333860777416635129257900918319004687906948820219427066457216525;2192088178593000873890070715969720709989991828793327699729921005046063283692;7895782976305609940693357754290116952401305510902099537104957203866444819909;(-12014356512853188779812802464709204038340404756464099123534696759307177629003)]);
(false, [4486828403981089452155443206554874832067395866993979876149800667031400288725;4640518811323474580607531695372478999852519732281312506868219355658665704426;16136005955669645342695381754290267356669715861071304130109601531486458254015;11885278362541703246419306454713111803286224086523918715924530487997031045347;16246317562321570069774976586773127211367664933090985662202231943869821366365;7669475059078827894734787635827623184344989588832253132608598277700868514777;39527478786437197680788455526465407679695537776384535802448187652802566468086;(-54216585322582858529715333904034322156933947006719672471803659624183457076986);(-64088548344843294627210845738953221694852604496196636780729016076331826498);1902501880463200063416528037187721248703716661102616919704606781193230780491;(-3106328279460832763211087733009357115307698988464162649704130599232943996253);888475301089602085940448753344824541386783953106539292503356008939291764815]);
(true, [19710689344639788560440297468173294732275644093952661903489496756996656808829;15814373556178593326799876206862078371911800843450940918998136548417822124957;17026452739357645577759018718279691927427783114287743361794312183783494413180;8380441794736802750240989280755381774444716851860271569114522893483773463854;810299113312946738748233794616955100465066222419058368562618394916990974676;12332449552147225511005207379782886020825738569720599075762860989313620503432;1277877573186006679041258321620105392502266338252230204039108064105830916506;(-3194455654002298843695406004071042829210706745618830616372693856820251824564);6323799689038470591221228303911326227067536059307603699848576789579557519997;28482158770904516712129303022352109005072003114906063536458537388710876916084;(-3334123944764919595248716171841628181978733462091494347049201526473757837869);2512805027093269322503573204064271543528424177945185357055162135012178318001]);
(false, [19984794736464722545791174405990663663531311935068009748700868391139505279456;11696635796740632980654755053410575784636720672082556004979194513305993963764;7348572279671101366058399087380555957309510952399715198227957993506766339098;18853091556227977769813323498171341445096704925837145422207971316627241108470;13693912491439915217237558460859263277259763189521723854191440524114853333083;7232633504135058273797916829004878008215312363127568998758251159471475117899;(-41808467169654361681695403826758397510574724881631628851304962435274185266492);(-15727926901634861032451442055158556694551427775933737600281683154558130209776);11996428093132217882764905550578668037117705402359632459182439481177832287154;21358942960724244835943145096072940835839033264463428344990938896552035861730;14432644338221278288226798044386842722448712415266231972288996775930785345479;(-4390261629112951342582789943185017690020385731246194076312193087902589038013)]);
(true, [18816745201744057067409447856889620079792326075613636418876824052027640717436;20899379429127829051775241669168915909879919420698039596025574405804699253917;12104407692813584548559389008633960165901716037216693691238637769086992196684;11143074496324107340969144727567089845153549812192480249507252453023086901168;10292475396680369890893658718136067649178621018833631823786563960106339227584;17927569815430666103144633334244810384410092586346874807702161604501224764975;16182968702599718355651267071943269532119569902722691795498986027942641856372;(-879332869686477502600889959609320371377004791315048128721029015246017679449);(-3778931046206130323557785743605777083275673016756312031493184213585719802687);35933290752947856177220671516855849081281982286152069714625529188464291288891;(-11450161467869936055473130975834373357515239776409057444320164663308489947959);2087121290779268588177649164652801654289222341205753284584089766861460657692]);
(false, [7751671706014142969514126692167662647310498121861313664991467500061418834237;19212001868263089930628995964760032778791632495887007995909914437600015403941;21632069595648263974651926462203579065943169614683042730054317646876174561698;12698752069289536768718082211975637541745623001204683195418394339846588179844;20052563880720700030364294394443967036101970921255922694071761411937722750487;8378481724115896587209966824778624912842356812723884007987575400321027894051;(-27244167634726738412002306568575574501773014170004122898554522181968420934410);(-6207282888491675537797524263071721200472336136413305116437604785302194459798);(-14117743637881967091177266775277882772596246879385822353215191531231228531366);13607774015492877939526099258216997061647434938867753390614350437209819481938;(-2008732588352854999488176139382843524196071613345608277028781607554478447431);(-8913669372450686263515887040027912205252742536590951157389741957972786244764)]);
(false, [14250596612472515279814707194564005400489878817595417865647701097913646704170;1933729363547151916280990508787786780607911844084761436039088167032800010628;13743583898896074620441037588238285697172773503004830639772515776960549193785;6076571670982159020997872908691566212699183831120166062696034756646037406349;6738621129645512728515531380909159529290156760431953579671694458475382248537;8612218390406052420576518733455257622604931896722657349248612168280384728731;(-17404130121149427244558321895187078416749864507291505790317299189599120300760);(-60847851027193897508599907791238383470783946491108479656983776552542626154020);9107181226339254423625340909957127877201561340552205610169032821544084581745;2517954253245004370452130780167955094216364127968523553728057002729478136301;4550850584215535149356210223376981110800964840154841675711336456552014111522;5008360818129969776217401913202746857860064339869147900527643082600354010804]);
(true, [18043105130201419898982838994312764872469497894364536226126525946784705537326;1533047450538568833822035011163637400704995782542895153342925118705798276518;20469921743757770449419467492076776647043368006691066944261120969151220356589;1429885170889327114599970338163557233199930893218544210568911882135612558056;10721210934628636452132579732077483490670319410569839110640295104615406828840;8992811772462994667874141127923652228905937955260773948729169589204131948067;1049285176448137935780549687847058203200816654428567491036834634724101346109;2545055629894848462402345387152387825379225872819172258180019162598617124661;14766073738596958400482504175422366898176047351767427482485941779105275595104;2527469791121730418749013643398872741920162498208767501248101998329568005106;(-5870165664774281510462305890396715188008933831718414666122736549826324063985);3359285547691736252074867290902365903280569871939473418572815190641629778256]);
(false, [17511569797947500719852316365517186371367831615225245404881843348704590360399;16636047571484283449234219744475529035511423124941685006720309687620691132481;8947616621645791289956501648395184552268733010747318123254176242667356877779;10594658245153354456063202054842799797644989161737861133026749592881097205221;7958022341009921177528120614970572630317473067767645169894817504209008135443;15889378443129739857063723141471045602220916641316847518805208164655945671691;(-53665276027607901480354349033533313883131823128858252997099103594320066727783);22663117817721348103481049664632429969948089559006737641801471773004014083574;1365893012187080733598160152401604775838882830278550567569340349263042802101;26619158962716870091152634034444669119465236524115633852003804740768989270735;16183996737361664786975142920780832350016052276471694392796144963640716896184;1425242444308919967610112476308899093000794882938193710657538439742381807199]);
(false, [6992223577710520137819545660669532870864962422639362788925569268189450521538;7353926348197009998271835984505141121877947040092851506073216600011957782567;20738407427922145965886084247369665585017710250085999575210292966368712486027;10339607294465797674000980603256374911724742939274177771503834714961635211135;12690014207043177837869231972214019675431567246417117355746716286198558011244;415458020909411586993353004417467034469249381532610570250023508785617086670;(-1180966168445736910692969751474228811773734097347575648889124012458659728722);(-10486545179404634361804949628885053991122505774581682403900586476986864631772);(-237069837190602600987972973532055628548649180149988490646717220165698810610);4698439934323416563592776279694349945905410741934862014462639403351299325205;(-3852272284970606789093098041434545311704163938264509313732617191441906125631);(-3879947531772953276334799119423776637835058453751183796703711568252232877123)]);
(false, [20687699882087717875035719743488725875397546505117386330826475368171505408331;15360838286565536688244443223697692377212403174093351724323924667365241300003;11616162513037996373404158458384217798439169691363566179336259121153631226039;11579335972725812578252419606404121585957976304121429319600951364864096145232;10480408586934508963725606155060742564632209294241292286155477116203808910646;4025692801340784208633017653336314378317259268615192450201753197695188232662;(-20889358260687641799965131246725824418859961883053955998802838857543209514988);(-40182013859050362169125008465747796100879975887280363651637953596034478273902);8773000860309741251549785800927207098529881789295151085422409302574968282373;29036630694426059969704406416452547048028411392506871874736547204916552213548;9491923952620851461944052406265468013342399014790525195318902172999732925963;5230122618211797687668839110679403693547436420136954894293095704446817335675]);
(true, [21381422959245113824712893032547540918870369315892346429404196790891931194413;19272999857521150480302110288707655421984205678380420876614383303698812387513;320333600274431551481999457129032224771062772597279886078972042712266332612;11952256284855909278265775766183433946299966069390854518713413574571530732767;12968414141928142153635404217383314570016356484075813076726046477034374731956;8019719887569196522024896129856228717295739458820816181858837108745799340979;5807867509957786382067019348517568015734351893658701457882290362924632667020;729419560795284078474251974392458164563232206301447161266178704144357247452;3916108056549584200114931652474603951278694502198339731694229919687153982341;37653471232019730059042661086514101663393246135728692677617907172429316303882;11362638391663585111783948767924839857093401316761826459834937435962936147388;9581899439372605199420623709544551147387060375778480818573505174257110479385]);
(false, [1718788120136304446828863446815391903490605907490916576232133307478641391592;15700087022067788811389615767870076672455486757305039770992558428089410699850;13290752550553500147662824849034333454664038823127118145408794851362619349134;4168712911342636625409742666123524186405565786094104233668232978252454156646;15882450156940624380476821582947987917578609296665687906803655251771385312662;3133214306604054947076431372033164507334964984896815667288773069714640470763;10097693241882657812873668660373019596805687198848594763025522211217158181233;18814054940844806173861748263206201872784829220044569839128295613097689620264;(-11126452741069896068541071209634212421365387325617313713268136452383975011318);2465718533610982124344561408399929062944659376496571328933670263169641154340;(-6601521700722334499124599459708194167902725537507433083370009457363399264524);(-8692266686874110850668784917030226856648255098439632540936090394957427226070)]);
(true, [10140865847389221061625797508853301383150317080932342194978390905722991800281;18145979433165611648558296340309252214741819417837442673070075171276360787899;17149092080665453028561886321783958808606552738502314946042347369158225661377;6201390026050857390426274944853646839413905147878292623145615500411920834744;2790288576493918673515105871548419932133771862344830239718778790589965618623;20275817894262095397371977231428641602540547143766675268042525656846420760386;(-3117900046732568964302788063863017758070020670235919781917258644429012144521);3893356998290398686176615660827821036813651619675417189121357631214360675256;(-10345252964341605034024876717579317706944098113624794217136873066595626053159);16814135714654874536232726340967564262459959172018150269510292036971952502805;(-102428799968532718707533246393537024182124055295317968101035089718298820102);(-4140417128114599478201728638399866930450828168942902462155633571434059303568)]);
(false, [20206544827180863492471030874791000020948571674628164553684376774075227801285;4949480442864787226697357267868574868310409301370737879610112524654474781112;6430418585146921090719942057083347496062053047884531423492166727297320333718;6590268383406965596682885172771018100070069324349668564758724751894354568780;5250420412756272184996470065405843150155593849912483885349366006601323049337;12337558496368994848916427055223306506164611065253889327028669912418333829929;(-39055108885223713145326523011446679729138214447900897228190313772594001055851);9545770922276914734679930593541985654798102710832247993026670045466455517068;17534851904095181649344962842453269383196859919139744990727875180253674477623;9138412710932998495182579796147184123089854501907969446014548352138589954284;9983081034824812494304285850458098809908379408876368104577564273585906486089;2064760389580225733610460326270341519808321523955613143119599763059155787551]);
(false, [3581283561080136945230845480547369727507725372332894936923744138188176820744;17955441708579637373771621205148266606553198775907269278496224368859552150151;10934550650782293738002172388996331439690775035904682824891850386519956682167;10925494376697115246461147497783408683797379473647345108715062338065176173917;8270746933299956523179404848134312270382860722503820023847357944560027376361;8587695701976230341274471275177349153815182705252783723338312650200358492624;(-18238196458783443355385765266055974303974768780733645066986687190198933187078);1034652281473182816223203917722397635475333191333884110913349257656106381842;(-14143314144399612703173069403617351986556631483153642452840568020353161920396);5875622689256596193919734179626203871541756013341561105318945960916335203117;2819336565926048856076545495242517871186438168439423572902377603077757741451;(-4404161398429200767993976729488173609088474256354145704217588546066584819160)]);
(false, [8655118233546509959739836653364504593063803922725279586059694272957644218005;20709301942176989766414114128457253676043137527239019335219179871506451328292;6722890593481827520463961100332070107022655088630863940785111205078184490985;5190087824906679205866984623336292190932149352729097986982859779518705463245;963211065614099429817519111355403759908566770542488389958576288339107319690;14804354141493444695209094438790711353611943435626051303724054388688030920120;(-9736537295858204221607844927616738644899242677705901858248966284135756444082);(-10305733394637814371705169656619329348074647421267394661707038053988539059190);(-16171426704652728344886014704396709978824260638197021237814683822670306681826);16377875363797487453241896467542206356921553885613216265047320634599226568727;(-3761099087247555221029863478735534698980878182223678067940520302284539502155);6252724918532706029208287435983954363735417021982885306529464175810000566720]);
(true, [18067831353043054257322794621304429517517040152210852072862088382306640150910;3409708044544626986048604971104320005293409069001336766128633102054141915601;5968348085646893666781072466328159686858041990023088006650631025462020560444;957497080410307454894203443056986336245875244799566664715853527578721718288;15551350853690806499848353608060247369480824713008628594333629829806670956900;20780475833574533001029252311669817419956615395182478012573798271907079031729;6454594544259384622230850033480143319541272399728533724515836064105646074156;4504506430233617777628016302439774819403933085174497342159091220383102846717;14383083315381670561720748638853148274402976038318087807815094626655596258428;5629143487913953546502235375902892965902208551776481262498243590168898539238;(-36501419286541486317208986991553653416291537564997546249829307625380703939);3611368252799578873607488923009143387770664554966774876320345484068546173014]);
(false, [11455915609903979102735675324169218766526604041874580253334567950299869785000;10209452633957699835471133411085209869871469569219876971217949449431954205007;7207518744701586262702545639013424467582239673778264652697629442476384373786;20589780406112711060679573844989627091750838106938294001242986039777592674791;10587780759391177542824978258469995600111409737283970762652362009820119841742;18274337493270719199531972589759619688663297848826260624307222017521536822410;(-7863480733164601089506237420110220993026566397717087298316160969961733677154);34693157604327116606057457829167850713424379016313521957560578946117256739896;1233771003654191368522710970592189987726843837035868476123881732492497033419;10686890535960435671056872499675098668031139483836740914202573245579101502351;8508633301643681126457913351544488300838145418619581339685936588792759084113;(-10853179789210682113726394073806909164368320616810473046258790049178834075651)]);
(false, [11252734250883166212409292002771264398117013364764591007193778771118890409498;5320257327359247173703415828451051549276715609935212252011659328714897577347;17432772901544203408237462983914784259263393025116584141187052732052871196450;10327414625602053485344211447903335677818629781692070738717562318316770233413;20395423457938414075269183299135468900730360217627960025859317616544643416070;14495998725226929388344063716696899723190580554259272684038248905911593932997;52987661431881887367213237473299219488470718911945510616679409898626651262309;(-16743025391630523902209261490201519940710531414267762479974025072048538736856);4491858513602906127804076207119158271894167142622980747588460063483634944531;5470283037485032823361966111344134240297835946619315015749572790972466772399;(-7751215819739046749128738515585916800949903784841304156456286095892823808550);2790479433137733605317003672577681373629154037249598600150274277315487165963]);
(false, [18927287730934214070771679146672777797642299742393503315222442198896595616009;18105620684715127782482042902426253237877889171505109564054604411454480589542;16335290689065038195269874538646567152654432178977264767830488040814362355572;16098590793912246434169921659676686095434849333125330656746891980708434706688;16954867234569187304471267322745149218935436026310712548749950824128708891029;2234518726459713454115183419047238637183936264146757080534062002976899216741;(-15743440391523853973053233310061767877056914110734792616689422126608753098407);9460359040677913928616965887747934733139068814360279743434744415622341217322;1390185619236579833234310308118769477735405368190119155183166715033477951715;31312727499716472244250005264929510606584703463257341575689007648278617533774;5722848058508479557295544663549546930663342055417020222518303914173312596691;(-4082653676651141044617729539448068816450922201012491786852430809311175820239)]);
(true, [12388050925112017188915480292182497785108229113902060913393773652584534261386;8884628395498206711342256065807852122134898526997510076198124477377709311049;2510158812328710159499186386024038601239375905108807590690469504809512576085;9879771234926230001996178717933345244287936289959301130851953489838545986245;9632582236820272713533462956752222493671159735807059025110977877729850786672;14986812020744541316078094024804766021636419019856200652736142702148399270184;2263214357968243520557282657969284583199409046021603320677384158104141629528;(-4431357474635102034146164438637726126823685701120437118043120578174681096711);3404895698272792675786701623231703656103853960168524249693227947781117275024;10056835503751828792237598378852274547907117016532593577905771582759092163414;5300312938523400805709875139493265125075374729448080068980986386569448873778;9131395964703368203646502512702332286731701735587094397329091872537550257192]);
(false, [20825248333727667345024845942556976903022232056843727560869258269767583730960;16964956767642969207530023525756182208318968040387308138019329321286113467439;4185839451217430803296625948804712228903227251039909383275963712350755875006;15213440984079370858780228981179997090847469466456397054536202589903740507049;55272767182603627258000452313858777042460155892057273972959137702853144971;16531997533315947090674811806399629046204234087419565530302571665557096315318;7612650612018592485417515257219895752792980813131383385670888928765234238736;36651735009754112554304278306756503533170521197242157819760641716751572243462;6664820510609290588780322761242256704295803885018312863560578925065077778641;32282119649874919948843991187285120692404029246406527035190868315746816965227;2539674454449250725599561698012274440016096845309086477531827131992066842791;(-6373414598337109197183378856661739214295095119292797597526095593752467393267)]);
(false, [4843078492460274422563162877793030753616120318726715280172561891995243352757;21264014576687022072882092972999376556448696849516070522031727370623529071215;4614073674998117644486900847310096709352628566878416378972686711877757905849;2439564858425315500118368813624986722990226515012998670801555268274737706691;15992751926088050750948295098738094690128312724206879294853475192732675261551;10512565927285401836532878592855333367778739374027704959689056626362044120700;(-2775704231814770377926636727425500699343655399510597340694951544156081125097);(-10032964491907843760468883746000979352679747175712230965758834469783845053154);(-19585990028691729514798309183174406628912343365295350760786563663953378286139);9409918581651864520093353679970315948260697201228936018591407258041577064087;(-12504332197801080584325480876094818871076639215285531921302950647226183533821);2410376486669750227742338356848404840755284928872017268579531359639209865521]);
(true, [5619450615598382762917420518045120553563130007210545413153933029356902577339;1422031030153699529140748225078518379004638815852887119765104093043053323124;9057834738144370276822655025704761110046605273468416961209824958871940484650;8408033767784674171718027520091491944556714129781496757966638920140054481065;15799262304770477449533140308760709829217556472681288984071827878421957688788;16497101916001745940938043621099217947684665492830490720039563101013680474033;2306713800563289612927662159302040517076205628336102543075279481883981925914;2385290131081029172091381202866432144159242363581997386050629597845034211752;1350316384165077917396143234648126513439444587226480095350294363758575535700;730166710465207886374202441644615682737648165353154612066803917111765864401;(-753105123456972556250678077519291986720672903227740823982427549487132695994);(-1821008778212295329335249650083107576318467086486105443571769726724276841221)]);
(false, [12962829646705048383510137310040885684488503877928325815864644247066445469639;10792326865691443139872502857376951203337066482526842143159993067112942368090;4665229176538750310911738475520257729826459976015493635909875920937338275828;14264296346741859821262402916381470132177508647598983684918451695271845451648;17118855390539135810920263597157662571598423174527136525327336417626005051968;7707361067255268087922570217554269343546832627746137267029628563603325640392;889703407281621124164284692448713519892469675632024451315569930828298905853;14243645295795356697950203398047274864235217386210885894224366515932057554958;2355631449060094697365975066145538573775606406138887093940759662932412461971;12783035666285134897170137443949888462260716119350618540064383280024640554774;5488942089465686976786995180153104715225648381723304368365801748227679730084;(-1302402359632539663201302334644918810799130469053032136539598052227757053554)]);
(false, [20941333247628497321115303818954445680279932186522028358527818904746130149028;6026785182019792369784005632478460333288784446601462804902442086815094447816;2189148509945780981056745895449897061164793629542576057000178025504066841684;11092174799017348636314385637977070647769432768782886924817069868371968335015;2641350570636873279729513382667056560468462455049554040701300661424878842574;14506122114041194855014772837099419014864943929424399091997372071582407397562;53416779957958704786905900693622434478881914190650849380905482387964526903728;5933363080024054647344848440509853847031669211306064775525295959045591772608;18375951916884908533101439216764679602580297317628713863999986858414508332236;11532119562774247672749320115838671694626725833470790898686962787466570424095;1495539657496088366609620115011567889255546680969836120007896714023718428614;3716664749204434484296394023320584859248011982507130956635363928951597485678]);
(true, [17501910448630826987972852894923180021623982753846745191943946108408962882058;3492304169690806739750819287006396335896183544393007328428416537179148999160;3967639431010262577304940960519776331434666093671879562448610943211058451179;7912402027453581149475292175176464076859538815912698886779523509340822319812;5226587728424559799663594834135310792533514134499749596486279101983115562091;12958583003556262552054296088497171788632273919681857401243533399608595605690;10786041062748542806627824069573287714693203459034917455667064487171993760322;441391599684016431958711390733179992793366272941115578145684034252462341672;13437382007335981134145863426717427029927762051250070911432765285990368281885;5584915627553289905759988179595961238774503044545003576454616322108886234400;(-1929424978983075791776999902886025662048099882433879461196232088417162789185);2258795615755995430282720826717301504633061297584177732625957407572461699534]);
(false, [9996504720549578947030931351014115765054275057397750112148608548465973944854;17252293949200250611540814325641363181165092992005257649206909407057884644801;3449633878510373988220906269248458238400904680505258294281429273438437974631;4045837183009881531693909415590147050209777140984085069735993118519619493905;5100315173938743086766174232791467198772063022815565315829019209651204231386;17042177892556517921966240062533819880395520212974455179587654282992671901994;(-9230686999416985754921000815145620707145571484841096393071310774307004590621);11470129412339397065177051347455764038766067930354299974410926953636950894858;(-9032773486628797055656073863288962510930307208356765801781678630028070382678);15758472611373866658730649913174785085845996672361574089807392383202274461013;(-2811046491005064856347938975069204166351943310534522148252585360157598261024);2174177162483191238128788264095743060099184966346676373284835818306293524974]);
(true, [6885802184261412364633973354014167121201092541332851507906314175896684161373;11918964156115310293422496440116042971611146358447641442931236651628675698861;8571325247399966394303879694279868080346645264977702675391525590466623970244;7191654605688091225789016928069957796075027993680047877141539198688952926633;17299591186666156676231142089376758259264451150118516212604197484163984035013;19116437698834602963964555564276006385665863736637985315530044924842985571778;1001357553893181345197233760109491742165641864537827248239153517808834455223;8004810382512808890768446524225677153160309834371758695454032221143440814641;(-4324122104646084945442683471757879434113550857867277947425722650976625148211);7499151932922223007961482688778470506515882337589239083887533463323930791045;101786676098986276854458975876999986833256608912642098957033197669977340720;(-3778591676321963349580308756525302765929911487772498820399959349123115008923)]);
(false, [13647388116077008583934455067514059238198064598281435959942063421204959555268;252536661327455709835803639169248602930977710294168379463091034237281270724;17178202250396142814379868692574711291868158829102901560403610328933980288823;8286474053640351113179079199385569900055306709449173927518068731719514711207;21579279989453898009159140992514560450949551493263863684203136420820799905187;6908066363783377313800536865154811873136701804028609673589068505571853416431;18150845108058326312735858146900297132378824895433548182895169077867291849101;7340214019629829739168730854672252206332640027409024463010851010079916116640;8506275662039022385873781736727677390219096124577600047384480906889841789239;314914801599556249236693527855550191483921325560503811635741341309068306977;(-5353783287458432932407747169990894666556927884869291881321793570144103000612);(-781925621267934999133262552981579251163777785068264175584770876727388613539)]);
(false, [7433653576306850008802428540735058199052087305204409244078798042073898629782;3939142119969650251081745750898621610950367333168685743161820250878340581426;10101333028349772546679422828025244234013079467995283070226886400537317666716;1181374393408959768005820461936784850920319963711906885919836009015270533902;594686137748323685591533878620844095365452392308864849577305392665420355528;19279547677971484513399369093457662364337340656821118799572684024378765059141;(-18862768929686815911798056776157431590352473269981694914871148626589155141448);(-26560757796295054593362592080562013977153339787116780368931706644444990289226);1815694621259521346269435582528593983447842497397687409231011186362547792442;2675611567282718511299151472493046148614319797522535685070719640939138461156;1124758940563263674520972933658910844542376861155699297711093534231381118163;3686620420006088230692225375053216395349851269709209738872611500392970210440]);
(true, [1325808706291831910396913262073333275500270830155475062871335888706189894009;7549951353732463204172137770489347084743271860473769735902798883972557868873;7887015434849688798845329596539147888289870231783769977259762589545042329285;11668682214080497834492046262044315381407123799221749176762817443502143642263;11971934647491075723729244794672260567323004530327917154756085544072596232803;18857165786649385940978958427186580586733268541010039784755225738494781601450;(-2395848644354933666611278744071990182553131356584320715699809439214387744963);2257756830761888935946281043249987155091168038380338294610300553978067267420;(-2523911902911248356914476977101824741850412175382743041742183090762949922765);914627208357285233003045916892367088398826777318343690111028658778203448952;3751531171435033402120047060998067963925855469598612565495868325598074856147;128554224973947296358218419030316771448971816430587443879577272347680789481]);
(false, [1534208667827771490678013719333481297874711972579179912560713421858517044966;13855609393420502364506235701858823165875042699453181980760176720510540801698;17248394711607454563496719696359564140522450692081241128966096159995105660800;4000196316216217213445538666390789959674874993700673253165961312818266875074;18676926208752453892491453297125717299029734183109634818250409810507098994857;6029161258467334992395019005298342908327414417755003801564340767980204875008;(-12059476866850590705231787818466549540175699783884241656463069226871499158084);(-7427179358034961653938699168106309510709997587753942742488697892628084061474);(-8663286337642434442144658969264144852262619560198157152893091226459477250246);1942357470527771145918390689054849937289007555216247344478517384735971959192;(-5510440247543306075707248002344326889379323348153746156189864385030423783784);(-5388397679949892276278637226125044280678599951195612048782509243057453423438)]);
(false, [1351735784130638995022109451903189931895090486631786814417224379946613997371;21135001464994654422022689773881806326108672102800767191387397466114562726009;8483408381398153014169550090552394287124202665246905524168168027373113213397;15411924479481435848052100255923271386462778002183495219274597757456889942599;12344064227187632032073663357928908232060380293766888067683759455603762541870;19528242805314446642052354391386375900382694759781094822305506194251077155743;(-47919642517297841902006454679191606750778928861094262099222738244444904092034);17899636987209392900512559965837538358349958689652140362440739202966851508014;(-20324203267479785218672061503426432957904060084652377058683074522350553504939);2610436840011735231865437112779448408859380676312905395615637450658614486957;11560308362816899158857816024323359899243754067157101178111208259117504792217;7758610803385355549298259486506103876207378568211698941251193932485755543947]);
(false, [12906839759025515186374130338297879089953130355683072498036382640691611451274;9446154709668648102188563154669496649602737909956718932856217495483451594457;11763521043157447490249023129413271434044607814438189271159161920325132477246;10050292270917139441320595996606157725322209552606533012324843451365768099300;11189806011383526028585727578887988123291428933639270436843242355507062068348;1618997059375007154051442516537147020533373470693542548736121071286967956339;20394040317334514750304579902651477717485870493311839161353427319671377036798;(-2155047981382845571903365773340852893137139061186424977599773270170269767078);3534165543534392182555893537528380843567175483781537334951959490073700684189;11140227736920433487102782174448672320405883289059546196184452633920263288686;(-4248065794945432967549902929622148486053936023874120809856932024093405699289);1746018459244038481361927430149389615149576085176623408214576522971111775197]);
(false, [12427394946255347878853911079398848888558673383180730806042127708523290842011;1595761222008181084983102556698725126216430195383555407793542845851061318113;10306578560101918698797361809836089156651103427731441814306262584418020466446;14095701576296513707847949297698652898375694343446528457558812193257156660849;14865219661041372800954304842042274636118559286084978476650742799536590359665;16696455613465275808140682936016098607166818920296023268685430980915441638389;7348102587995900077134583263923476587334872324168094537423925005863703407018;(-28938302752065306282139487172301357413248880409426522398823755417295322383418);6939510501684425419286305364613616686667853433163413316728661432538631776258;1812037180136452888852818815614143288387939534589275647311891670394773186139;1122132420194611229056994115157934028252377924073282174435605427461196412528;(-2190626589845606165893176844682721383362630534911656666053669503399048633649)]);
(true, [5608081624387263149272153076661468241143523233637207335164583229713647174780;6591761329963695440248869532395605792782601023144450821113035838271226317603;14797791689142799452404341140696577271744367582175395336139736074639333428420;19380089381870692818540591789809390026876482885530090483939319568936339069891;3804777115608854847983877264835554856603808937649420130037976231116029296235;1283730625173150552344411492892581944246391725480926872268444924039734391623;2795346642170631023920401047236304462749764261259939297422509307747857257103;197345170118709978890075091025358637793231212412788802993517297633166063773;(-548273244027935872532589999640371011427796293340042776794853591395178035187);3377807510942479633340002150010960883901965096009437984024206887942915447529;440708439942672080841047773969885349818445101320538631464228983143570552382;(-2706488753989033009299340375040310703293903660371630976008703963104742756218)]);
(false, [6977693721748005737632989804874385636349460996605600598074905427641355482612;16315289877581612529840490500881747711040248901889519529446755676647967977599;14727916928137392859863547866463987147765142017034495382547489785396113930137;19864810675475176339303443506931358379487291327066030811978771812271238386220;9388184158587265492932471079728097540325890415790657849092164298962074317161;10771628856972976072883775948498520769668589562664397064818324423667827996905;21977458116412455282009607681430947760506774800222108684944742002891410797063;(-72122194614419711327118966183970069974063869973552319400508418332210684443786);(-9936863154731564218238510422372234266614272559137056405513268758364456600798);10402214231071691266211251329460353706468501952481435494362978006812139759978;383581868372426832895774723544962790361514920866436823236405895592280760137;(-102439001585476210204620833898068158410256490273287700195094126927790587673)]);
(false, [10055619604299380432458429372392146818679795306472371933798879831791637414321;10882679688074041178635998792109576387981235472769105712849789194194601539901;10597482917914007123984302650289475614761133716866381194369440077603959490697;13967394570554420913478177634431152204252321887752089370011083472161398190902;4699885096916458790493832204562833851878125119689620380525370979199349772773;11623135278458281597085585172795582280385968265130527309641074886293441812900;22270272924805611108624854298111320880169556704757349779563285695939070376915;(-60965865996322320217331141035699622616636021026917989709355109286947399993876);(-791165908942333937341829630675706499867763811572275381605748793792527143557);9999166023463662862369835200152925502414329816258027450892184338668159231700;(-1034601881122663676453359932204478659796280104989544609850556645854938263364);4762938894444930430795575919218108811282193236512865020565030273056192054111]);
(false, [15104051198282291180771512450315685037831352962322552326410919708936963027695;3213250277350211437771375798540313122282279813300527886153795754550144594843;14930678544314492961366095936378487720582833323130742197727038345240305957116;584258734092061797584992966022693645142742899002662167003872239761897009086;4572034486505076881964909510867810664731946541749517802172219311118408650422;5727346817998803695848000785093716682016924965729710690289835301427803162480;14419747052133745428191810799422374810266617502316512412423580734483387722385;(-23153922420340618247658645606609916448946836874455896737582098882374569185842);9950884889698735755726138313651256399511058282585619867092621794074365286902;4434627026588189145232897134787196886793807484768562212702523865658554631360;(-4954814060071730375981768539297389504305202517744599096923009632349543735136);8598950949201252479773271448010861332461085470203763277523412087474508236181]);
(true, [4177853352561877565056290796071437666391906074270646118543988648931221383196;3651288368352783918679170450096009060210243189715958694886560131525212564994;20765094497801648420842052940642987958498226327193728839980993073851838622720;3194855461513991645989084891172529074975929978900813536524504911082154256573;11199582537100294831118625049579502067189725606648298714907514197903269227751;2614121125530938415430638957640146070123836314560066963878661156874151483818;(-1345278753894423601012173740605923501232125827735662683713925484298649697860);1669150891622666476139778404127634852860384503086107738838659565592348364414;188345492636511748562745189749920705003846133113305975610899222091862599706;1393857646793465254926690735507166255421867991002617435393814347380313273632;(-678139989268768299633290179400769738393373663848651490048754020395427864313);(-1471558296640909981129819906846683322286372188895437947784136513012932018122)]);
(false, [794477105829258822829922140416802122392931954849562379882963132355962111767;19171088612957708931057161039717068917966882151989602282947545045881432803540;20898465949045320275137574421926364187873953473884920455813450811174655115588;14821754915900922510814128843333408910642912948082384080445289587469194819894;7261165910415032230998691781577130980596471196387502266397620140386488075670;8340074029096176824137935528909794592290170152948194160509078155412750711488;(-61465948809572980042927963209652770224763317205914403446443076756368935179893);1622845839340120797798796744700550951844284200924518921708929271478259497404;(-16762398283063241291494845349084279302603072982537657651809534631438700333733);1391705226043029189493133945968233027840201188546562551543228941339603998040;10178722909551473550218821485840045413586836619856684757972349254826856245261;(-538836370172698595722325114321205667621499729939606814039699323851221899551)]);
(false, [17257761594383129282927303085511378845900065927213592614551227332481781827976;14897974601643181826758968072496432595445727761951083238823116123624288052268;3101810423499292515604200357217548490779246343555521476361141798908560854938;15351904811196952881001297853134855662690524385932317982040096000718509160874;5636739607879987808703828906426439146886205035156677952206198843445218085128;21730235563834492176686395802570406666205438979805457405270946056522129348146;(-29653447573371531886124807738980979700862960336965641755538683587389979037244);(-61873230357016957251387980039439544606123902907655801986353039920943354052992);3466732732346720832465642591015567335519825166753098199858604768742488259586;23492584162168366781283718415291499946504293203392534228628676554540390563078;14392594223162814086981808687042454656582985058754050249464140031459764701774;11695087769736582712713383001053371713529217920544310196581137835999947667242]);
(true, [20357027980674710301226586681573500731273197872009658968946459777468888390258;11090480866944935720088985686700815978990515925063374163169878816296275444938;17003772118424264416038274185853171566814666800912037402733982426616978291586;6975701333779752590002370145949075962855075341032724257743355362112541952448;10293940062600608167418432756942776665945782045207258497820464173898982379678;15881247196878638115728666737240973753349922896321992161366692907290765054337;14515855811307834633006397394568891608328576804357106056169161000076287847842;288876049708572758943183650845588630294306944857790425048355268690870627734;13313532020462916710690482742350772476822723137884304247374663198723114247750;20629269389001815588819661053869753318300155517242429058700038658233256771791;(-17173546082011374024244892696536604888556890262832240270003931495263640111766);746298753476291085701716609276624575283965864686317599817789474566535789447]);
(false, [11115368818354903732640156940496042953297093743063532251555444627418225794508;6336737813068865736218056935596693895101455716256371029131551199822885951377;5658670317418906559778277600546062641547709501043120223891379366187642493559;10683171657299923886600042086224368916798158654040808658889192461017710713170;15786306275016977319246612623099045601771036869956995207173481695939744841146;112636326620589193316221684237719375026443110148842032630172160429498026538;(-31698857419336271699146561814624334710114837865448204991864512523254808985522);(-10424207103001141266631256509246092241326748664062042755834177356197154272308);3810135804175303785545121876110145539918293824572195327276457669417529473388;6435891479264952721914636846226611258454920997182486570882722220311399230602;6834639905348745854289861183237419090535077943891132897865190434491417344242;1401713044128696027206434786215391956660729002847953438493356979464696849416]);
(false, [18784214434743681061280572672957367544651217219047733742180692637942338174553;18089298090533443668526588735324498428066653818910721896332061994226372718513;6202665149019473953011055024851252889693337462569517178195076537239295031019;2712476151794122632028212859704579007579264154271695099374560134770798840005;20299377893321520982066767398879070729391892804882661248306886903359277796015;16318861789268799844938668171878517204817716360334182683176993230649463905287;38162977531548921594349285533764732805083045616529522321647231838029674266015;9714927455163732968311461687216703281976303540985720045666689603845079057068;1170674442543901914570499785044705028596279285360570165497828841764000404241;31048015712923848484280150280074148820246047765850020632737958794247540939151;(-7054143334401534677622140487855514270177314810340129192269564682153696317942);6390771964656204455573673847749811430251676138749127619429473251533256835680]);
(false, [5307528767399148548683468012503225818812467716058842631354921009774565140633;8282601121854502350208128061548742429842854149834910831456384797044941746638;18592815668342009483741037825521223705227892426920820570799332558734729969035;15325204458949928846775591098662572219544007399153658746869837954142793163395;10288680542960085601793054097392621019516583636694733716583038760966450921619;2166658630998371944407168188401894995819110532026809739163660717938312352884;(-6770427702501372817435893951008210398182547200695536301994778159631333166810);18664881948097983721328312314038027081208130602772843131444441357831011624264;(-1847184352061169146807708281338325479642510142331680624048117096633302956716);4016781427411240028241016591630260825848382455185438266707732027630872634841;1768306279284832316629397583620235018085859676828063266386386230250316121326;(-7746857247050337610558027670707022829333007460226870020066873632282486139503)]);
(true, [12782886788812211076771513087644754775341210035942570533517355440871114748376;2019153176436160004135044606970124724737097018753061265053472257801014659807;8332634369198638233216111539867827117935483435556222721270441553663832865287;20337508792052053213689199197373263471778555404586215751034500447911498775859;7022612463706240666805849324246952864001005219629530151001407518298310515346;19758318554112016878013215918466777394063667136940493022501244011899620926453;(-1361523319914055722196382898027549775092467905684285756825379820893328011625);(-3980545893940263039360356360366813729676424474797077416140031765815791972847);7279031763242189571604761993263025309605524030939609897373079044299632121173;2358399129138055719747791517379786374792320788039293616188079533634258264019;6454394124840701971568654561639043118294986558135218556458301614503384710557;(-1980736481863516590879821616087942411804242282822811114736530859740173747755)]);
(false, [9130457653177832734423436866163390688606089889483929571859891591471512153379;18284838122262100582700947290892317257240601288729159940024547646023405528625;17369540510274764377295807516998213506613719530403615978304882760036331221223;19505688697201655083931215430337301565741850977424980347964914858268757840975;19658051876970361695142649193367852102067189066840351394984699532739630648742;10583333680121522557246940133622423513394893957521913588027122577402555265204;20021178782742255247498187943639402472615727348736714481472247313029856796838;(-18236754083153096601966091517200208696730288586532187541540708014164484837028);(-11465975120540440142134164533442660405600502645314746491558172572763462880907);15254668101779612807023962528334776671914287796129734607042813656702567019079;(-4464533091587127586764800046773664544438281255223236673827042318004163524004);(-7202198398820694664200068410347601491902092167276321728974524117465559555387)]);
(true, [17691300804439676535605872613515668334885831135109444911921294484359164471715;13807871332184906070162902959384020225982488079472043674529094718065299068739;11389511497279275740468005494797290511837223699330401147862687063356941187036;10494163129873273400307782551292187598421430423368501765145432680999255604768;11566409061883749081487299663474690334569014893280262111044788924195051152859;21679153064432157465239811576791578181915170478106407128277203373201638311786;4906855390358655387711654999960836631595893203377491980042621850125176383767;(-9789254752379065453493129336206403888806132604749901375073018536008408591913);5588608192226038876297083714235599444815316467974263664623342002943963610053;22320586137223862625484282976591409900663689760936270173078270707208403694018;(-851392848722499773628060622425480321703181627237348394443059600969320365643);11056030495898122089139914977032326565852621896093465904746379389850924167376]);
(false, [132242796439695046918558234540772232333760136487583265642946757692457749900;18396207169838511397988663776064962669617973797851137467700133653246201496202;20081061696849854883687386369555941555531284652364228873477197959864249965775;12553001826026747690928316473815974810040209070972514705592504273857151830163;10075280021917951149496540356623711459273361361564378691397140939458143319919;11960332226152103633822492223932881688634671327113497061594356235395277847742;(-38986673145441814173931037784970557081659714711568993922306988487198036120720);(-13059541285585347364553668428582363291362714911817685945154135224114515732844);(-15460489544996151962871086079864226837841762738939917099520529239420524958797);222289737396265174696249698197068242859678135351238185485022340909458375547;1677860963758863167606359174033959591680104411047252173012357461415237145264;(-7317345006757530206596979593235008437911784998628295736088397351809416028582)]);
(false, [11486250544052200663197536506245615599462962500001314720817021629097929638842;17886703951136327550611673581425276666162777671224156590106338206103141483568;19454084111747676565697008326170671921883733361755381586152933581651131791631;9375032783049220215564465444900750246942326530694359132610768991620684640090;20775027729835611967412701469606740479545254945627110463115179913677001540695;5577060619513378590912752570047205052113324307412129262064288754986563915921;(-42644858230838526606256106278133812674092803073787741830774234647589695956548);(-40079954475938945260780812552463286030882625746199365828976930511520996020186);(-8589096337044560748471567740595912887432238585618430733161862121794417271727);18772741530053770860786400429419957209487174594777019636917496075420412395712;(-2267965048646923738565910779129092923331537142994218995734611355607376018010);2180052157544111100058000130241288865783324514204151015582299897199769645965]);
(true, [20249713280141184553514910308635982921958360689149390808607389234574757509059;3613612935633017340060694507411939187124097703251247949767927978491421755568;13926693643669836808901704471755377569605446092950801026000339171861419193365;19200218039463465513752577654594409864839443167724966986060484269190542599392;6051424042033714971592745260615974512752269215594054469395333457763756984765;7619955680568486439994128129729759519408278322223007494826547596379038851646;(-3816679946638892331109875086499776087071745628287000514811308970159392200476);(-1006175855611709707224967838312491410310858760291177931844049338457043373684);18137257147768142005427958903345696256259503898451475685338106404612201839005;6686203756092459542108006383957741662598760212308662689481936832004116765223;6735693201449850209312945674616162885388073066920115201951134348790585963190;(-8177144950323651637646766309956677778290970415976019788491238452099930826359)]);
(false, [15884430096073366333130126845986480551931823827110865861433471782039007630978;13731752484905804791027609085082254849214994896925457346572903688321492519231;20207848933728210914692213848264913749347743934752850726292049216574593454497;5714349990140067621592956705614150689130395149321829773850561757130184215974;844872145812041300941358481214704070664751271208067776301058374609613224574;19656932308776631916290749495099736055775341568569500371020584834617031917759;23165993148724251024631467912679747833376025954740581734288723813703146607635;(-54645898861225076300155384322736935563487427500047857935591299106458978428078);2912709510015013595716674819924106548807705043181105671812612922861297042312;19930431485086973112096863206538604856868498712222326191532636877685449166266;(-13018732288992415052881852599162372159772409119025258894937563537941599274271);5846246283964758793024985358508639653476268788022755548931406541123553725029]);
(false, [5904053284841748663095006396690852000757444145978094592347721378395939606835;14372284781285540368222004719647428334319892892243496411247889635334787847629;2988644069481865178744533175612664638619213136902957529932060775588071485681;6732015278008334554600770298274111969749867288577850297224579331858007141615;21534542549339294465089656759338996719264020836673843130101974715067152356366;14053207282023714600921778701430640510301909156818643816639428758509444077714;(-76852391295456335394195429948513455880690637047762840803227038543008431300527);(-19940005828008863229304112005731437036051994944965530770234499456971394146962);(-7844609804884393350203951797777905088630496712607163455711922753718078935477);7753453364938800180856731249773812423286887616196744445472148056253829292149;5312864949977434841706104066767982861995762656179167937703711261179038847423;11031994086707005066992313248932795323271310322278459836495777966708524192332]);
(false, [21358414419879844835693528287213526565320089904311126270217267613308168039979;21461055487181466115201739275786240823322442779683501306730808688239946335579;3457091469083522378566165866760721525295813585799642165887861686507560441293;4874716765918033926714231447812232440429674403278121238835226194706934139215;18871088074834805562405546136488747120082067528080736719876178710462224639366;6349495782130639156003426950532420429306286922413920142058857401016442204787;19456022906875864642942756408379443634574808607525736114179523596908927492376;64139405716722916103372331987344806846848740010685596293911730206475780360650;(-200794377067377221090904996183700781193055471447320285824810479368237091385);41883135130320379896791183911894550330058645324433496110806139938330156119539;(-2278158206248312245291356009814114390387523052962679452583650891957372777560);1353035776347140737585626459756700397031278447954080975870348409449049454497]);
(true, [17452166086501733684995654884517806709935798689514934907417107928466542724844;1651790673013527265467009970651843470535916663603209573156708967646518987919;21024162048897972889639131543129971588860907003009539991367640527899389590842;5336508972136579541237963159790542833516007223930377128577901624139250608321;2767084668782792548085613456741718878084870867192399356833212280110942420233;4774435803234026232277859885655878691156525069429016188158247902250986100931;9103125265611794610049394167597634501680251761522487591224102353535679322724;4208009710764702676983759491680919128964313181490778812462497833145440523392;13790494305586177131520813175335862620182730704712825788066017240201519732418;2634046536705318156790826538328920893519373914819098065100201194681414663141;(-13971914106754416325758457303525439601803797596465007415606756443818739021627);(-1693895569113374996375004035112191452262082612816772508747235879379102887111)]);
(false, [9368445197641452172058310689817516639004468524057242030660695528927407079394;17590469021027550573592613025384407259875149469044382910650935241490466400615;13802844608852121464395008184637376455915275812664255798865814025018495912276;9813857498136758358030825303730108619889150077189994965425988024302689193853;3504425811755513570008421490315643449484508063632884181027472153216777972683;4893243804952698664049506277716087254668650745431669354026081633739468449012;(-61984589695745232054553440027144782626579360813787354557490478366601197091865);(-22220470809251233462784549879909486630705593907570867426407362788586993330078);(-10126753264589158830544401828270108695240000181022174053920392355397563482403);15057887103064522365918513387564413297697102707502978277988847411624099698875;6689032924756127832552241423804893724840995964350159055016601151021056912196;3887044150676027836143417533146049917490033198482154521915764277373102653133]);
(false, [3928222120747513142197327323325553458254157630575882807807648812802756650805;13165547168329188718131683699230892811659915681938201236239302294737283189753;2427542190615346419600715467336011033281042458498931508057202185466936059465;3835629575128846815852727052637782077481878109869424716976850142313948768613;7585088651195497882387203393081944630961376253905692283122392244269665748823;721055197199598730182964335781610247879848928556357361077699047194933729897;(-17540571959436258603910966221425034379276772568539775821315708445178593999321);(-31159926385862556935456049954114194267369258779467116013011211546155545884550);(-7213950618883195399542840863386091193143019699097270669995441715619719999247);4725568326447365642725132541666289258618845653401545643560417276551547924717;(-1554347112880607657400956470308970822147028523337452100965250461892444979637);7915020347943424690755109363376524007292516755720364846024704641069692928578]);
(false, [15668134001033005734872886122537016446798602792484415933692406597493086326936;12028812730660174213930949883376859175791538395927655565931114144067745938058;11597974464294546222932786428977027179647829728279835431381473282454875427415;3278342730084123730830139410887787620539135871779609964039167838551095903912;1040964900367769549234031358871923358057424151634566650766957269664765546962;21211299590457317539773244613989160851840222958283346578088044668917373454177;11275403686734729177748948311123360173902338308220126792104220604280399893292;6816786797897053770218582860250721984460206606074510341851495095893601744354;4605124676075205481534554943467441940967790410878212186098163881962517945589;17221030563380096775517202041447655128892775827851379583688897266973532881186;(-6870677636768648775200177385621266290994561881083113558291161200421425727821);(-4640745632661194936630736593370724603548775845962080016392659217500162822386)]);
(false, [16838065389397686213323989344113954310263453308089985983313251681133427318580;5680373403348331038137785581354631200308012155455582895890106071816009892464;18837607708668259226735810329678425613232122438924599721862809612838289450611;9193837800912592845365218453895953417929996046707858850649024086833954110912;8568753754857566687253275626645835478201678927116350636490868370928122593781;10995912598609176912730730625062848443055802721505689129788127833811349683051;(-26371096994975394327910142267918337551356481416336416722427792306715070269413);22752298070147009818494222681256074445452044202078060227672664310123013090472;11478938968619559414132538434850344964397737352635565687964583723636974436761;8739531936099855006878985293192830052579744810797809699810397422953055785488;(-4034092531459100359099300849896411763101164204773536879594459182999351862481);(-6429447707091380790699733361180781443816939521595012035423206423475581986484)]);
(false, [2962639635747944800262087657558548917818204281335588415542310213655777406102;817320662287680121095313531664246193527374687930280186482647538228991918957;4433183140091211143211042149147763001291803079253663997661194226949336319702;7696226504553593591239599873624488358687626173889797683599354476686034658462;8880886339768624536324620943293209834030443679412038793957876300420557676968;1879952623614208829798987707698975283818972506776119742291660053358160652652;(-35552810278738900399345494952204426400522877125603135378598905974105027724187);(-43858192392403445723107532516549329064215193482903893015672057921463927770038);370482938890239155034208112049081028419439813332074910820166147066937830857;221253629483851618025521666037573096683352707979705755829656349280986242674;1893760533594401649425224003822221206565737412725800267207871667326110845793;740576413954841732555898143610421090079708710720658695932422562973110859170]);
(true, [350219021763772232294896606556153240791315201962797421109488576734300422275;14930121780536367542159837533536934553140336690163918470348759446165556267389;10941537533957129684363558611491202166481750685270993138139692367067265313766;13211282340172998181063074287079590641587193597807655500170999250884571619105;13234043214002014208838808852586463530015843484188914621677446746134721844943;16287179740477004007261846990061034762144421017288838315320700531777866206193;(-739483766201372111790130019238395439900131279534664606811093816328084619605);7411781738956134820472687444453793755414064328489289229743653257859948854721;(-10178335662798705947018781657311053368230743791530130179906936774736563178170);477773631753754140877972914014524050186537104473394978211852376939797052950;3657721920024375220325533338051649254825271822870933583124375122088944943152;(-4527636216908569100798614396106096426545397570319045930839649030886516619802)]);
(false, [12719667543767481960418776446664515790521444163010497718520166669317576480754;2492288130142490304060457714120755006256479725447623099420402331558150136570;5465211470039509667987946866229812914793602268216942571162569892967930612633;5961082551151395463510183976937693716397689264525302143470687225890640597676;21779583748666302528826575831381250919305528303992097015634241820813528567005;511648145755915256626895668860169553428875176609559330684602528409401638524;19185769513602539009934513143929509255515185732338138505708332122253484789257;(-17681151071160483645834389290207407462426820202713285346065856994751422649452);7107854349536895308480404941487474935655955414558812147870224819255064012397;2896630544928390560311410116954126119926953210768323680688400694364717423478;2356857072585371922847998578681735386522565161715334032503361297464412619588;4836784478682256898013992775758967005520297369979877583040425787698036780073]);
(false, [14922549473026845635576891347303723873906526439960558699096500281372026217953;17654852603557122044276298712820620242042377500873866519474177438336974585267;6761127144734077859218398350186338117462479891136516668607800374681820057287;4702011378391740794240216627893227360970310981199872056667282119563245225867;4861716734627231928746789323252981707563692397512467049471963920741496877625;9030448545081232867232318920691381636394726270286467960687101456551969026530;29648135617568662844807800584249927709701830104183068021711434535876182480025;26901629988666334149058258916402471450017256396919007864084570416791873467602;(-4066627833014092216441531907343540609621499681106590144405517420840137187351);24072778519332989537113396133585939324753897495946085301464330561090677473701;(-1899059782201113355600380719229089800457350044553238083886047889598169206065);(-186887927996582304418416536185954951674492864913991027769468072489466601665)]);
(false, [6836984193775010690963058137690598277091379775249524102215235902734004088653;5779584206961145196412114079059756600031090274363444877147146101760130316710;6381496366932437164057940577789796728994655145830863056521085889377911610173;10921854547969351896947563664667298458451352795260872068069353817775719281180;5313223578121301890450644203409662493624082297809538360342437503226181028035;17619950216728566597044645174797177097494568672976598447696039755374372857560;(-4966926905832803198004103677498174422454322603881028889595441763109211546330);(-505564115373374691834460638298026217461581078148752008746237172110113059618);609494299688096230562728991320073438260900364787071383933947978588316893814;3610607402426413176627225572823909372771890478305759565368329972707031795462;1760928787461293879186034224800751897081811677029311127213022741797609906964;(-1842581043460152296322722746979783296503613010639565370115722991278957757133)]);
(true, [15417656468088835525576647189622195620289787082128358944758261403534048357845;8798145207715738063797043419236925093663560380892964882727799617697097931140;17084766423161280834952712478517246491445388165509950115884569668962813444497;14727846478073635117997959658062474915635557155131839017025765871198540461566;15687880422472260807713792089226098307224310530535585910241785361944418652380;18805639516852724684290133432431119012162964939909489747893304511363462544589;7017982121293183356273088367738361901565445466477645604916543848979239678092;2242497588355497673865169505753541794872275737739063057630869274021342205805;7323418915375015464700881669405381131758209153764949582445934599760457816823;12394487868502429779904601111619989553016439559160599624661803575042743956287;(-6009329845334158735894979769970579210946265955159215467285093530635263642285);(-6983127935199097982714024289931371749530584639162344763167527861512252920713)]);
(false, [19113852254245371953321226852682852010903349784905145388363505707149827983929;16789595154731948413557735842305020407777506631929825021730147044619571571366;2051795956709945536126943441033556590715787167328334974208334248820347107907;16876065543509900347997463935679748202899209334549816885895145959331618707627;19483932913667146454351591555509987970960046542560163200307575082408992071693;5497132900827793909536557305601584845936866896653869026361367216546737317131;(-11728023950239278857800100423888329224886590013221475305468274358819518365549);(-12063469448356858233623492301509146698062278482189795786311994554468418548630);3812496189206901763303949022746924313078239006470810766231076651441365063448;29322942282317058931397705130485892160929913697731003728365059111682322887443;14775315987863972218953348863533641604266499536615806104448011062018048638661;9655263216681371135902815361624916214716966511974370991982428563145335198097]);
(true, [12244650348063841968785545442096058336192173816782298707541524161376573118485;9668118521312664488698316251193311192902167671406518701750792996475000187151;19717873183950797689622451092888393781900449802497830934105913921938075440262;17271152192662109711908058451364184522693139502921952329907259112173984339369;5105249293701145129563078568339133490120320523993342768030649503712936126454;13111288547964961293260338896670256930486599171474075885490476361435742316393;10856907632795431906764162913411170775160400936589277819536724683134716243586;1450852610764663953706247467442752456891510514253534607062210079753528185960;2579418856724643195375190205627821006905112091808057197762921215429524860323;10817015464445626384626657641640776507776306681983471706155039653646998716427;(-9708188791739660899972482731898091943739967033372365685505637281632501720160);(-8024190308197427563834185663390758735465469892056027896870756637322594724753)]);
(false, [4767360005633071568316900325774663373965536169589008070635694421116608333019;10465924635285162849188630697243682266435896752811203101302350199942751508652;19679533910279681820126986738573022459372013590323884383401870431121761830267;13973738957430433212904054801597226823204156407219834419493112225007649890141;11750650632392797364871644428435658422142635671035299518391930427500486504144;5654866819270951601433887972430781838188380227937149234349920926626013070871;(-22718674607470818721981067505181843944188733021873774694924906113913345427243);(-82758016194533048025246222601822773456010701103891049899675480710549964678146);(-3965958234127754820257628890120055644036757116479587600098904132689603682898);4559053078894834081071347104888627321277864571572181507528211922939991318559;(-1568316903845524970202857896940391886488522083168945076836910928545204748203);736523805172281124100438976840896516342699602482971460684060131462477935576]);
(true, [5244581489744840420550010752765764082149171079514204562892337314685831182580;1209890277751593248213447073994515134703975284990647405082100105608582581296;19532721634461269240921565555872118453351136693929205329480357374341256831341;1506259120342197378861406327891339817166274879924300428826084179764798280207;14104686435000059372219781414232948842212567346539536140716639854876699369527;1813004324995879113097071780132989951077750936784278771056491345299500567423;(-784061927491684689339588570470469185394163137929663023133961700372617152304);(-1427340952483934248027742965581296666878686798550128532823269948468568440145);1189762041240914026205370959148852488024132707029481371997833207420615535810;579796943269667456617767392374599756830766529861406082366141164614524626313;(-653972718712330229247099672811671360595212982985672846857819285799274086585);2995413615721537948586418006826216196925824107243936017823810890566952801934]);
(false, [8150892607489190171710518587079581963035678851732906005034203978780401615957;13403674679014218693603284105156840112875216139124453804282604834476109009083;19740511002036907247824153432734583938568729291926937293197913823368050773143;16109398245339817608577374976977179737006206526438053238467967604139763218915;8734604829243108125593676858488802455922075516977651453936347251095176579857;2014591848171511527968252586551357247069728464481871800208513073961511405298;(-43696767752222606413366324693162484522578290221810042555605996320554074095492);10559843686845139483816594014643483615464959789156949565708694886008436536754;(-5172705971190229170085849846393947950435925546919728026194456328926190383655);9982702905305122837661901572767542008972274814823793026770998768338177276651;8865127202760242631705255579614032190113360792618146463801038968296909773902;(-5565259876641033288494828820375631540604251478155109447067557295819463669221)]);
(true, [13209980801022002566790839083540188699871634272407559827198782218394855801947;13544536250975795300381800397694838065665324297347743199424230138519059318291;3166507441023549756268966836917930503048546649978124884581539325003304835653;18390880894789490452136800273538944417476869545405526607792674113130062914398;14229771651200448143238832527336254867333912545027667760995251195598595368553;10474385804505842571475608993376581952546571341216684505240929185592244146884;1678614165560088097174370810717812325473925206051998899711504411024429914112;(-7037573235953920713476757215330983664278508207247667440037679985324257840651);(-408935040744794124236795251478174318061962230147264199640208538500455963658);16348782758101937350883348801213566477870973906749653985315989314673807529076;11414524900486253549717861552709487063931083541459236458488614603528890950731;8879143529099609420614775515193145457698037637459866044644301037810540205729]);
(false, [20789209078883713039725417275603747145876998973425324077351416913585131263770;18236183389186649529176104403669861128724547787966097971644067262023890400423;7747048086356281726631239233520794463603815665519886160451520570175742010360;4278636681708111110289004359413638261375020535810271490739813056637116469308;7927574680575855214930531126993994591423318296294847474607028521963847302130;1065410745874294284147176586592316598710991882972532678892659309184003624026;54559836268826511416397759251062582350216823092312582561740305470835273044027;27644643752428803908182143943485169552142676344091343224654558899102960128998;4551887974967528775666783998552845569973845562556929186360011218694525819335;34641047387721191200191667850974368862401841498811483475449247923676821235052;(-16108158737881357685267417189559101590283256359107610674911915975676099138321);9587376086642932330727574203255490658309655841143326497277810392895365820263]);
(true, [16561253769195358972168029522924312320330803191484078177931119624094776655439;13653709188701393186598303025889801585739281155276953255010618258594298219413;15606324447300622680873603870405785122578804573233721314708226900177942783506;4700076132424356413638950680579465408110131868656836675529257344441013812707;5265826785945557760439935644150083348557135647083050034918826478537401470775;13441054599878720963609728382136793841949182745961403608546496441674203118552;2723747276582054798863428971723599558361709428210779075065735841462299070865;8289799812204181050410404647735087900249368633608826067476615452941821618043;4013631990125868608914424250746091086258475664351798107096221618857757405980;20661552787848530819283162982978305194828920612176304281121655006475941696302;(-5683656713950651433688839551787013798858084725479613121223090402704884195364);(-5221425960357492835082895760320626172466290801555659082088476044933350110139)]);
(false, [11200657449622938605048469756835977010416395247753514208165079074970240107708;17835427993554371300160505512079825326199337075692801130807454672785787561592;8202063232836221947794394617756589669076180422912242298620845654232767442062;10436512284868517255495082131446742272642107531511306413368659039334738359122;4557707795817665662572320741438602025299172746380122262566533010571950347342;3634647696414149629054553615294541062819750941884523454754214348241676241493;(-46869564917961231682258022632464817316847010656413744602561341424248076338063);2230803431435553833219725725624567497399388300009234151665926290023906752660;(-8801426662590793402685891320074893487859495072890616980286780398258489297678);18253499889681337814141092467341915847628249973647346761187653342779565840792;8463191337556583675494135132237771450449498416973981670490589007511604454005;3097841695558152336747906975323247927294841674035266613916886434250161699801]);
(false, [19236526942638738413019972271645884255581303916775957601717470578364651239656;3514982987570981672001953454586539242661072534095163862233071165003298856257;16408794388301083836189917061252059113369415351051425379373691333469634192395;3378970558283905559978303669167885713672083750175698932709781904634273751449;9118141631684664081913321918769295683857724896758936886931806780931531403975;2777626319459438277144067959016567991916724421273535652544349108256789848894;12551867766790704759127600299060589009531504971855107452988632770586671598234;(-15612448963496328860400445791192068931571239278599562569422462094683158674660);16341597884595108605443694231660728215513693704168732570708981768616288406696;6178299952100650070808962464161753924527247586570965912770601312835199976277;(-8345856958720756166078504346099682977802693551797570375929604746383684291322);4884634723912403353985097599117122421956457578482417073330070957184129310440]);
(false, [5380218096905775499051260745271459663830894378662857112121291891213197250344;13272703471579127650454839163321950090027391494176455808287759441389003937574;665853697248570068112653346598168186754020773275429609525970451166697356187;20413533969135063069559263283187683198116392877263412256776299729783857736118;8042012994592675336402173899106246104762142980999956189558738655546004761090;4634239050412745724634032002857377898533285598229778010790982599432674680278;(-34224369579129453026808542916032118681759112417702483942645469143666689753648);(-2774811491558536743623654045137203472219283820805327763638009671280323230226);(-6725889854941355544161724725966442210970210176971666715784207148968342664899);6524967749195440843358481655478981617366007918433280056648518513072464298312;14199182873852942980099563475778739170676801036499048255324221725770374322771;5359119866947535539292498204384798376332141492390544521594321738081952438748]);
(false, [14328332216985316462258318120727185621843412178159353368265515747595259219110;7157017780744373156058206678952002333361619340828564047926581413439820224568;217221676192635903868474739427827690743735989667418768773535523565189625885;5638052234116977201736032157354034850936171801666026346159361654120713974507;8581760706741363808772806025278439207133548262550980230363026263603144187830;1187617953610565972062628177259162032220157891499181078778144177569102988333;64551989730437938150812483115132275207825504288644232126333087794802376795679;7600469893155403300678427810925554600357194666043420231628924045607509877988;7039313366018996800048093021625604573288074032684035603721818150863476122599;9370156302250424146089961495206934148470819845406925621364950407556692847599;(-4537606670268789707223787844245236560369995352507894221303945585052717256756);9818918749003567289594434424488307271553723060404566602175516877954600752345]);
(true, [10976695405392772923445999740422677908381867467530247241916647035858496646681;17607293817591382602818549124031996180679377968076354294749090530308527479721;791576766102451906849176394836250061328826056467204684871289141933190791117;3053401202218802420304273693677680085753459612340124260949448068803127926923;16559429154953910303982913069127111443994434749523398597634653416640345195482;4213134444753071514368203105614541824657313751880583825479344867942853984127;4815530682525727164216333025476306225347329432433131740889092203312121678867;13810231785066915957369275072447408299972373782511039268861788559423185338690;(-8658938712712426195914824383960810700926310021649044767724238997174434225916);17659699984196619209392417569005663644825527899575776842658044611103320215633;(-2367171787814462886268958574440277778552509515989785993593521475734614204896);834150479305920922468280994922960986460165090697724882866807782739750005084])].
Definition Q_1 : pt4 := (15267802884793550383558706039165621050290089775961208824303765753922461897946, 9034493566019742339402378670461897774509967669562610788113215988055021632533, 644888581738283025171396578091639672120333224302184904896215738366765861164, 20532875081203448695448744255224543661959516361327385779878476709582931298750).
Definition S_1 : pt4 := (791576766102451906849176394836250061328826056467204684871289141933190791117, 3053401202218802420304273693677680085753459612340124260949448068803127926923, 16559429154953910303982913069127111443994434749523398597634653416640345195482, 4213134444753071514368203105614541824657313751880583825479344867942853984127).
Definition T1_1 : pt4 := (7077233752747419631293355789182863059723332789898922248920702066132459604631, 2161541316829393214217777819420702055841676550056957143521003631191551558693, 2152564048483171376550863132831589034437141597042846553297504442547782687759, 17109414483546535481199048820101901246412268759812626047055872867111944906936).
Definition T2_1 : pt4 := (13790365684753737420595725504246315790040118931668543511568587228960447685685, 19422855031679994782468110875324382914151298062730615293911162781755940699791, 5328813716885364918263492676130163644701876407774425065054384478004881013101, 17675108427086203707878202639642733264038997405417239837209693026702372224456).
Definition T3_1 : pt4 := (12254270569669877983056447928149207279177994205883750035232061746293782378795, 2551835815683405562239215772790031715058964667559518738798867816033594917960, 19735678823356103845695542612425686054259169560254977109391533452097443520824, 4778828388292739741047356925155373842284042397485197615633165027533281301647).
Definition M0_1 : pt4 := (17687597992332340209805588870147998318253314254332964774603866666962336837677, 14241179555404405028093153193234126578650727409004803820419371195227592099143, 3909440488549171950633055913026436136978198846564783340966478872366999660210, 13701422822393025471743638561172713312249874933382263399657719905940960285225).
Definition M1_1 : pt4 := (2419185895003067990005056573627092693021751788964533867487226428507008865411, 10172777587032053457311005424279324939115362802157462553015649707317165446983, 8306855861767952270515255183617997396969749555874390899807003615139470549798, 10687056549150232842004354706108526806778186633775396635488563760162747176792).
Definition L_1 : pt4 := (5183130622958360103575488207206888449721717657641088609011881006241685478945, 1900509322751992090310246589101486406505617721268295495280993092429462416863, 15581489283819486263800716169492004736980400238420245612383022430981613310993, 16713336753801709585476993905706933041304172836031723224529506278443631579429).
Definition hM0_1 : list Z := [350045728519177846790063210542102721267898680925843021445056512604440416526;11442923273865430372416098823712102285091232385295935123567227920430693210671;17687597992332340209805588870147998318253314254332964774603866666962336837677;14241179555404405028093153193234126578650727409004803820419371195227592099143;3909440488549171950633055913026436136978198846564783340966478872366999660210;13701422822393025471743638561172713312249874933382263399657719905940960285225;2895337020245046267190141259213411730180391049945044277699818997183862242686;(-7663657680852506579023447649701323178683554402392037200869910659696171778512);(-5976631464000378533168456897164170795130079109221846363833099082361611211335);365999814351721237102035747402242212678817867836115085017886766263461185371;2683297589954872931599149169049350038980902908696074357754180620206152819210;(-1348308684126281344722159700405473815282515346780254589491576752360657192992)].
Definition hM1_1 : list Z := [2755665867687139368277485244319845758701537265594954270996350082695389155768;1176646465684944189159612312009164958452462972142388351467154902488231834224;2419185895003067990005056573627092693021751788964533867487226428507008865411;10172777587032053457311005424279324939115362802157462553015649707317165446983;8306855861767952270515255183617997396969749555874390899807003615139470549798;10687056549150232842004354706108526806778186633775396635488563760162747176792;(-686448657690621401290577183400092810791347491605235148192676227671383811019);(-2091172628072215508974878551196536850110502996553024265760416500491847292905);283677292210404075144519879767627871232111855450668369358758639625456182463;296272708851776740247251758414112594146304098559310911424433378138033901515;1703543381332528208602056516222433628589019343520127442750488127156186920680;1332984092969673428926903528135898151802711478611903799438838976322563946409].
Definition hL_1 : list Z := [12492182281856807315734257275730816457454885083726046599949513305693700828534;13536185605797003347160523574979806122941356650530761097607754434699382539216;5183130622958360103575488207206888449721717657641088609011881006241685478945;1900509322751992090310246589101486406505617721268295495280993092429462416863;15581489283819486263800716169492004736980400238420245612383022430981613310993;16713336753801709585476993905706933041304172836031723224529506278443631579429;769366715874962356922001982168461270555914041808717777411948478485113771795;12311452103699311819898536379787154332024671974554787716059332454074498245024;(-1241474829686290999422988180265560231136423288266811270001151726212822838627);15450897450175565648746016699451284586954624529714135439818040288910747277597;(-6693212462171619790025245192418703848861351471326179637691488650501479509149);3011909845209931063608817435269369116583837715689507732361548453404561013205].
Definition hD_1 : list Z := [13355136551408819763938977004552175176070499229801526938662005854881230121990;4588231515514748761105921600249891007908485902754412954594209938160195842444;5183130622958360103575488207206888449721717657641088609011881006241685478945;1900509322751992090310246589101486406505617721268295495280993092429462416863;15581489283819486263800716169492004736980400238420245612383022430981613310993;16713336753801709585476993905706933041304172836031723224529506278443631579429;2390634370127418603984473297590466275489139843224928509306126446958328594123;5533665720827499136047546196342852077707594034150346840171199854558204732284;7186863047339463106730908227874895645949464094042078057118968893490579555963;5599029467825694534583546079011397225143303745591998568836386930670835601239;4177932571204699587637354093605964349855807279159792199085122842685341427905;1879665793534256552832419401064717042780238574883222994285702459304692552438].
Definition hz2 : list (bool * list Z) := [
(false, [19435853579630090024149825166776493216864333675542366938637690364240513359750;10107172610447028004048913732988005617957173159980213977664388235089022767042;20031412211835896969931151047019549950569500398706054058222540860340390675261;11530825037660493584438633820305628362094560380245299080851912709868509112487;5210133533942595430436344749331221800901284784251131265711486883810840919184;8172446654071101134364825418230441633093242034004270569726487555056800356898;33542116049773526353185376418104355163095457608471492363546607844574967804739;10517035824010579731479239821205823514200674198903142090417276354199541103120;12591118794009007669060655729866413289552958290091422261478851428477458356771;17949501758629657761875192363429910869762900857550155156489122662370526910627;(-12997406675662360526239329250805358303731237905378271296255051266723066355852);(-2664186889107606181819375356944559947638725539049076543847863205285114348125)]);
(false, [17843674592991050251487515080096106610193625859776332607057583731229365622692;12215919298925124577629366284930038906050353380976976599662743172286111387865;8354485745152553827137527908378929689635458721655416489901228029792686691243;20772905835664004622343412760603735527757346004183255182372422132374673965605;10756401687424405422979630597890723174439674429235336899561406056330229109097;67525274164077022146853453906488884401411196326250053113748893565889577683;(-37400201337205986366052580280585535139937724786110967688274186141391934681780);(-44175595248600373951484444484397633999161845583001489631545252577084682248030);7728717177217970885856300111225520228562066888047803089063170530477112077878;19917257872234367141768138501535121938129063280603487395449857287316405981507;14677276343349674336104981125380063896292790105217351003283074257526171347515;(-1017363114782903208220229324006274076496577313431352525755378007050294546749)]);
(false, [688837044100618936021666156372826516203743770038523401784282988874055652672;8680453973871437741329911961491909915583590191692870370593353111443919242056;19729541532145515850541052993652817730992880796379192412180608631493992459991;17106470724678113182090809188422964620327449721220837242153261459298002449500;17781793634708843949799324397364193139591251068378324415601349034387743628961;7270097316572009437696648972066616567305761428369524651427100280034374043850;50200241135209373707906993701277457354638111947946555286242036925645145995600;(-39036835975133352370957406493082144685780548264246466185279575340056377826678);(-3420822089630044560610229886067500441265632105596644850623712734740876117163);546358909833370306544728417468931003121320654562526485416825892825685978838;(-1812017587072685830474796639997844253839448428497016296978653622273887754718);(-4395742154741959240136156338535583380187849992493798278350931851893609160667)]);
(false, [18765199909921265140337723246271809016679726011019632234402882233471976697148;2656789016834807186168139790344083627661372569263693931828581277001184817026;13451710173279255266961596374936260791096576839981167013215113445929781320744;10021791320063350354851155332028101955898156407530216718064889667913688801179;14976377537540934180119913387032631497712803211192243696620998105748467871022;12268337431299288924979696273622790050010062734185574654141708046398300502133;15481242234084624386233029174564724181342632010245459269194970079629140635211;(-75733915710602081753043671767494965867476090941777449003531732333097881934716);15765276445433480043301575809326712878376920778151113505478514128942106419994;4555429808715292804810750198922067876573176185323078112510091133392950248699;4522165739821411090196279598947295768353672217700326116379003556608434214069;6835829609766296959512573615889187602595397449964259737042389857510590120909]);
(true, [14546218743885752445684247187049723785192129760675946294934911663822778631340;9622888902290336793414715058834855287132981653867352872250101955276537773298;289557726311246694419622374441583227295865167351193052328000344067099238221;16100794626991707441155868326730287110580774634932048306177731149765291954869;21402046033287696202659733017291216929450933790288272852728096574665257307575;14703180067840648737392143916213009123626027760568839126283516312180435981494;(-6359682526379709567758804775247625811685027482719608307890650872395328754826);702561874675065615023622523553623181953868705322166537850957323225826586304;5436365523531478535670566559888133482286487203426890525826648551966515228480;12790121869573682499055141288337432721060928130315793529268850365301820091182;11419697942715259468896638079525893967471117976865012744147015335747954355221;1746664594716492736612683233467645628728433386546586733640081596223752548869]);
(false, [2601608076955976738565325143598091168446588028876560166222503326620099806337;21505434121181686327793493604054212247567321692404446974272639174006320110161;20738140479350698555182536623827239781868086911883871273213133734883815726864;8329603750738113704006240425510549810387760516433287631808014066669544049865;3981931102245017379842877193709360025823571869188631016361350639432959453203;6350962455623552332873057921713711424933759608549060212674788816504665183365;11714881104802036060943448720667584204912223408742074921930021292340665866174;44272706350511700653205315832136434428452422186191322059451079252065370255564;(-20820096652925574288671860815303817385344296036841280372260713013433868519526);5112215853570665959186807151249248441774362200225746113644480689812853925017;(-10065770595430908659493216229356420994633038224412014082501222371745003046911);(-19167278925598842617812571245304914650639192844909854117206602407745797980398)]);
(false, [20417051330570426947955362150526382125197445537962712834170761397470175700448;17239870536414277435688925205391568660191979696944945981845602967585104444341;21181248061309793181438962264190530957558226532532984299893470758296169121265;16972014813715654667702385183620964500545388460583163721072082031629875449115;6748734869083734619120877960649284698113421160628296524914858368662196117586;346248431121257953954218954053933431234449445939253438655119915783009200916;(-52011734334787628925891930045276349694691690277210852061454857654302852742185);(-29230813719575792704830480441134604611321426436848098939796923425067239218478);5466078278798306896775319650805627935675934546244512541780316742467196453210;32162227341438616754700872762409036641351220918813618392602461075083184190677;6393710926080551720794874900773535825862866554720704913235896922357254187811;(-8410527456099598550360343364680523929270748022311725573338380995738242726434)]);
(false, [16159352681779193896183494324209986429177443599512149045302396020603852953672;4944307720315652394894513349697808104190081547843816408285601950156344389161;18792603906992195665046535922600007533725541886575851204679132100675448123975;15830745906986879470205000134556297471115011777456783084346276279514825625164;5124518592394831299485622293567649872084280338664924310895166023994228536797;9572535489312438070660374502792288385382985693073247936944534729314016377856;(-12202966365495840567132919114981301128109393529299680790224197512459128244896);(-94982717549833403588228875523301783810746466200503245481529197412029793848338);10813042492572785539117017980008467395982414424559080153084660090765563870026;7300431806028343692621120243546851853031386487904532965347422733928336022530;1505655746208542566815955257245423201073766896482859773543850039076470108342;1382128235646540866246060166017707015783181576126710493759061990394463268530]);
(true, [8257401616863698025900499584280870815836562515849241922514217403228798857595;109890998022997712737238912662756307248574217158791804850734384249846451064;11408577971735177629065615257508263198600921463168744800804814954372344386045;17436069677308528681695835821988101258085853178446203621587509429440186658381;16949539240449189767176798382518056200633627199004852981242642923973178242643;15529874447359960090489630193572455567484435128306430568915760769592748799287;(-4339177966721546152032560873588790554960893899018700611166226863376836065155);(-310567799956117726377276430883746317595337137493595897465443827216632226999);3114576434019994070737605451470199768309504047674000523499307690302798121746;82913380490794644879849658442811436940430831155001841825387896526255928863;2793704304455530614798873081570990482077860305566588037967752057818802954106;(-568541074313514216480000277732097660719203162988019388713953100115904706286)]);
(false, [6352520345276771940567370113394337431922239657690662685842711721868655553913;11574624062101697413529072788258941253555104056212744345250111192853274026409;11250119852585951854000030167575555245290419945737691819496171363113522834183;19447740946842048840543877444358833284810566642009914438354203103762448272831;16344533975055325530428497725236776962108372178737950940067252541418082300895;16208802396513045483747785527982561279774310673904388165846920649498844985054;17243151695212100555490272003650190215968277289637246142938152141803312147720;(-27587768917760224074911614044835715209956458818244081798751810557742299285998);(-4277063626805488912174789721834635055689919676055042015430507502550474806295);6718495886029295135878938547776774714380787719669516725971627569617094808527;1109771453532392395394985490699437120960102062174431407244621169157984701946;(-500044227993378175879670411129040543311622258876975030569516970747417877351)]);
(true, [9617921722198629696390803868002850488714063904302598325863001181083772908065;11830947511713301820310674633196616134638984970842010991619299174361601641515;3405619132664072739966764779975116023181313972648883794268033166922029879905;10884564845337852495481065217697577968929173828372259855419460883779491227040;3156289445220945933327882965166077237279020520699828736241349676264133982952;673636252604307464760497827438766997775668615638776622291827186398568434816;573424977486352584395288009159400046210253774661042881751844004137519192952;(-4028794797679769070588865612957522632704877755407950936576429269769210912086);(-2168602616870828600480073662377338334227082665377647778249490704376830626513);10397282937087353333423632276179367420418811922215830186424158323592116509471;(-1181579228079042451612699245853640951689602840059902221243233059644734470074);8002827579002596564212426863897104944531719313709242958270976713061210021605]);
(false, [7957535803479717850465746458742744468809490270868581390491620489175074195715;1520752257162561824600384393333914100603428578236662808357627136351623236755;1990552012066296227078125938394543838228395454918771649423414742627907907697;12572230321403265851134972473016505997886444423773401217131519599877989604997;17105631593173675834750781397053391212786003353706962852021433243055820678357;11710374213336884960587385848511808822957424186188036260937316248144530062359;16849695865306909873720467971720226661882253012468584954289512256332566026475;(-9232867942754727175427924711574902744196646471644252855381598201954775223600);2787326922184773383476328526066825421298922039245288683693678690679707712171;1105748013255373153024697060473295775447988809830905517423458811607985671531;631707553662743193467538079616630094019871282654220729495368217827852285662;(-515239711037339483516610848789465371113259251552527239123046526397107258330)]);
(true, [17263473263335684294054509697980030125263741954268189524850474264129153327274;10055409844186131142302778440469593780508009647896730392941340328789196897746;15989128116606258903787794651061977412209223918445844242403289286303105209016;21625597555576358627621997133446540580639817259795847390060690745655307430509;11953107849675865714060207326708095268352543658590183110358652399830762410289;7373510650675722092128268086694879236732704686440208009155643182071191973139;2983999555664189855946087051076218254217637743583092749477080933926202093115;4472268273507182622254061943575211101509825100887781810385236338728028800154;8996439007568620756412115780604993657306647085507960848948890271132508390432;15861602049411359470009617188808666069247065963995869752574721852904901416552;(-6881718517924220313429285563064894896441892570799050865519527216029399173700);(-13571394693297501546351525348287874333975104047836687866878922933601794059720)]);
(false, [11233448755709810173653030398725348820493865274998963409840540515918578636860;13216126975442158231543999931497104416095600055550763333203695180844643253749;4285505572589047412311662381562114074061618365588568921132611817953054397936;726089293195966348883337742811423065549967729562798151359802654657484876771;10738151789735205506404037508428715309828797384576308154942157242406164620403;16398461434439485117664884082501812412886794367314950571647524374336816381114;32423502528198621276114557813771184827129192009268004185328057836787417389251;(-72780589037696839947371549097134096063335406418444512211022620251469662452914);(-2214688569004268592939171069950481909189216373891206617391264588135954348143);13565518803575684925497431076753050600986965075344655951818043058640826267277;(-6612614437029587124342020332655963212144020249763198685312142777880802396538);17792662434334417549307131734507339090895611280823384674233408924726596254709]);
(false, [18436643111217485175816630646706320627767702749743345697964760352591943498188;21717753187841221898962741052055075835914043852777104564424413828831098290681;12102847306792704448936873587145297175866889317753779072044238036675946425512;9854342995852375358254497243725481819374835195429621853085288058915719554581;14469988320622435350485920851393627609806292143814599835772429394911879028150;19961933690587821997679366767286723248608106971598248491977805332222819256421;(-16896723549834976554109295681081580778122868238506923374816046207295719800135);48081167158767559511276811897635294689947648617115511656221330985308730482058;(-6019258607875330627319458897338564369011280028143627023539979202399891864847);36586076556823997815101487850275462769164886652205665345629754984043731671451;2472542982789151337767487038208236688196340073705839011004512235684468158943;(-15445253239030941564697703479567112336980462946287457651509218023702695232537)]);
(true, [19799675119623912205657135144279613691214448628739623523988650282433739562644;2415804381140904175601224499601205833063352128467118003689866702982708728250;10830545815701101217424096573633595025324082292859514855424586856498598592734;5613377822118122470779431316934354739980643947108278929991676113088351445692;10226950950513275686368362796315328773844146993254905525679892834159217183552;15796639626656941909767424191902201023338771936557117359518302863962054700774;(-4946827754998345842280124293164451466904106494189011247854936267805476280406);4267911140939750376293329885044420217235313344492249831522870725974276091688;17643765481585359182516497518216889591345826372726455695865710386793403757753;4370578504562678466252428004044347925439688305929374386987693353639795005527;682823834620477060035104491735943262330717630830329369706833339498631812760;3976717759371906624905537946614179737541157424790246727454632474573222623787]);
(false, [8365260389759422101601478343161463259277918963667983153469989482230787020037;2049250196481493938697427888921620027753913674304137500649975226036122586261;19999162364586148596282588682276701370047545736028162166208164469136851135785;21243434214532353025110025047212602100954975094935509372383896833534252942752;4257140968118098587579330581598282290588500399150183042796161455307815222260;20333975438618403495825490885410561006306625336913391053382140254212495390105;(-6899249770268805409524677300058527957517312537782786767706443665877957643432);(-2676071552790481806402426189724270608647854854522923755340835212775796208556);3005182069928811975915569897926134844832466118274466359224373516374481598765;1566367076398660614054773293797513273177364435653931400667924291648917006966;(-2040728850353608338786183018152078026715737502969722394376951002064338471633);(-6831899744946005777991692558244439601267473173381318387734803560380154789270)]);
(false, [19272510067180592057000100004104417847462520988606836625483494154624486153438;2256119585853227083544404009270011751632536645939030809503268754473951144720;16859462684200724639424477131230173753390788245657928399372414329849400921302;159886879328656883944043325861407485740276666920695772862717622153338751804;19709253197487825189752265529035197212707987806026141471241128619941966208006;10591932872111200874296164090057738789905854105321841952730835394329681320189;10338464854923009384618313194173495917908742882786334765458809958046826208059;(-79774453322818266225506392821364734915096501637460264283454693226265103728380);16736819435388653231917359332216406034716098378194626681042982099646741017284;3973008494625306484268247253384430650606730997230852129773799294406797700764;591316977416538661384959089100382057428568763402146254807076096744038858816;18887601834137860726152690343438518237059481349951472271185518873728938726430]);
(false, [4942354415962867358078327711117340545497088875778079485027518073628205506950;21229570219565667012054517633842444712602097725421782007213839301725492864313;4659302903748436745555161917281858874225151799511258459813422908399319141810;10235866587635440641762203566871160352587611453282625940135198023543467539659;12469824052375019775137540749124872031543812535450560149128841184563458355505;8340549362283245688311727508622572332281439800083017337463143442668591894562;(-50600310734363237384555785643316340380940619219856443977388536392100150671666);42276691008705383951992434095543320637307626911333487232837861882934141879976;(-19474737512297275838785631312324587872468728707836148067947159945729850519101);9587252913632107880861835728616244200667005007954933727797585260868523615951;12527558010038973816343788773411934682527863454672852879962323175342759692488;9557874844841341900303870099737488488285050063989981830129036692072435412765]);
(true, [7701926643352451409073779446647979009533617673086061485962979044936964418014;18478245146753551601415285574558332658127972548614441347058485953428926487368;7591216381551778668896716686697736193974657394009403233194587680290138993941;21650978018777858240020339272810577932881168545375348767864503073814294473812;14224407934559219426488163234892727338611491716781090940144313394512601535315;16814155299219741665786087500752302994274295074336535018963579084655165024137;(-3234851133874990333469398311513499735742657648718178894081958142961015561637);3946730030198518835206211517958265229975695537492956350097219359895405860667;(-12889379532923270606454874513540848150226908927809945982685330747608572557590);13004067019128454914173967060131262453468616202091537389699043174317220256709;8605069213380560904692943174766779892757576010681050812553739009411060060550;(-6491839828910559220506464375375338997707408143659476368581885752621336456103)]);
(false, [4497034988351722920512272579774706558626320807502731195836291107970794360949;6802711727250851035674803968705838657700412033680316028114057821862590964053;10662743326893409487801965009137768676528195021089065899237522142523940527534;7820285695344756804147477433164122136309440264719205002149978867174478172473;1156704646796410057274697462972918948618245629698601270608240871747247655319;4343646639114734211389018406327296426059627962077237752697706701633304161877;51744056073879683093476861050807282711015617251140690970892790903052394655439;(-29302798544974946894556016721500461088196799355753318567566586995397407374592);(-1190299436558992646503017707832595286080328678075549154357255802591618281128);2795293604172896557757160412835454444101767870052021776122316107367487006759;(-4929540376413792136118973594648462310253997948847734002320453169911630367426);1886967133990554689419085168827984712917027351439786513815402614203521470196]);
(true, [14333126327429966484464389055531320756584482197757395804046027788321779429018;12270680214035366762325071890664331392781878887872526697789978032505558371011;9330049513299421848699997702251464703803618673364269445268312655568886797200;6472605787099013178920328188969216976129231636900740146186713323203323450117;21254849504460158991351524844934281361464086940298626438250250822206736425243;1902223158299451704691495105343648826907314397512390597521796095130283278643;(-6329132917495344485469520519328726344929004359259068597961802708152500445984);2911275952692510747151318914376490148517095874981369404385092743252570167997;2506775793937284374745475099050684584466358078388027449908511380720021565066;16070473144972489054909292350233895427210343820806460316522708433360632207040;117173389206251504580144614565536641534459125926577547967965436086066434898;1629620348810723453991802016779892554382944418225142451312410300360595409814]);
(false, [15672730993759489700142907792270512565825020679997338850757214197558052515833;13967424185817843959728924558730780220022110544174125249527268551248382135841;16092707250038534784461292366086961463160396597859323076002764830509735582978;11059211354181952281325969355729021426617697329655054235127424216216685028561;14650165676152915998094643813524243204799962387259066666791240166922908098422;8403089682518060294065246610295882846206507752700161520185518930262437495586;21821722728351369672537527780145456753607646523876032699414575553557847199613;13296575181076431738630753413217569690732211566984132919762479097294752500308;2309256102106322379852259115915381729476958921694312737198953248296311919810;20002307469065318775762827984977946174687510403324392871517649615325927400817;(-1915468967874003363074216005600950661994271710430279211019433231539433427745);(-7599584189278091690692766626665425146726313824196829913694902945162457642613)]);
(false, [17592273825797648134546371092802276506817577758549651005514683985483651233449;18933359901842530765456732712774832239694852528482483301646524835452364727993;17245684409912489989502277752902675957909034459508196846614879751676855628663;15008910225808054898122318978578113791783255540162672471021251355729447921367;4331185271213446869389288160169227205507550235593217960665681504913028974251;9488476742924275263249008869726201122149853847329578172660584760961074663240;(-9719610842194138338207235319565518959386438243716226444820318014384951983863);(-9933336248886931254631635271749604625720132584595072846223914087057087762116);(-2237914623739618888894424985024485374432738340354744782629320179709954785549);30434681649491602569728596444555119408878042575016752752792275136505554814575;2489810655341371455795180050292604100533477673435756537353427008604111245640;(-4171824853198692807067648762350465329142165694856800831231776148994857170475)]);
(false, [17903414094987325713301363449801341804312210501550960289219164948565954572824;4383003546211666231669619114412850506588532917437183283146212442149122139233;21172982188146459573571800582810989984043552499565406553170829741875316046094;9691028137447118588755225509840132422495287726160739379216072864698076234917;2762157573738294305447862574491511681071974694230771131631331958334850426812;11674576881075211106179413825157264737852280205520675326455069734518209972930;(-6603032605473548457030033733446630453633633832931857270427534664531202717504);(-53696138337973696045470319130036070303404032098883279403937515297064362173680);13766363884702576366340933968408035187913073148797667353434096775465897726949;7170125800146648341686996244351980040700808788078422113512526479362809272251;(-4277197351922521028072507921886884930806619349390324804492637388333617017079);3563323264635321701856126939696113692094334766834782789180048452307976287129]);
(true, [10503198104901592082249507351692460130888507240519590012820601932677222700387;16611304432092489430004676455953095121780059029382571267705926918299468958113;3822317222414978006779122717207000383740784468546430876379298231613888572346;13306967888610100353862031593762909247920954319191044217462908770695819344220;19931212491957286781624657538620105634635713884811646884478744925991539831334;11537670055110940687620280300403586576179601517301408961985735990186326578873;(-10816851150751917603202404945121027879567316790051237061904654149248041729740);(-7917683606883293145371878327153555078290099509246139041166251349411272520071);(-7566539967350528488835318159032859131620095222857717835226600889860600761457);15942058232145003235399413735696203853476795276941725876402497375828590891233;11070004514307804355177241873242130207996594703683886816512970657133697609543;11432541559793387199712011331419817034144276385427222631908014644811385468620]);
(false, [21349353509164663066484732834162950804473410874699391351939301808685112555686;8543137843090694323993925497414281936601949306074921492790924632444425176346;10635295706176666979582305997837990667852475286650688764187950402434102267863;10897449725207678746088649547440773633005884474568823736615405769095112495403;1023734954663430255729886479502567040276875945521167142132024987907465377711;17874382489897251915196585117780994579966206209436661240150004298944891698638;52142013151904124357065783880529391091617963866662680972265753872202543541448;24123136453386050854061556889089280838059431653362147875759408753304170018508;17489283781008483753560227968131765610765754514029660073918089651488822762275;16665610936209373568282858095871950003465093976384517971867892716006755888643;(-7585694880933418415531372755430138252842245700616720208676912714954917433083);(-308958525869436361624060750670654913121612122168827518005013319249308507957)]);
(false, [9415051798505468667459577970103438921806795465804078872937203088691345185033;1799052609541468993237691636818588468734204930347342537930993601392874178854;15069740975054416511866104172166143135308294525451590661632359717821917549498;5947642833598492002844259774964875184675658423021080845380441850329068498698;2853946715613822730277289399139915325558294276587050117668138294182369394321;20241852180366930706671824704207827027690270818862363536497152562613335899046;(-1283894123905144255209519733830109273034598305960652476455591353407976646926);(-16224492007115917227643783734304391154097807686404362095007326866502270680786);3901939985622352030835118536864896059210111449403178436678736500849367459603;1547696049084093960279952407097895827501612205059207416509335578997580430420;(-2314278729717913686750173588430427091757726905767255997657936253531916533079);1764640870005607737128035438515257327657760276790428962793883690541761515877]);
(false, [17540780759989397271895091090172651049164348343667679766032890848696574832837;1032262408629694378457273735277179774609086803846327353274930454951436224627;8732546753530055790410837332445295593055663361889675623183372004004736365061;10013531749101927129964330103608553695116840324662430895782516530646409991125;6563690041737158027863563742115685292692368337355889980360965526419687927160;7550554080609048711003130916061008835073174753075161728797309348408948901218;(-23612530949096761258367804400018140131357804524588132191683576910340855448310);8142782676624946919568032540655714030038206342236327489948375797612492282758;14008133306315941235088238661662001033057399577351608188960287840604951179601;1654467076463917742593160458169892068852931533306280766622681980975809294019;5270244826586000597147454303737108238234152476155507352973214911864183416199;(-2959452664589729377128078520417898450839909610453759877660677767990417669008)]);
(true, [14852322941534381994749352306635047268922750143830354159539482893853494552901;21344456420880033227880301547112459682400609498039345357948615119366001931861;2932531992944996107884886074382782596338109786391637474840072047039981253082;17577277913660928770739702898710005189009084649925658338851839881768671268618;2761549410968989329957694287916213441490935902225851501330414581864668093035;13305406433396165722151686594314986748354435479579827063539155084291657982444;(-6003807124159898389929412003754311462693062748299547881149573311819402243835);2077768403145347901597329008944474322318107692249830097792550583761019067534;(-10736098119852035500809416045406280815467789608725503754144328448561263188538);28966670520846475095635232362602002464249308201303903390894316607912196602371;11311448987823606285819045167688578259592541783475193971211025600553664703179;523521311465761118505390403384951496803786776875656395904086491899680889808]);
(false, [811987819651813448628903549224948401235935437300720843575876574540007165739;14514727228345321456522655986293950937371453624498143783662299321518651186117;17022958081510847520578829875969226461819517038835235156082580874720917863085;18449744279649399628687334514668394469171126948421484368391977189922164747244;21087996246349656230866275851053863282333588168488186300298779949473961674082;12490011810341730485296209355893760754351353480472622907042283432694576441043;23725927513602866009581646390863260086203867923684480576107909534012772230198;(-9480050610944549625703289547674892220592231365539274668718859151590282683598);(-9595013337695036333780320623007792769915318580810081665787860510076044751799);1076905239401207758727903584230162672390131279677321724226747124372044152162;55845367203110795166493790346922259092634528617198581356533579497979564276;(-9376135145730281999502579048882794711321720971955469490220275077753127693644)]);
(false, [20486395906514568137775250068241193944585609662421910439935960051593091428110;8085277137081806804102955387897583267209100845686989926207577903268254707851;9398662832292099051450958642767670250243901375358281296036051711286384748501;19231409971615948721876701837879014702236048885676249149825521614943950628389;11664232371151706270587044356793569791862628306804323982986410762782530023606;15518875518533403564038880609633851138251027455985483604528965183896238091212;37184325725726811995715301946732145227873016159184299618190916465294433663389;(-47133070730283998603699185560555989485924876633405927679883204799260959953752);16187718353166528374326286349371882737238003251416621618364690144754302509316;15134900449889784140919356524313170225246594273442592931254196169038352984721;7424730970106221393711676072740205672488513475597979746284949730468073622909;2084727746301227265074984258762982770477926272492546496765386552844293792413]);
(true, [19505005119147697455950708283915343230791680375723038140720466184581980052177;15306662129562657741113252806484657690573162972765172274106218835052686808619;16473474463242806425697701140575690567558394676764096861064014269411650546776;20354507484122944093245785351002429158241671097937077207472041622076490667184;13853393139867254469369848012543047702712790660593452395265281583350340347417;10750056147569977320325601045067034373348681820041804934789830661978603102139;960174035742722175448817047646301150301408869565422860446450567075012827093;(-5107933408772218398610975895009752027480787534679066386391161689924045141412);6677160885190283451127099221865152960089117570200201867561494495236823242300;27280081360783625723119981170893470375484262596285839219115381736801229984549;(-5519098249390506136291681652377356833832298664777747783864916343783880203471);(-5948297209527127682927642209801261025590560712935413026219945377872213835877)]);
(false, [16915684881908130588183770178695223745879020809968402088507809319718262952500;17883140217578641701441987352253561510429568979097002791554743208314800858006;9874588874018514074798365794092034695442303555720942253430538339489802907021;7591505923130259523923204020970704189509169944156503103176650425092216467520;13432629437668051127708905249138822374324309456700509871792896293125821411224;6460872427086335702982648646079059354237983278350855935677598009217079498832;23436398619324006344576991938681288603910152068913368636620094453023185545884;(-52662212025402327482676127039143942357013705799617182988932818693980480204900);(-1538100121361381491675183123630784675802776543884156119031182854394106552423);27640918130411687869146623504811046785824234947104662382936572083482786863664;(-5327877527499540176208885584001059936152306181391104564964038540199011687875);15254934385550925576047908184934541138708473108667167519230928662807256967073]);
(false, [7424115617826807096292709894525849820628062027814337365148625006038426529072;1323082860511533065291350689718672136628102553083029453838079806049213815209;979244410861910138792731238731564611477789436886442079337819223564376058375;935820177063856997205339196660987728373053279592342897810218334113272895631;18302902236953157137361071990182455100207355054036000798762856523709516028670;8033513721591016801127024888219411831897199193658359705028149340484052988218;2865676311536104402469030254185102196623166848751650248128502430082558696179;(-14542076770376238376230195113127661270423413206748231099498364288193695875760);2438155715082125885801571843555368548680150559441863901359761650019548146242;897533912239272735531539109624633693515480328998184672459809798501340311975;2614830361414451570077056397838103879235035919178972410820410604982764713799;2795192773147732424521566535704882749936882967180923497258132877852429582084]);
(true, [19107036027651323453977278519831688154000727502002922225055834804299718807087;9972303230742894687191528721614702854359639492800780659017596492668383719790;13865226494362141223310921494807547493488910421792762602924219005423331261142;8234148966084156802193402451482103969754207120079155676284896400554553075652;8092434407449855959080147672513256234610061356960448565108265099495052964272;16707034407417875488972878395402665231710911214101076001749497386067888965532;(-979276059496394319684536577952211099354100385601928575424172363861505074714);15288790095667769815935771048702437095522489800875513109114178899916843845932;12135829979200123873178791144924697143629091907322220026929017049413892652367;17410365758835071859887067827787117447495758709477485564347892630583498578677;(-7923512964234750604326280296228360733940986901461660288073399772609006269007);(-12241839303637260088408229633699877594854878807331567787019285020992129632229)]);
(false, [12749712840399585119468815601552598355947112149871617233281893133512972695090;13445533811822747087543114610670735402771351514117212723935451600380857723182;4617719100342051511891772480888741868304616629276451009336699750465278794617;14377268407293945398761661960950864286954743611884813498767529647002864110438;7154236176919897749089913465111399689279048129270485352952373876616773750219;9287264003418569401791996787550376449416552708264633237611941293867058397713;(-28154267820039235838380880553360886447654540787245057273748137570131266045396);(-1890332611510121846706658798664593113025552270342375411861914904137784629792);(-832739387941880860027370941611469979055873535331160496574456189144337239475);15663815144081341604782899745314855192558370033353548101371872427882060161446;9160195502857731022934657494151633452276774384428163506145155830191571092317;2102254840240201704501761714604286202799755673331883603121665215781687885555]);
(true, [3761351870562877515710058094667807464304410249823171596956906548341204008996;119277004747650474496647019269619939912953474764415788287880085504468638233;2322290692375450737144980435576082917089342837280673035249167405645335708432;4646744528097248122942994894921558938291920635181244940003088631728264663920;1090042495253867474476076472988807669823013501678721596870836935166527906896;10871568493817665515735897918452879560356103931814624698692537546977471925445;453509043853543707030467658556320442610482460291978154562338571655529221855;149144428164118935202283190620137800629868685361189892616667712270901825672;645713818741889774709150559157511495094550593278901553028504859339403591689;40993951643320079325150681142819913447500824624720196726942146376574594124;341429242944264198105049536049407932338430624165440934661805619805323251397;1684635730496609742578020101852003236168687314956160210299299281618482977125]);
(false, [19859816915590558049651492274339801106125770276435256646544096315477137303842;13623780769187511280045522940990365236488794679333521540472135861988916317901;1241765655084923704789989432682771645211206418082752189699204057391405164077;15319589276642595303870798043016739058420115757270393631983986233447193352705;12937706162535184826745947408359392651419902229200694928074767930970014701661;10431358309010433091117624769180383832241760653875250252464506363746510417134;(-9335150474614191363518834110158156323441934523192240423855177738652842335406);18127045310690811845437104694205707747792720225179852861827168937540958145004;9539592862547009623313765601714812691228867132690407469865597758578852872834;24722477117823735197657626942527879485015958592193914228362388834065205512533;7623431786100057949552085164449075797469632841584000485129686501054781958586;(-9011226145737404105897593484996053727942332592842381785087393413962915096418)]);
(false, [2516168554199762813113087079325010336543211300833847119203608543263192349182;7891916884988968492566258358634781593211567647158417929514077867252877446483;107960468426851289491437624559498081044554920383447432758084085967437451506;3902113828023191943149214354453764243406009312377030727374796034011789472434;15336109907129580605518385552335353352812466406918517842182697471483225235721;4824205591229415407068423999929712678714041802556797601972169622818961924218;27407571168503260802947958758646132301046475048729478296831704788462580086656;6513116511726993625462176312347047714966820119076809058507698365417408071224;(-2556223825459072122744737694847374024158024009163670203498747945726014616775);1814434645543456210080449483611715507628010724727180894919942902393136644096;(-3986291765425615702142842593298201085819210719797206349678366895862572496191);1721298014173256590545448025410620509434134054248516092690923619573030616461]);
(true, [13208854529980033596209970016363938994757099749392712343007118537874134741388;9009737682437797786281354841981545325002101227434459604891030432941506002304;15461730292251485921711407333722595016416539115563306888935231791996803688144;20421245382197805449341981521500925930643687808438045714433511065167229874933;2629094854351071547346215764213081863735848112009286186623920736426403180258;12083621842777516082547001609847255393393435286853140799841984021620492919077;(-305221512774139737993968298743912360268169972807279698504897101426778219307);9747061479853108039657236315527744739985224350438480464424908599573153259909;4262492217128552831395731574714834728988734579963461111224394233971793574289;10874177072816810575326066745275888143249483261469450541003007016120711359597;(-2465829274689839454066962549554225335436668053419318844086207053319648181269);(-16288755853882989638714317060835834799467996690775541269950395808746679547173)]);
(false, [1613420770701074797901897696389142810636335277752808843367251454800933397490;12930213041893404893469594972103780360678545106785068390798232025157252931764;395281718427847366427106069485588284723134603260198209842132415778125627920;20778786689670893541141865729267619879188501814941403690666219004597486070965;21176263271928881492027892555504879908251714654181506349626927291630084499491;14635461976389220040969084731557784448368377649054368774270272646229439869218;10502558032527614295279295262972291184355788764972251585136513178521386039421;(-81665088165082476528278529210971456679427273347259516757191090066303482179716);(-7519437886774066707863281685438357048676332433050500669115204628690219623588);1906217361853287668255944486470033410921721594532551435672935120896803040583;1321787523832407871315277062475761089414340091523222185685183982276377699373;8873966101788249010203347706304892477604841196410822390523457261128486928767]);
(false, [7902537257510232877630581851325282935173159729879943501233871862844209952384;9532769504523120711006524902565447637572649097485281120721199656474667331388;9800522712628781156864972558924625556083459419055635760796676693865539598123;19709783146091945088592254856990069684445938798323817102480470358163571064602;18105609080052389366226434381178029025385186355426306338881316229542965782494;17694887742890817836686967942210630206798836600524892558564328133034534092653;61698174751500668199025442262437944820907640788224227263021432038765423323565;26761882940899512203208855132680217523741487727102747123745757056966530145080;(-1298578396011748409945710438250735987615084268932287305183571923876622091597);6883427474543648925957859512416038171327785975247027901306554756654063828644;(-3861243328112345956374289652713594053872479945806308660974994607568402651907);(-3710218068950098535576927867955337036927616157874084619355150314069152918021)]);
(false, [5655436845885457594315850379162571834093670530265262094662159616493140215858;18697640094881342439098914860454252302578325761384679205129670186698770384907;7468069169480135577910885025596465314659866077270109416373130467553615681625;19629887262261882716750497450732598784696111382067128198583153947444383095412;8207036968430653115902822109521112897179620239916125680370644774671251056245;11551359728964513322629039626026002840173290145474228169110123546257115635555;19204871468313666836222610302043355922493611062766317123751905102076763499789;(-12873947952365705471187392917665180352399802962388909689099320891324730022164);(-14510885184326630769111147522042583564766574633504788606748857825056458647932);9662111604193065691878765706095134986845901379455100084875090332301431351612;534404670891659510949655295134647310814071048923301509956216352464932490105;2013100058833943242379105627284478331816444477076882996232361420369940957006]);
(false, [2365487460547088573711759887695065178838358922336494087858273329367035724411;20722859035047149579878266117798268865240384931272651740975578932467245282058;6392914573650095480673097032718678382886552322781921780038795592218519380109;18809640860765992642272981249065454287874377868698427005409609761429513449688;19000593667433207208302579231557894825427054291259031031479689387888508390997;21622038278767028915164740357940932059803629545516744415737738385919484986100;25070725917161613461663202267285963502429629165404914099787649594256686582649;(-22148347149374866132193483751433867173378829030032141783171919103480499923390);(-19363882160030795420115133238580723633823000280122468986659546651880671085094);4479086190802106730108293321086652394461268174101977673994128207337934045508;(-660381279678475239701456607626614362273344740335361850354160926535691839026);1106555690622741752488485577362893234153737791117125903061333860221842588739]);
(true, [12102996234695900439678490441795411604491061008778233523954171700275359209799;1486532184764303870497558802423897864266771812664603502883742487419948561269;18481952351992929139265485780847206248958934796793751116994644598671226084586;15998361200551156722084776581967967448571067323928292455213289821538359086407;7635886440363022758966157101287025013048370115810378121057634931023718614200;16592583927434198695270429649484368689699612489078891775856194995572680913812;739235421721240447498929701573569994094487283632571798896892982219109354813;(-1957305742690381346512208668111328292567725403850885595464487956491826637969);6591334935630661250466204439836482768141116725596554522066480764838127170438;1643941319575170636369720452920896678599064697440230993723615862636733931407;(-6875501029883102737440953351528652145015912788977632423557315578479658950523);733460584109925625194143966267416907177857743779558338355354334238369995618]);
(false, [15783214882027149202626513503429217050182830224624658773956428949757049390153;14148822331425960400313278043225291383475787024488409279708142630041563862157;13481957911153441101439107249698082601980267235690485516483246320765103237166;8082274737434344784528804076054653579465654355506275731270696760631053140519;13934870254108942734611347890846643677523039190939879860549248403986038667343;21859858499382182271922901375452974656817149098172358259262159264105326894915;(-22176214818489345184616673193698224742327105724574347273590844581729363057223);(-47250913024049239357655626755286341370696039789153427231603041229407763965780);2235021738950327519227490653616640450708683494186823517918472323734588632234;20404918246939678026698519721230678520412425413841567383451022521518541817123;(-1511647803428943658219968827016346049208208861676852158549515517998045754653);8940202638440060350430015320475334475441766477900359137434090159530672438019]);
(false, [16915093736168649680032455037524479379305430032867368095424914425730377566465;17653494599380228389365583533207041473502739359996018097339393886874238453251;18316091381371355847000311337710810702556520338888714819519966037983194270433;7232146607928222208528971549675259405231388093489261604400632852070955186642;19380846122742294903660248924931802509312408150503467835541958348773343633467;10157566490352780115580858219285851836515176829123668313446031185871208369728;(-29682902880296483337612581680453712153695027211927969985951135604164907634475);26394631175501918053068178118334495260231297890049077527886472514799149252364;(-1166172890918314702778489458091613510482428328085215877837548616159155492627);27285014851845095690774867999241706723357361183050859714752850613616584374250;(-4421440025659381425122521812763946749938330604178499208504585678508531754724);(-3241893491693636398724849071834003392725729288565932641550855780848850621185)]);
(false, [13753971756499113575724342961107111873652615966801266254549644596688651000689;2170035226165229075889479118150845406770406840926653359066216400942487707846;18256520001810103601809192085599909237852340937578794163389610302196639949918;3361188996741917693119896103442328852713394312661277664856553659291042255093;13180841293023617098387095096233017085143641503548349357726454253962095426965;17332238989126924546493691846481171395879483489521006410726620713866889930360;(-16469257615657110944316950779428957824379181595116930545873885294887948951575);(-19702812537590652295313307906065609792604410082415854032899418158986843862296);8427478042703063406170565714251359630563306671338882944024489476242409742587;2727181289612281102576604702695682588828031408915594011000130979198543662517;(-346339875140855512111184515817885855316520336513008201981953223194306945597);2438309642280397616278281929768750117439509533995058042219783496550998352161]);
(true, [16974596338941959259018485540509225014257729709864276893266132800348739393214;4415334805057544646786247787140983183018435043923748208713962684304019461711;11859274396758898147813669659978532887206395584111260519680712612349158291708;7210909798505599737574911613776904655988153418566527767595212398317204250880;123223974582011213262551869209887583450318404599190112028572518081597931706;11237569729605888830482829930537099074614598541174341738540934731340301011127;(-10891366384354253517880287882709639710317368229462897759993285288201795591770);6936792488160252308568704900500806417930031229025155929922759590540566275066;12273335096025237940774219785859871532137941119982041970139735527214299150526;6848290788435943644200400128089055178673466445534131854347382583389841237703;5737713566499854827138987710165545037994578368252425859238201273374488997022;(-1695041290811703031564794301481314465140526722187624624214820320366761997965)]);
(false, [17489811392973675762755691699560129726756208385659046714096616924475912688492;15355783733184221762063939454794827909811237764809238136211109109815547950724;18021732031339394436384051136938249459179910376807984248088440732523872449535;18197542837022055046322181309288222791037478510392748273898716043820367181666;1566789587005105751726328401900926938738727020939754264933580100268379028475;15812538015302958194570269532279519209178901488239121378075914985923672791758;(-27720295484599264615431525415478377656973470008333129691005067836961986968648);(-5310001209499623787568172959954693406280710101433945262228651908678662765048);3202331448526030783667251639544660865017691593830712576248908696242659723439;24540093314682527721355156072313736777834483195640578078713245372178747488530;2783601201159001133462356802032906150047025306862595901688133029674832933753;(-13102171246370846587850603211091610869516661685669836937707798252639781483215)]);
(false, [4555474217426629334137150908077777831422593174201248377159875025425443906843;3124947267994821389416963864934802208685648209564719436641948867496231392309;20970211436619430352925580038615883742091506831308551047961454655121530358268;3833965724485428181899001190703507926368473766090384648024575237956295474630;11034661279788878529555203597214972600442396808612666984115051585164683182644;13717866018875583249851870803539995770383635952226293401494894632092479700345;(-2990122893928632421693984065102936460072312185661319487399822949590470225447);(-82868595998584046520748609734032212087607087149993504122715326144978102037534);501961257567461284084008120370649705406217223376479681982766359587871404010;1300754637411602278493979559763286308620407716932914418798073644308835963964;(-2664313591058050810689519394979024026812370177107578482442376080774954139014);2568459372142688894614023719347629492968471189850809345610170521526357004756]);
(true, [20182672026779724723444820326810465507513492025747302233426920487090676767201;21334597400462213391234862438433100120109243284347327136293205910817946801538;18070434273851928457743920629923114749253248137189408246050311320822205891720;18854090668649332416004433221859553397408444620114574093792986957887783598736;13475701156056907821621133213721164423746316025165553772030900110554521804894;20911372035532378395460496442783073372681858345299542512993547377942756595969;(-23662163555639041795715401162147257879734530200477795929570414940353736649845);(-2898189868992895812769054486432417827307536903681164081759934063390630778464);(-2184953647457106305406649634601504271889856034313594536031163166857356064434);39344335192012936240960770703067423104778808931293521012698375908686450927728;17314024347876489024980525381965599492988375185315850513729505482821015850586;(-11023300437744963800131177805231102449739439469017606571102749600201898180612)]);
(false, [7800842453604500469494059301388826665685428234009277940862222714702245943022;13075217162897013002139362340535098190210029865970997867889931922106375789034;17429528468914874359184411410589326202349186553058679573291001947695863587942;3716889740654490322008179264211446973095315565138612588124897436598835719267;6307722376660110523621618388716105247737136917966010607523153412673586042901;3445918759777331775013072753858822918464095920913981723826024333871449027458;(-11412035169353514641590895469928611709281978010725628469648519479817843574996);(-62387902481292100198392318905593959207060944494804453978332288424576467120724);(-5030470536884439777342034556344056304114591745933619966343138781467154657338);9319862698129346381835521350042415803757374420335745938207007021265895334979;(-8813982250180179767735034429641832552473478588258067608306530508009618045375);5777663513184975318979581821038205694484009679032449377845218100997039178721]);
(false, [10083586470773548552322845375081314303318170105593339632258437166523017601992;12891014875572358630350308264363544643605893121841473227025431828288714485333;18196492850454832175735974188344865138315704497303050568822230607386053847896;508018793388848201362619519799968091651190728686246203670257898137324313964;11643775803261982443596535671139383498708179989325763582077393462063667271498;18187405051765935750296155322374300837690576646609335722626406560884515316171;(-37990871936581116578558888489545536066664747969683448015762641962185709266243);(-7153680113665954661467963076329080038085552099669817329124719036423399437462);(-2946766845850544479205998319760042549780008782286744407627393019652600621435);11877395911126336554934858572603174379882890665573659481629499860994044740978;(-2243183935035030342467078688613557617640764860317740010094419394431698485502);1026577535273493652171090329289332534560429529622134457703629182541047020455]);
(false, [18427797364844412385533139263976551278817982459892338732041557537993984212665;6563530134695629209593037990710626198355821802823580826476628867556597023298;15235705394154533120810955994731183099921920672070726172083009856572120389375;517098074749779015587444535027204530951636321193448037044923722143455792527;8893447166193097725971231883501111266491696151482553735531537312278760655590;16148834201312630327853009811458279338623872886109883467785556362264047265889;(-36648519102859711175288417717744327934201630666657122998846640054432293913592);35073222594865591150687529805539042120837782472986050247552364503095514442178;13546258127105373612792623113411012176822387627234401792149626479000291742738;11051723432385089072548656776846964582691654217804625844992599403317308317595;2495421114509002395475234662994371430736144992739371726716986041986522091297;880194296432314296110017472352064670407114170041317069742997288574088311341]);
(true, [18912608810957263380885668860451901515535596347383116471248778498632203953755;5908279506917667267895463277195781876870304064968084239109603472201918209887;7290954630549906987961505946226949498898680114695792270742149451079348748678;20901992099020081572268432666721444951538557136112878592840596923615456212013;16723119159048273026468005754413030645608865762208677659456957139889438363023;18164045548587340484458029899038966453515108088502052006510635885814801224065;(-10825470861280092657296357568742352389096996135882627633668776920042455467139);10505818808862763671538284003028729175392298156332549646728279290548406564433;14746684199110032420960083823117853914913491786532409716488768366846259683364;10210136986728316903378950984223734515724974246888108294430296773502240277968;12367169740023371499927749218534729705528830344910213730745612009215343095888;(-15469113724304126014544773257999885579110689804321077865879827803872349195315)]);
(false, [19577000796848502868046261879734591157095539999371146755014094918829861338396;3735953594934985640037039523920016646034321301991831827758495757417025651076;9878829691021311934392734922118103602730406626892091051224550475936366857052;15899645149828653705602326126426134613872477183687757243112785521456462633842;16417078631101193005517299733649483021948868894063873511130901321495517338274;5475142944657440720157075506693988241293665369518966469790197527114674986335;76308671477258481375078551535515162576577121181088925415478277813181907904377;(-3573799610663595038674834283459712347248326134634590013770871460740247593276);16872145155673099261928185495694964886596622049482791455906512853387940456104;6682927170835561146598901011057834408520373714601201490157270274439514110028;(-3168430129133943589551504191006415321694743133777865577110214667592043295059);4032428258029730853007943991941590029590498506274128968847593681477990244324]);
(true, [14403993425819148856930669628702250886017331632191413834763829732073887545951;16609784241256410488772611426850983057514205221291737625043033375816477204983;2409747944106469137457324172482516053471528751449778387718312297249998403150;15886209347671903092407321609556279028562212485623228168305213989710967053444;16546743418967222938499434090378911731029550292996746131314268223482772328016;18472192940678311813441194654212648669493365604716030014454975038654323699714;(-1148384876219885268513198709415357731877339747710020352099651025707050685161);(-2457138019289850710876334994256374060589218692582084714607963727186597289537);(-3125417893551545193415218409648527711857725518613989290043835536040389604007);21860797544707418038916274234933343240750301952409711331444028549484648324818;4904982059691196777272811435617961195344308519192611434228425685034427415666;5676717232627154889709658740958359139705084675249316193843195263489524300405]);
(false, [3724112480229710814420288979520748004550150672031708245612775730771031456156;15877485391728670826315633084899704260690152241338840996686953153197761685194;1028128429702384255875981375386917037817301892579175338035240966818509578043;14792176022969982912535761195778353057873260658712911341907227397570138260571;11775553067649744043222051502687368212265589964295418656693355365359529131246;13939187769390924779487970625641444236742052523860698282885463806370820133570;12625691732303903493066832061246925387004527125340176160638388621368323207396;19797653151600576919885556435013168369577312975860737186445744147972461971872;(-10883721000083022977622151158002494762150032627047863503849820418298061773821);5402858680636797032038516655473799200431814300499664712249760986035848884043;(-558527777952723152281627932300272504188174937968180117287211616264857834204);1188352439594528079249507015408326975473014052878123385664088162204252959514]);
(false, [2310107561367359154448719492765788603921135633381231381366569990698388877146;16567263758919297469008100124316750900731425718619099494364037024198185128991;1238759318996159854316906851121954338694202754196481265769617906504501698625;3908519013919346338368064513735893881506599207370055212031435261587312921855;5002490688980967752626346607134108305343149372467182248219482016712594695573;16750161292036602604290534650220190890656121942237784049636051129147524637921;11229382795109727118670513705319160542451337084270060396430946256754836964996;16599317504730924991478671583007792720470516207761173288127373774949359515418;(-12295990732941753570613953500888023773812458131832618352045486703893088146572);3497051956590507785300050939959607155385763101611476881712703696122775784625;(-8260096408797528073642482070706500883186304870336682025459233881174976172709);989245275649279496656042906717482412136743311160086227242901864349671689901]);
(true, [17682949993951657128704746495994094687583342288576355937114890200534434831307;2286893360476874140792495121453645385098856482682353812827858555138566463113;9227974998239972393582562654931034249774987272533499247958192843037821605841;10827915198457789070123486415522983420783563555097235779121820812792358490944;12041555227088825054287684913079534641008020935868814634041874143913195225634;2633486650219845447952879654243995154980529156038073748639759217938321013076;3706259156108687365011092515867789803014447167631638360191866828298664887826;9721712301175747444180838629048906665525026317141012855980185586345756545923;14046666105024172538798530002396946966916414010992456384575550010566671404681;3695044976574177066267579855576986506859734561180160881984853703762411802959;(-5731340833915525974609527633978089941233583262330669790510353608000532080114);(-6424719509702551239681652128966617461069251817733749794990241467057356080816)]);
(false, [17320283339028342112372122851278153774119824271727939104435565241672248344060;9033935134153632910767176510558279748878836613924978314280063632390084542181;11508058302443438643184062224565578406836013247749467068329796297591445819948;6822302918933885234869946258593646936761893772097647502125298584738806472674;11969629549845602498068768077540657778694171544372525785769139430019920428660;1876309029952674007850510732168059850990368749156743717181678518345626903828;21281264067652982345841372684761860157917248917924493640250834095917755816851;(-13282366178703944819893973391405086034687109581621764579867464997062199766612);9977056276960837921138732430221822606009217371969111871482512056439840796623;14297202119522689120497136859364042818217675681897189831776790140238287864026;(-3457478556606538166107019178827398961366396060068726074243526499281461069248);2228603512973784691471989093392755563030325918698081806170646215880964286463]);
(false, [2077511959102597204422026315034722030260748117548165023365581220195246678409;6185922649689306808130096643343756580708975063943951451886418404893616471336;3539842566071462888708586908769588299565239181432055947467754655962162134186;17507240706586640174774660468431105705183200357687217641168239621514211737138;2368658799602145834928514940744622601983675690470685535279653735062073224617;1298455522426487599965247236970456470424954021820241158669924454403439100170;(-10560650101446182727326294893076163471692619589092188306284730745064267309540);(-14399796564514436880699479286869182969306655237346494977751887154417868821336);(-1551041958301884916568713473025420625271140956776429185927753157269457361159);1174267697782838075620389745269460385464003152605028423373008900519286851414;3776011744758179961276985451420581103191627171207607329904251021239841831395;1237773188270626678901035403298235649023778235891706918286772643834159875726]);
(false, [18373096432239484187922151256949138942422722610180320820167058545676586090249;16741037566930905509032305274864181391339587438983898513730360735298367289420;2086835270633380593898583308000744144987087029584608524637040121295695133891;9133877377349316664567303410201891100739628706186501906920984903323911381657;21560432779478760476646291705146739989851501493065914294302093630095428012127;16771722747066980538236006866562740857264856097310097962895588548058132974526;42282205494372526211670064632834889736122947480614454685311338909586011567070;(-11184833231770562436879488963190927811965806709085662543805525066288942919796);2618224497349237188265501235617950971793083089491612859177213769419446484486;28105015043367797397814311209938838534812176293654347593496094553687193301069;(-5184634854655024516435355895562889534398972204371235677732128758401758344323);8139961835741325383493007630562102436494738051127849562424700464138773796331]);
(true, [2561513312401220169996484122838555178293029845166005576167245043862121388155;8594456993618683249840124354655296700792347474419544644273428238603091889195;10503419885315168166228724461975526017901075076951120245822539072155936136784;13529920772073548315728398947975458128110555853001232091903081316167331166560;15309927888117195522112443131291244120074722931500760757168305184685081119140;12236154033162685962889257961544675601803158290906177013105289572086918835081;(-1758510278280943100541625373470723148046890867068108169988311827652542736194);2745051519314545950159606576595226985757051711207004810432370871554229592598;(-3074862653874459022175621737009057172616930948586434057250796220805919094502);2011565398914464301565772034083767621755627712305715627322937813379714182509;741147311712784532343756717083121275357394669165268781502195758309516252541;(-3819242077630063938208540066309198095012520051425702476410829013826421772629)]);
(false, [1636537382334466769757947042070915748655188742719799986842636482442974368029;17092939519083770085831887961674033674702001255270310577838559600295448139611;11366002686315198179506804261535836740243557257068041644128901749928664584216;1599060551239261588049228349509767456358531545748544757875208327007321411899;18667565498281874302436716913868946367788094805640270548280360966584653560546;19393505013740912069404733675108867878016429044715118050638562750237559450996;(-6852188341234598770988694169652276136145424641538815337391538179076278035410);(-13213917862184397380102223957327628896658546231659023056457066739120717640114);(-13225836742323738794525877827579093028215096601616370928239865141557393673208);2556005492149595616832160817473786001430526122756381243157865635215416599493;(-9381526071640441774529518682496266238186702770816334082968342761430273796995);218437959369436119563639902651707461373475591134215912375170195211042680580]);
(false, [9803834350263191024913788311621487907722969480511108400407582965326684548324;16336377257501801309757786218358153773139355109830141630469835589738340527528;2627545004342618511228613071844087667699486504414144500174978171671762823295;2581994178486781660103308944998109590778993535815736292930704128399245920596;14288008510716510187824488244017242868152790689655661262912115137652790224297;14323033042208258155117885387783063862400900617794139527396394188880198214688;(-29582039079673975965747433776817264071525850638677789545965928315633237219251);40255979075295469442565243647350670513794121818024470275525147728677955925360;(-7801542359150202840374852426673719103260536430268199492835655921163643263145);14634261640253475981817259953398680083119686515863185101617177793599982092250;4647607701553977962214777230512258507943979154539716424952672845017928146519;6081722670111927743853217900611269843644398374384483225730896107081839922672]);
(false, [5090821861997630542240515376029093938946730465621811831444015220471658078193;1089366922224600165764337406822633487838529583561946338496820079734578436063;12625611775544251757371855485622258786138960475195062165836600951265796244656;13411197049440928137740224408493590399847687046351338029430187994439976257876;18291517700269565929068858801722684951017974899794924876051425358986962653832;1648554694871526864228886431439620654654468304279797612906114549736141404813;5188056417588689878013636035908802683557419434919194758813707767602534936169;6225074920957102576436265687527586215157973692971826929314762449514565397290;1129818738039152449892362366003908120889529480439346118545187097104143606398;506735325980239739958524746887011472701281311883739822849207056453866164750;(-1786411167119076846887269903155110139672997878207260730414936117882772170014);(-3016281678560023721963579040268849306328873358053472336209022563170194622148)]);
(false, [14636541686047442614425053935469668334497647762569216367472281026887886817247;12179693925028030266538867282051980998963303727546904587309175071805159428282;1391918435157468702251521394961816831602973053982789665662289355643235408526;17083319752159757165396212349590096017281985396125458765896993976267749982689;19530255868395601349450574318693328383526971381865336314777991343236718713447;12258387971779821970502236240867024868058914480191653507050367254098909421827;25431632108323382126537771629382288557937402822061688125327072646566836186212;(-23853854069193995147881640672862315175569108482911071633167914053809029453302);3009990742783804237452673519800155407189542526537289877044223092353962862809;16288982071404765957587415856839583354386209785490579343452785706189015154149;9555255424737160834319899163536703794336682512327913984496671531708334159959;3795451741162561401103296723145905769403050605715846177008015547379070035623]);
(false, [12401530404235076610109910210704291424822719759349397354454727964225503997527;2382863877700571331547337536780622975537831100638258346197690678345336134700;14314816152580012841619692923284443163215148185957414737005121699787718400831;5845333331904624966678044902864723695325227165971410383770877759976303615374;3081514603144597579248017238764869588076247879287094706634940873512520068347;16730389677286963194730806388706575061040072005015092832748422836160944241648;59196031503077625498938056284703407394463853360374886143702898966754271853831;11624957747842560746684448165006035105091208648169627426896593261774089502578;6767099441229393713069507247391687881558381039186655362176851222386969297962;2700185574647174620611326974623490236542887051037147930959721080192752562856;(-8545331936762909379257560003085535645272954203984957095079497986872623321163);4960412982569670327499636690818049099780392706999681462835497722676328108410]);
(true, [16813362262975199230325236975998150079834565526633576804652382028816506466849;5979931893636035674497997649834387476546705743250375275394007690476523623736;17880310399968724668229696284153357658200837051846506005360928099755313046693;4017558027944835108198262794011887135698341542569036384786735412977122529771;8481580976351153603099787266593506244081550094795048307227848292738338607969;21761922189576189329723786631161599435200060642481044600175139494297596912442;(-7947486816868941845499362023835240855245861571972663020314514951053930826793);5234077492889894506152615310619429990261069907054478448870683804485725211423;11281379075485536589048627701402036965003464426935647358557029163404658854730;9186919372589482653851042796588816968088448873202761779323003032299134804959;(-3238173053792238102824937348340007983655037188351087435824172710153477076614);429894515030538372004092855739332816079281856206864195555386634778616684975]);
(false, [12693111287454675321021733761000249448646776850119023487227256934695361135908;12328074457838515069791179431391493666344830573181058177586509833661305402592;21050749877880094961129921718687653534816117869793358058089654764385628772442;18874585296959598025008410002164687587383520468029442021561093633092595958231;5687214793965531791449501965235152487828953582945858746412610832865949448106;1525937784709892481932070267675897452558419398605610568079622271829387477153;(-56283370091975598309435453292277079128432922125279106033046034408415968834856);15102400789045634425470419706825292744308021390634521507221550749495764551050;417285863062583261711455848199301633464932186182260033114146578317150962484;14298235081692744184501794763716884187747768488580714314721570660041167976853;6529340802187162076893217796751311227906254959369846413546780749994894716791;(-10401351803667385413997278006803019766693990221676206176164932404760744832701)]);
(false, [17470555963686919063056370861015924376114644987726032529810585211288055051324;5246315679277304991591446167486724251345091815509631521875124031500456677237;1855267376881024116268426326706834017212931585078568310598910546530226026603;19875080790540500385223009356789437261350464357804232091617058003680160949104;5527243569065819204579579380336779870160289215066054426397734992899029308089;16626489820079983032884124242968057570865553147657650266368403763342304512855;(-3561080498926808693391134083027465095153397406420837456516599519388498151221);(-103752194586256144416230909743297958150920683239132686304463728363139135266328);12687016454434597935150485175295849226723572085977960802466442154947266148040;8374911793025113361017778581504509235734988003411913238640684685830258628470;15561078542166042840898729335186299166145499386526261151166450367192372527874;3802331178047153437382987420434071826739997540552415793719013255035765592801]);
(false, [17116053927874396755449784733182922398641854791554509186165690748368653112835;17102580105838164523814395352385425154020041191136700402666434648750775407599;2583525605828527244705808254947822270522676947679644472773323738731093756251;15117052403563140742111342141368301961746945024295187578107825179285282313345;15643440748782179731502858134455926190696249560208724621301600053701052384546;19389205460914920620624986045811573370199922561025648495458936148864548406184;36331281262558900787313639728974744176743116896608917622274199005212046778367;24532737219478407094473760518035521145673556671684040236235801973065512223400;21064083946472578441145767157023260771031462961913579756780698070060312849;26747572668241300289145109515749532667667177384713804898887354763692650849919;(-4287208859279742098291418790910098473116703209214385776066918171037576926932);3151626933576441311173830743322904341819703725300361800201863633325080125778]);
(true, [2719382339607066609335435013623507485821012100947871408130141140951248818374;18276004753586647613845662403560049901079789785637645647748027978691161905974;9433408386980380258951804579515182829000890291426368071847553048828163895186;4837945741249314340365562259264243986583845556751680080035471815943947167336;13527169731913221177493481238964095031867070975778898851226152555833457404018;4167417386094311830362227264649733513297346513875791405737279735675397678515;547246587229663962654447286241414454173560023527190419554874485226237346806;3928206744719689966974171951424888082595527474912588570231071684897214211377;(-14922043370798415860993776704793752316062881710953461872349885312302969740316);4541200027474116776406877000717366620693852229353649641810670813812023183095;(-9433761023922852427043749547659915899352892430367622412610150830126705890940);(-4442369801666875070023989515015834303265897997667332084951124996860804296681)]);
(false, [15214058061311662126505343821811688052343787500946236247970912026047801281180;5041142785345477789882595697522772799229040891817722578586239626594995359212;4696183216854300290051849455395426891382947741999264684533317801930221916192;11717244292433655484599062827089651365221676347838393646444020526027029193144;8044182503934575049520549193430079427645717569430510114077444543188026092125;6258448939381238115088545195760575679917805483235514392961905489259431812461;7896420733514262201890512975616242541106789633077742133061673676242915887940;(-486035324715703039472786604444974087155476195936084828725240471215023194168);9413932553527390398826531419998040119908616635027289910013498999829548068324;7007985015579616119367627712717860600114673574587669610281592618418374568488;4877136354544449569086649199347779029355129594278023193183000189417470158031;(-3690612332971139945198884824081336509883760613192878931450623750447715826936)]);
(true, [2191707709871556062469161782279342385229280267700019184185780224284877223162;6210960583461997679742039584769132716707733791161766727025660301359486408967;12652468292156651471049471815139620934425856484394374601562202966609610638796;4530068377941769170867837691778536098069853061116553680065484296484174217894;9086372305183883993347938305465570763545325624705220177152286202356270793321;13657665132161206090598757732888561846434997546877689651073976136052944041308;(-718221012027548296219507451797999672059740365234902865790516274142658522575);1078444231828458952298747868685117034192245345580912213048747958146535406917;(-1542949284762311726558411229454218358099894751105878263351490053060270156528);1243828504296756928224420019826635382375988088279684472631475887462557549648;(-2836094154120482963189711231084085176329510590995085173714488505052726032868);(-1537993905066079082799282821565799373656117727979510514082505496188223644239)]);
(false, [15623191801546413569721856145783493815130606932575407794931687300182019903063;11177000681482281552802670645799012625053404785719530587180875086171022043395;2153584576028359824463582803428237145435885313411095465486474948884465701898;10438681408785303217798992323702214356746089386201177456926996928491345447375;202214971749746514081691466207324399267622834086779848444578973725539168346;18813352443431445820266812519782140957216254750563554809193661295816849333980;(-20105656542341505545999019294427332991923395165263925234327890344021388723458);13065011446178726490008251015484263659632548340784936731917677136504041737538;5443962703253700677060643068970837800602523899080253652217017578303743324138;15955636679952396281444533453100580954136990747299024685058481056450703707929;10510969163612235357862477910850568252762812913734652509286223175305984490794;1143748081313229200199722259174136422822768269094502850569284787325930380393]);
(true, [12523739777400302439628928361762962907292964143117272079424951666256649683493;17037633054162734437361620554486042218176272806915912913968842509230592626537;4866562133783289394750227125128350568068414108115417457551228812161384708018;6128850495921904019222655577911343739424769606323420250580708147706626261171;4509125054473261076951864799118219476275377936148930481958937083867989880027;8111878000234625607973044758535912664896321872071322684647373475319873881743;(-741472986812679973470997210302340978377223231120658507763628507086538901042);6693426604187769176706361077098697661073457980831340033438044725780554378979;(-6096281134011707465819126397972888186683934785122788851918296532962593015069);19496757601103691261849572895928557593133036857016015348016777762477726508150;(-4907015295973741543392396965602386545891536899432644251714374863152894467007);354184882243966480021449634101347894269929394436162452374910002161851617023]);
(false, [13532036968158676163918748667817882563476001045976085393105293937715381477239;5433560537983501964702090997097843811395469166382556202616753643974741956128;7352303763694076207799413977190021097999435718392014402422489974179256935439;16429135686791705979944433761316974126943763806307989674719157949135199835300;11501956688274669341430966262481184194569052452760318742544993462293587371332;7983722068274932709375463740712801153581715870965589299042304715606651669960;3450285074078354669113785336939863074818190680662526868947224652485101369903;4092748966487083245625464443862789522217419749598147419160357032347289004706;7017120802569707448409037071684092677793467875282176748513650206750740657714;6718414310297936383979689090277253467485452866043442554080989312116005054874;1020185843358464487594737710539390592152751073762509242476272058524546501898;(-6985040713799706457303726447510768932762778467527590243560533036523641513234)]);
(true, [20421338791676399388622201985543160996987644449477017147926776074964448717646;392487009496954597355166403223743930662817288715114539920761063453528811015;21820769518455119710412369664399178631725121734513925618924736806164269538655;6867607614169857406282502530792472087568340067983436138267401733978362974864;17240012458127062198193088979904482151288990901425586742556729008232183657708;7561877055738582128396749729654561643592273661634715950623521161687406568202;(-43178812852907142998611912816113879589646739914716445006954418887993495180);(-1184694183355622514815644186044949658270461740920966547224306098375197023277);19045705698384054284668335381398479283916644871413130730137649958830966068482;732366708392221921505822166287920737300705922634246407727980716566147581310;(-13670271217528956007181689419888026229421489370037922118443965366329051995652);8661294576777037952286708648035241849857061775707712901553773086354403079738]);
(false, [15794102032431429333830988473416471016354248677904948095490168102328398659944;684452837513148634625385483749587452102035529178840173717078083412002521964;10856815615026677881189513014829377093346195649222016475986566171962974448811;6059790529790887140765170038817143648848352955557174883587905739795502106429;6910045771028923184424430638983458772486872483977854632550312155247337266823;12797872387202803614881240176514851961906857662267309410880226223146556276779;(-34389069662681149102827728160857376267128836878907020078444559627657197167733);(-29087434502543913609723679016397836975612690749307840718671385759780331252640);11375293338160611840422446456245979507362795278422721631745493401546135150593;987773940134600273826979565054058290588269829941626868389644014276783077125;7886100996992645358520866775989341333456676376695932453456402882265640032655;925750638478956831679823189050768224330143985310782754973572083571486199925]);
(true, [21712202173125866471548439066075057047601490955988507450906753754654716230401;8429186789337079162343802976845115371214674136244422702921506770964160493034;7642777742336133951254332316770028174158135711063549188629958352059997430973;11882643147935442794813558241124972338377460330042287922812566289983311896110;19566968658649886516292786247104629499382972783584402405706056528118407978327;17905671663024784252039421075946249184913791169602237660567088178610539020851;(-7051187527960195891149126137884221832767547279400676090177700998354063190223);7650911882047124319690173955184401610594570562688612953013057591295123835643;18291488066054787007211438407017446740841920685021445788283904540879862907890;16722786639085704905760571035274946219100276732224277506383028123584859181021;5430575361624405014093629360777180218843597298486527109951884295502445340374;(-4538291551048131861251898848815229295188965915125485253093028804172182397093)]);
(false, [18387278715944692653477022372627265163308747642836429153289545182797116093008;13676003670511218135853258868847832633315389955049578781193094700645824204020;241793245222264686962316970130758974089854093336544548897639791991638430812;11404615132328033505277460934285867620984414402292841842761214346393522334590;14436307486931606911840782454003627327429519798718555992086619046784597529609;12767871712342119664151568512906278881364437787616009230619306069006834268099;21845792849593580557911716084875356713898365807648030516571700124868639178335;29640141590767475272928153172017224858754617796499189806495783526372656953452;6901373630879437918155749729492630341937676231940016906981023772085178981782;22977129108293906871377156671378568314361598878322937119630502733634933404970;5918540496068542332349269026751465954223720967129725264543274037892243640144;5025781473142320665813974746508073563862883232728030413957947196475309176210]);
(false, [5592765864037527268783197996969516818855437510277382401733910466902449013539;15542174439871258846360205574008442322536898982097251348869089545451538425168;10082983986092517506831408001778446466763646217374719794983177677905696518811;9355080033001989661342798178609414259817692227642018134774366395923476463985;19571590542936207437419416967028523369178223351989273404375918261479032432354;7287245993247996232012127037810748053521087507298365309902922434679365007836;7063935858518817643195900453787549277215964694656864373928935291613495273982;26270418440809176969955789081444008953724195122359016045407132421544863593902;(-9606991184293915360224208675433848398084548494022375607279651653084901602086);7942505313851565991432000047148194105842355971826960396782986365986918626933;(-3969880459576784210541856825198479368088725724951713082273422314087044304808);(-6464243570324763880125764504359240635034859980361595315648629511498267196984)]);
(false, [19214558642362510238522685237377994190445018474948300839663518970902857464079;8206278763717662313493670752680026589612466279874438065999973437008096558176;318200817028994768621781892787148948724204880053630809153141954084520422691;10076827743774639826785247999865728843883992238766081576451419810090321094640;6281078774277301643075508251087407188280935186408071202137211813413537930985;20753395805997262917494358266568618737928069625011014277463115936235506903070;26958284266013108601693605602334410285626040891456274157312670164746386305484;1612717561887854827557755438438246979955405250973293850231863603797618578442;13790794192132393970019467012619695529286885687080358710964906979873037625144;14407737109303854100455268203893329305359935740076701808288124955311824687906;8842594760889409064468668208108147305909101602004189393180268296420960428987;3027400117357772969205868779744833663613386480572753779272013281027495083843]);
(false, [12980026810772283087555995641085345302006402290806030434774980411532480807424;12719416247499547339251178341880370643047648936195402830377346085635951992660;20824036624451395766282811714726726097500506938500768000391507772646141896030;6127116268771739446538865217003335487943896082125221572556486557524656060651;6487296744906296163703096308705692867325136964509626427072460767380022454332;14249619582936703517946713553197747031682144171260196891677573782856507539481;(-2766846170848560360140470441666320262070375266905701340116243981917456402461);31035101987412399024428157444026104909198772424701768595543170826622988531640;305988304791184166021909267590907402417968291687673161300411950534801834708;15085574925004790746953349257186832711692074302703008350219877679586736580003;(-14455446456727698990800278294008700892721011534101730866174130879219803253871);(-9573856682974796580533217374608250025572374947395809317511441211229310988885)]);
(true, [19136403431793756394934764979369287411073551456476885830806948065739726371223;14971900429647264186606310179214880976520746144683836045649915742158837197482;5715379206781938658541726830664936715823781555698748583659401461329310224364;8606481987049730734990312074740708352590926480929251453012388756786951404038;3192265474566562490386607547755546379747707601906551237801232451686509574172;18660363517679830263813400850863839619929083329886316783525463954895468902261;(-18018924757605844820215155322185540883382777509229132658097721085887110479523);(-1365346140170455034304779270599881738734901573107042822051407380982115387753);6489517439147453793882916268599418022797931527848774083653106920163343577940;26179198434515629687113138615395602150312874472497015305797118805336051192859;14905087732728104065494917084295289860483534387968915372083446390424104745356;8166903706695335201074294621896488582092723248447716371335688320900352329343])].
Definition Q_2 : pt4 := (7281644703356799059368313064438243279269372005747477888712173236228325795991, 15160700668152503952980485502602536850541312794041965342451842375663084147486, 13523979532236795535820810482891703536907572704519492618036353386190612673074, 15929067770616689398844794432758732907995965312283969374632681891490787470887).
Definition S_2 : pt4 := (5715379206781938658541726830664936715823781555698748583659401461329310224364, 8606481987049730734990312074740708352590926480929251453012388756786951404038, 3192265474566562490386607547755546379747707601906551237801232451686509574172, 18660363517679830263813400850863839619929083329886316783525463954895468902261).
Definition T1_2 : pt4 := (10637744531846706401445024534898225184550030819084812015857937927136415760698, 21308861868737082234855866933152801727838357858496700293703159162683868021381, 12026412250256705717723206930277160184002686078680513210158026905124181096327, 14041550801097395562696304470016743950205898278895584585790558939494216509012).
Definition T2_2 : pt4 := (12074910154260036236820963496638815797620999053294791558077233336892923515316, 14969417177231106511468591439996237616740360440715362464619615257331734578529, 18695977397272712731859798197501728708948603555391272424887805442958716634411, 3227879354159444958433004894393435468767227827411506879163573939749757306322).
Definition T3_2 : pt4 := (16465747599502525086744444790930872700800753286982648331008437972553097675559, 7498214977671276595727795818973752698956447988592941743429924590050862157491, 9861830621582569504523198814980114904693625078617310452531010989521045112256, 7846692070741879659550101275240531138490412878402239076898478955151009699571).
Definition M0_2 : pt4 := (4756757137327260360758472278147130355713887823012771928814124620513685304475, 14965652082914282200845353494900030766791067202028161382842618038640103893967, 8636119991513099651792281637212174915013576239199984562518386179607236168087, 19919026762540622321356635866916293403765342033994450172178883122732607451205).
Definition M1_2 : pt4 := (4081100867758924266709108566686959502889830976764862257479346875393556132837, 4655277604160008596106098064049326782308025739564802915730812336017037447881, 5418506636993250012409816032698931725691226830567478046781973248198256363911, 11313256494357152462233935797289966187770884116616207507134748135114884755007).
Definition L_2 : pt4 := (19563466456723089607623519788045697098866907401226578902844721746274446306744, 9106323956527608173845252379933600642478020550363699761362209586061199880784, 15023137467833199853397295766642608328014439528058453490941803442047918327570, 5252448447704336634475385263346774043916951483876263664051706714716141694599).
Definition hM0_2 : list Z := [2741295988359646145092739674911116182183569710470110578284763158032206856783;6274307392725723302064163783361922321716451303558662567991138440423660221868;4756757137327260360758472278147130355713887823012771928814124620513685304475;14965652082914282200845353494900030766791067202028161382842618038640103893967;8636119991513099651792281637212174915013576239199984562518386179607236168087;19919026762540622321356635866916293403765342033994450172178883122732607451205;1682619551398580382309154593931274284453338287695341497787012328970205584775;(-1269827127020278453808878764210564515405785008962816648309471072875960903318);(-1455220948941317315262709305820442731901114617353332579227898629619197815755);1571595653988555881405170620022936505672941330425667287693544163027564221859;260307298711743539581618849181609614149924536373908956863028744677393718625;748191927578562335281989235330832829535107901887328016711246734421432115731].
Definition hM1_2 : list Z := [2108998447362010241929754781643582939817489017221789811101173424524168674773;7479187607871933265261587342128691126240626302609932433551984204967599026571;4081100867758924266709108566686959502889830976764862257479346875393556132837;4655277604160008596106098064049326782308025739564802915730812336017037447881;5418506636993250012409816032698931725691226830567478046781973248198256363911;11313256494357152462233935797289966187770884116616207507134748135114884755007;(-1600816609420071640842106498702423975168786097639152936714504445234815163985);2620714141770324266436712979539536800109035028553630178476516788189310205356;(-2352421486012274449713372133320347836410499712985991975222263777292542106934);1441284724853350926416833098977174376897394648692004181191581188887238333639;(-3457941665474030411769238988365512751685371158099611001008366602650826147710);1224306762441287701473927342241328689827527111259384835698560852403333204308].
Definition hL_2 : list Z := [5739423470132107423689437568045782512857449323920150725020711568553339720123;9759194571442903255613636436686355693139819123723537319475729458726069379655;19563466456723089607623519788045697098866907401226578902844721746274446306744;9106323956527608173845252379933600642478020550363699761362209586061199880784;15023137467833199853397295766642608328014439528058453490941803442047918327570;5252448447704336634475385263346774043916951483876263664051706714716141694599;(-2502614696695953081466189075452586663303240382552999001587820396843217349681);6268678383060371653140435635077974232009077317132404476713110913514523394098;(-2846317873872448876033734976279035539896562510013489742457210303622680561871);5118012505699004606109423218861751426419336092043848185682925867745190080192;(-2075142591442894881876235755580266601997305370085895225927182185027472513519);(-8070170782763008158401794661571852505936593436732461797912150170308423733720)].
Definition hD_2 : list Z := [20501395278419364130960544246626350109486438682271760244255644563128442255185;2861746024604976947330666664100836829189588000987369677638129546463476892128;19563466456723089607623519788045697098866907401226578902844721746274446306744;9106323956527608173845252379933600642478020550363699761362209586061199880784;15023137467833199853397295766642608328014439528058453490941803442047918327570;5252448447704336634475385263346774043916951483876263664051706714716141694599;(-13031688031941149720382620532795181354615893806226818208974740034509554869032);(-16566058456316786543564784208467789976565751430808281789164538806240713135976);18828264126348441230701223336037495542709908894327508128893493331849159660813;5360849363779178601141391383032788807631231279769612779790670543574656023718;(-2691196347775575612789814579415682649336285133817153131539427530857132617109);(-1911225249840648115069774973793858349234001211022897387522023514787630123585)].
Definition eqp (n q : Z) : bool := n =? pS * q.
Definition inr (n : Z) : bool := (0 <? n) && (n <? pS).
(** certificate check of a doubling *)
Definition dchk (A : pt4) (h : list Z) : option pt4 :=
  let '(x0, x1, y0, y1) := A in
  match h with
  | [l0; l1; u0; u1; v0; v1; q0; q1; q2; q3; q4; q5] =>
      let m0 := l0 * y0 in let m1 := l1 * y1 in
      let n0 := l0 * (x0 - u0) in let n1 := l1 * (x1 - u1) in
      if inr y0 &&
         eqp (2 * (m0 - m1) - 3 * ((x0 + x1) * (x0 - x1))) q0 && eqp (2 * ((l0 + l1) * (y0 + y1) - m0 - m1) - 6 * (x0 * x1)) q1 &&
         eqp ((l0 + l1) * (l0 - l1) - 2 * x0 - u0) q2 && eqp (2 * (l0 * l1) - 2 * x1 - u1) q3 &&
         eqp (n0 - n1 - y0 - v0) q4 && eqp ((l0 + l1) * (x0 - u0 + (x1 - u1)) - n0 - n1 - y1 - v1) q5
      then Some (u0, u1, v0, v1) else None
  | _ => None
  end.
(** certificate check of an addition *)
Definition achk (A A' : pt4) (h : list Z) : option pt4 :=
  let '(x0, x1, y0, y1) := A in let '(a0, a1, b0, b1) := A' in
  match h with
  | [l0; l1; u0; u1; v0; v1; q0; q1; q2; q3; q4; q5] =>
      if negb ((a0 - x0) mod pS =? 0) &&
         eqp (l0 * (a0 - x0) - l1 * (a1 - x1) - (b0 - y0)) q0 && eqp (l0 * (a1 - x1) + l1 * (a0 - x0) - (b1 - y1)) q1 &&
         eqp (l0 * l0 - l1 * l1 - x0 - a0 - u0) q2 && eqp (2 * (l0 * l1) - x1 - a1 - u1) q3 &&
         eqp (l0 * (x0 - u0) - l1 * (x1 - u1) - y0 - v0) q4 && eqp (l0 * (x1 - u1) + l1 * (x0 - u0) - y1 - v1) q5
      then Some (u0, u1, v0, v1) else None
  | _ => None
  end.
(** certificate check of a multiple of Q: (false, h) doubles, (true, h) adds Q *)
Fixpoint zchain (Q A : pt4) (k : Z) (hs : list (bool * list Z)) : option (pt4 * Z) :=
  match hs with
  | [] => Some (A, k)
  | (true, h) :: t => match achk A Q h with Some A' => zchain Q A' (k + 1) t | None => None end
  | (false, h) :: t => match dchk A h with Some A' => zchain Q A' (2 * k) t | None => None end
  end.
(** powers in Fp[u] / (u^2 + 1) *)
Definition mulS (x y : Z * Z) : Z * Z := ((fst x * fst y - snd x * snd y) mod pS, (fst x * snd y + snd x * fst y) mod pS).
Definition sqS (x : Z * Z) : Z * Z := (((fst x + snd x) * (fst x - snd x)) mod pS, (2 * (fst x * snd x)) mod pS).
Fixpoint pwS (x : Z * Z) (e : positive) : Z * Z :=
  match e with
  | xH => x
  | xO e => sqS (pwS x e)
  | xI e => mulS x (sqS (pwS x e))
  end.
Definition kS : positive := Z.to_pos ((pS - 1) / 6).
(** certificate-free check of psi *)
Definition pchk (A A' : pt4) : bool :=
  let '(x0, x1, y0, y1) := A in let '(a0, a1, b0, b1) := A' in
  ((x0 * s0 + x1 * s1 - a0) mod pS =? 0) && ((x0 * s1 - x1 * s0 - a1) mod pS =? 0) && ((y0 * w0 + y1 * w1 - b0) mod pS =? 0) && ((y0 * w1 - y1 * w0 - b1) mod pS =? 0).
Lemma g_chk : pwS (9, 1) kS = (ga, gb). Proof. vm_compute. reflexivity. Qed.
Lemma kS_eq : Zpos kS = (pS - 1) / 6. Proof. vm_compute. reflexivity. Qed.
Lemma s_chk : mulS (ga, gb) (ga, gb) = (s0, s1). Proof. vm_compute. reflexivity. Qed.
Lemma w_chk : mulS (s0, s1) (ga, gb) = (w0, w1). Proof. vm_compute. reflexivity. Qed.
Lemma pS_eq c : snark c = true -> cp c = pS. Proof. destruct c; intros H; [discriminate H|reflexivity|reflexivity]. Qed.
Lemma rS_eq c : snark c = true -> cr c = rS. Proof. destruct c; intros H; [discriminate H|reflexivity|reflexivity]. Qed.
Lemma z_1 : zchain Q_1 Q_1 1 hz1 = Some (S_1, zS). Proof. vm_compute. reflexivity. Qed.
Lemma z_2 : zchain Q_2 Q_2 1 hz2 = Some (S_2, zS). Proof. vm_compute. reflexivity. Qed.
Definition relchk (Q S T1 T2 T3 M0 M1 L : pt4) (hM0 hM1 hL hD : list Z) : Prop :=
  pchk S T1 = true /\ pchk T1 T2 = true /\ pchk T2 T3 = true /\ achk Q S hM0 = Some M0 /\ achk M0 T1 hM1 = Some M1 /\ achk M1 T2 hL = Some L /\ dchk T3 hD = Some L.
Lemma rel_1 : relchk Q_1 S_1 T1_1 T2_1 T3_1 M0_1 M1_1 L_1 hM0_1 hM1_1 hL_1 hD_1. Proof. vm_compute. repeat split; reflexivity. Qed.
Lemma rel_2 : relchk Q_2 S_2 T1_2 T2_2 T3_2 M0_2 M1_2 L_2 hM0_2 hM1_2 hL_2 hD_2. Proof. vm_compute. repeat split; reflexivity. Qed.
Opaque pS rS zS ga gb s0 s1 w0 w1.

Section Snark.
Variable c : cfg.
Hypothesis HB : snark c = true.
Local Notation KK := (K2F c).
Local Notation K := (K2 c).
Local Notation onT := (on_curve KK (cb2 c)).
Local Notation "A +++ B" := (ec_add KK A B) (at level 50, left associativity).
Local Notation neg := (ec_neg KK).
Local Notation zm := (zmul KK).
Definition es (a b : Z) : K := mk2 (mk (cp c) a) (mk (cp c) b).
Definition P4s (A : pt4) : ecpt KK := let '(x0, x1, y0, y1) := A in @EAff KK (es x0 x1) (es y0 y1).

Section R.
Add Ring KRs : (rth K).
Add Ring FRs : (rth (FpR (cp c))).
Local Open Scope r_scope.
Lemma es_add a b d e : (es a b + es d e : K) = es (a + d) (b + e).
Proof. unfold es. cbn [radd K2 quad qadd a2 b2]. rewrite !mk_add. reflexivity. Qed.
Lemma es_sub a b d e : (es a b - es d e : K) = es (a - d) (b - e).
Proof. unfold es. cbn [rsub K2 quad qsub a2 b2]. rewrite !mk_sub. reflexivity. Qed.
Lemma es_mul a b d e : (es a b * es d e : K) = es (a * d - b * e) (a * e + b * d).
Proof.
  unfold es. rewrite mk_add, mk_sub, !mk_mul. generalize (mk (cp c) a) (mk (cp c) b) (mk (cp c) d) (mk (cp c) e). intros x y z t. change (car (FpR (cp c))) in x, y, z, t.
  apply F2_eq.
  - change ((x * z + (- (1)) * (y * t) : FpR (cp c)) = x * z - y * t). ring.
  - change ((x * t + y * z : FpR (cp c)) = x * t + y * z). ring.
Qed.
Lemma es_eq a b d e q q' : (a - d = pS * q)%Z -> (b - e = pS * q')%Z -> es a b = es d e.
Proof.
  intros H H'. unfold es. f_equal; apply mk_eq; rewrite (pS_eq c HB).
  - replace a with (d + q * pS)%Z by (rewrite (Z.mul_comm q); rewrite <- H; ring). apply Z.mod_add. discriminate.
  - replace b with (e + q' * pS)%Z by (rewrite (Z.mul_comm q'); rewrite <- H'; ring). apply Z.mod_add. discriminate.
Qed.
Lemma es_1 : (1 : K) = es 1 0. Proof. reflexivity. Qed.
Lemma es_opp a b : (- es a b : K) = es (- a) (- b).
Proof. unfold es. cbn [ropp K2 quad qopp a2 b2]. rewrite !mk_opp. reflexivity. Qed.
Lemma es_nz a b : inr a = true -> es a b <> 0.
Proof.
  intros H F. apply andb_prop in H as [H1 H2]. apply Z.ltb_lt in H1, H2. assert (E : mk (cp c) a = mk (cp c) 0) by exact (f_equal a2 F).
  apply mk_eq in E. rewrite (pS_eq c HB), !Z.mod_small in E by lia. lia.
Qed.
Lemma dbl_gen (x y l x' y' : K) : y <> 0 -> l * ((1 + 1) * y) = (1 + 1 + 1) * (x * x) -> x' = l * l - x - x -> y' = l * (x - x') - y ->
  @EAff KK x y +++ @EAff KK x y = @EAff KK x' y'.
Proof.
  intros Hy Hl -> ->. cbn [ec_add]. destruct (fdec KK x x) as [_|N]; [|contradiction N; reflexivity].
  match goal with |- context [fdec KK ?u ?v] => destruct (fdec KK u v) as [F|_] end.
  { exfalso. change (y = - y) in F. assert (T : (1 + 1) * y = 0) by (transitivity (y + y); [ring|]; rewrite F at 1; ring).
    apply (field_integral _ (K2_field c)) in T as [T|T]; [exact (two2 c T)|contradiction]. }
  assert (L : rdiv KK ((1 + 1 + 1) * (x * x) : K) ((1 + 1) * y : K) = l).
  { apply (rdiv_eq KK); [|symmetry; exact Hl]. intros T. apply (field_integral _ (K2_field c)) in T as [T|T]; [exact (two2 c T)|contradiction]. }
  unfold ec_chord. cbv zeta. change (rdiv KK ((1 + 1 + 1) * (x * x)) ((1 + 1) * y)) with (rdiv KK ((1 + 1 + 1) * (x * x) : K) ((1 + 1) * y : K)). rewrite L. reflexivity.
Qed.
Lemma add_gen (x y a b l x' y' : K) : x <> a -> l * (a - x) = b - y -> x' = l * l - x - a -> y' = l * (x - x') - y ->
  @EAff KK x y +++ @EAff KK a b = @EAff KK x' y'.
Proof.
  intros Nx Hl -> ->. cbn [ec_add]. destruct (fdec KK x a) as [E|_]; [contradiction|].
  assert (L : rdiv KK (b - y : K) (a - x : K) = l).
  { apply (rdiv_eq KK); [|symmetry; exact Hl]. intros T. apply Nx. change ((a - x : K) = 0) in T. transitivity (a - (a - x)); [ring|]. rewrite T. ring. }
  unfold ec_chord. cbv zeta. change (rdiv KK (b - y) (a - x)) with (rdiv KK (b - y : K) (a - x : K)). rewrite L. reflexivity.
Qed.
End R.
Lemma eqp_ok n q : eqp n q = true -> n = pS * q. Proof. apply Z.eqb_eq. Qed.
Lemma es_2 : (radd ro ro : K) = es 2 0. Proof. rewrite es_1, es_add. reflexivity. Qed.
Lemma es_3 : (radd (radd ro ro) ro : K) = es 3 0. Proof. rewrite es_2, es_1, es_add. reflexivity. Qed.
Ltac certs B :=
  apply andb_prop in B as [B C5]; apply andb_prop in B as [B C4]; apply andb_prop in B as [B C3]; apply andb_prop in B as [B C2]; apply andb_prop in B as [B C1]; apply andb_prop in B as [B C0];
  apply eqp_ok in C0, C1, C2, C3, C4, C5.
Lemma dchk_ok A h A' : dchk A h = Some A' -> P4s A +++ P4s A = P4s A'.
Proof.
  destruct A as [[[x0 x1] y0] y1]. unfold dchk.
  do 13 (destruct h as [|? h]; try (intros H; discriminate H)).
  match goal with |- (if ?b then _ else _) = _ -> _ => destruct b eqn:B end; intros H; [|discriminate H]. injection H as <-.
  certs B. cbn [P4s]. apply (dbl_gen _ _ (es z z0)).
  - apply es_nz. exact B.
  - rewrite es_3, es_2, !es_mul. eapply es_eq; [etransitivity; [|exact C0]; ring|etransitivity; [|exact C1]; ring].
  - rewrite !es_mul, !es_sub. symmetry. eapply es_eq; [etransitivity; [|exact C2]; ring|etransitivity; [|exact C3]; ring].
  - rewrite !es_sub, !es_mul, !es_sub. symmetry. eapply es_eq; [etransitivity; [|exact C4]; ring|etransitivity; [|exact C5]; ring].
Qed.
Lemma achk_ok A A' h A2 : achk A A' h = Some A2 -> P4s A +++ P4s A' = P4s A2.
Proof.
  destruct A as [[[x0 x1] y0] y1], A' as [[[a0 a1] b0] b1]. unfold achk.
  do 13 (destruct h as [|? h]; try (intros H; discriminate H)).
  match goal with |- (if ?b then _ else _) = _ -> _ => destruct b eqn:B end; intros H; [|discriminate H]. injection H as <-.
  certs B. cbn [P4s]. apply (add_gen _ _ _ _ (es z z0)).
  - intros F. apply negb_true_iff in B. apply Z.eqb_neq in B. apply B. assert (E : mk (cp c) x0 = mk (cp c) a0) by exact (f_equal a2 F). apply mk_eq in E. rewrite (pS_eq c HB) in E.
    rewrite Zminus_mod, E, Z.sub_diag. reflexivity.
  - rewrite !es_sub, !es_mul. eapply es_eq; [etransitivity; [|exact C0]; ring|etransitivity; [|exact C1]; ring].
  - rewrite !es_mul, !es_sub. symmetry. eapply es_eq; [etransitivity; [|exact C2]; ring|etransitivity; [|exact C3]; ring].
  - rewrite !es_sub, !es_mul, !es_sub. symmetry. eapply es_eq; [etransitivity; [|exact C4]; ring|etransitivity; [|exact C5]; ring].
Qed.
Lemma zm_2 A : onT A -> zm 2 A = A +++ A.
Proof. intros H. rewrite (zmul_S KK (cb2 c) (two2 c) (three2 c) (cb2_nz c) 1 A H : zm 2 A = _), zmul_1. reflexivity. Qed.
Lemma es_mod a b : es (a mod pS) (b mod pS) = es a b.
Proof. unfold es. f_equal; apply mk_eq; rewrite (pS_eq c HB); apply Zmod_mod. Qed.
Lemma mulS_ok x y : es (fst (mulS x y)) (snd (mulS x y)) = rmul (es (fst x) (snd x)) (es (fst y) (snd y)).
Proof. unfold mulS. cbn [fst snd]. rewrite es_mod, es_mul. reflexivity. Qed.
Lemma sqS_ok x : es (fst (sqS x)) (snd (sqS x)) = rmul (es (fst x) (snd x)) (es (fst x) (snd x)).
Proof. unfold sqS. cbn [fst snd]. rewrite es_mod, es_mul. f_equal; ring. Qed.
Lemma pwS_ok x e : es (fst (pwS x e)) (snd (pwS x e)) = rpz (es (fst x) (snd x)) (Zpos e).
Proof.
  induction e as [e IH|e IH|]; cbn [pwS].
  - rewrite mulS_ok, sqS_ok, IH. replace (Zpos e~1) with (1 + (Zpos e + Zpos e)) by lia. rewrite !rpz_add, rpz_1 by lia. reflexivity.
  - rewrite sqS_ok, IH. replace (Zpos e~0) with (Zpos e + Zpos e) by lia. rewrite !rpz_add by lia. reflexivity.
  - rewrite rpz_1. reflexivity.
Qed.
Lemma xi_es : xi c = es 9 1. Proof. unfold xi, es. assert (E : cxi_a c = 9) by (clear -HB; destruct c; [discriminate HB|reflexivity|reflexivity]). rewrite E. reflexivity. Qed.
Lemma g1_val : g1 c = es ga gb.
Proof. unfold g1. rewrite xi_es, (pS_eq c HB), <- kS_eq. pose proof (pwS_ok (9, 1) kS) as E. rewrite g_chk in E. cbn [fst snd] in E. exact (eq_sym E). Qed.
Lemma g1_2 : rmul (g1 c) (g1 c) = es s0 s1.
Proof. rewrite g1_val. pose proof (mulS_ok (ga, gb) (ga, gb)) as E. rewrite s_chk in E. cbn [fst snd] in E. exact (eq_sym E). Qed.
Lemma g1_3 : rmul (rmul (g1 c) (g1 c)) (g1 c) = es w0 w1.
Proof. rewrite g1_2, g1_val. pose proof (mulS_ok (s0, s1) (ga, gb)) as E. rewrite w_chk in E. cbn [fst snd] in E. exact (eq_sym E). Qed.
Lemma modq n : n mod pS = 0 -> n = pS * (n / pS).
Proof. intros H. apply Z.div_exact; [discriminate|exact H]. Qed.
Lemma cj_es a b : cj c (es a b) = es a (- b).
Proof. unfold cj, qconj, es. cbn [a2 b2]. rewrite mk_opp. reflexivity. Qed.
Lemma pchk_ok A A' : pchk A A' = true -> psi c (P4s A) = P4s A'.
Proof.
  destruct A as [[[x0 x1] y0] y1], A' as [[[a0 a1] b0] b1]. unfold pchk. intros B.
  apply andb_prop in B as [B C3]. apply andb_prop in B as [B C2]. apply andb_prop in B as [C0 C1]. apply Z.eqb_eq, modq in C0, C1, C2, C3.
  cbn [P4s psi]. unfold fx, fy. rewrite g1_3, g1_2, !cj_es, !es_mul. f_equal.
  - eapply es_eq; [etransitivity; [|exact C0]; ring|etransitivity; [|exact C1]; ring].
  - eapply es_eq; [etransitivity; [|exact C2]; ring|etransitivity; [|exact C3]; ring].
Qed.
Lemma zchain_ok Q hs : onT (P4s Q) -> forall A k A' k', zchain Q A k hs = Some (A', k') -> P4s A = zm k (P4s Q) -> P4s A' = zm k' (P4s Q).
Proof.
  intros HQ. induction hs as [|[[|] h] hs IH]; intros A k A' k' H E; cbn [zchain] in H.
  - injection H as <- <-. exact E.
  - destruct (achk A Q h) as [A1|] eqn:EA; [|discriminate H]. apply (IH _ _ _ _ H). rewrite <- (achk_ok _ _ _ _ EA), E.
    rewrite (zmul_add KK (cb2 c) (two2 c) (three2 c) (cb2_nz c)) by exact HQ. rewrite zmul_1. reflexivity.
  - destruct (dchk A h) as [A1|] eqn:EA; [|discriminate H]. apply (IH _ _ _ _ H). rewrite <- (dchk_ok _ _ _ EA), E.
    replace (2 * k) with (k + k) by ring. rewrite (zmul_add KK (cb2 c) (two2 c) (three2 c) (cb2_nz c)) by exact HQ. reflexivity.
Qed.
Section Rel.
Variables Q S T1 T2 T3 M0 M1 L' : ecpt KK.
Hypothesis HQ : onT Q.
Local Notation ps := (psi c).
Local Notation L := (Lc KK Q (ps Q) (ps (ps Q)) (ps (ps (ps Q)))).
Hypothesis hS : S = zm zS Q.
Hypothesis hT1 : ps S = T1.
Hypothesis hT2 : ps T1 = T2.
Hypothesis hT3 : ps T2 = T3.
Hypothesis h0 : Q +++ S = M0.
Hypothesis h1 : M0 +++ T1 = M1.
Hypothesis h2 : M1 +++ T2 = L'.
Hypothesis h3 : T3 +++ T3 = L'.
Lemma r_O1 : onT (ps Q). Proof using HQ. exact (psi_on c Q HQ). Qed.
Lemma r_O2 : onT (ps (ps Q)). Proof using HQ. exact (psi_on c _ r_O1). Qed.
Lemma r_O3 : onT (ps (ps (ps Q))). Proof using HQ. exact (psi_on c _ r_O2). Qed.
Local Notation Ladd := (Lc_add KK (cb2 c) (two2 c) (three2 c) (cb2_nz c) Q _ _ _ HQ r_O1 r_O2 r_O3).
Local Notation Lsc := (Lc_sc KK (cb2 c) (two2 c) (three2 c) (cb2_nz c) Q _ _ _ HQ r_O1 r_O2 r_O3).
Local Notation Lon := (Lc_on KK (cb2 c) (two2 c) (three2 c) (cb2_nz c) Q _ _ _ HQ r_O1 r_O2 r_O3).
Local Notation Lcomb := (Lc_comb KK (cb2 c) (two2 c) (three2 c) (cb2_nz c) Q _ _ _ HQ r_O1 r_O2 r_O3).
Lemma L1 a : L (a, 0, 0, 0) = zm a Q.
Proof using. cbn [Lc]. rewrite !zmul_0. rewrite !ec_add_0_r. exact eq_refl. Qed.
Lemma PL a b d e : ps (L (a, b, d, e)) = L (- e, a, b + e, d). Proof using HQ. exact (psi_Lc c Q a b d e HQ). Qed.
Lemma Leq v w : v = w -> L v = L w. Proof using. intros ->. exact eq_refl. Qed.
Lemma rel0 : L (zS + 1, zS, zS, - 2 * zS) = EInf.
Proof using All.
  assert (ES : S = L (zS, 0, 0, 0)) by (rewrite L1; exact hS).
  assert (E1 : T1 = L (0, zS, 0, 0)). { rewrite <- hT1, ES, PL. apply Leq. vm_compute. exact eq_refl. }
  assert (E2 : T2 = L (0, 0, zS, 0)). { rewrite <- hT2, E1, PL. apply Leq. vm_compute. exact eq_refl. }
  assert (E3 : T3 = L (0, 0, 0, zS)). { rewrite <- hT3, E2, PL. apply Leq. vm_compute. exact eq_refl. }
  assert (EQ : Q = L (1, 0, 0, 0)) by (rewrite L1; symmetry; apply zmul_1).
  assert (EL : L' = L (vadd (0, 0, 0, zS) (0, 0, 0, zS))).
  { rewrite <- h3, E3. rewrite Ladd. exact eq_refl. }
  assert (EM : L' = L (vadd (vadd (vadd (1, 0, 0, 0) (zS, 0, 0, 0)) (0, zS, 0, 0)) (0, 0, zS, 0))).
  { rewrite !Ladd, <- EQ, <- ES, <- E1, <- E2, h0, h1, h2. exact eq_refl. }
  transitivity (L (vadd (vadd (vadd (vadd (1, 0, 0, 0) (zS, 0, 0, 0)) (0, zS, 0, 0)) (0, 0, zS, 0)) (vsc (- (1)) (vadd (0, 0, 0, zS) (0, 0, 0, zS))))).
  { apply Leq. vm_compute. exact eq_refl. }
  rewrite Ladd, Lsc, <- EM, <- EL. rewrite (zmul_neg KK (cb2 c) (two2 c) (three2 c) (cb2_nz c)), zmul_1 by (rewrite EM; apply Lon). apply ec_add_neg.
Qed.
Lemma rel1 : L (2 * zS, zS + 1, - zS, zS) = EInf.
Proof using All. transitivity (ps (L (zS + 1, zS, zS, - 2 * zS))); [rewrite PL; apply Leq; vm_compute; exact eq_refl|rewrite rel0; exact eq_refl]. Qed.
Lemma rel2 : L (- zS, 2 * zS, 2 * zS + 1, - zS) = EInf.
Proof using All. transitivity (ps (L (2 * zS, zS + 1, - zS, zS))); [rewrite PL; apply Leq; vm_compute; exact eq_refl|rewrite rel1; exact eq_refl]. Qed.
Lemma rel3 : L (zS, - zS, zS, 2 * zS + 1) = EInf.
Proof using All. transitivity (ps (L (- zS, 2 * zS, 2 * zS + 1, - zS))); [rewrite PL; apply Leq; vm_compute; exact eq_refl|rewrite rel2; exact eq_refl]. Qed.
Lemma ord : L (rS, 0, 0, 0) = EInf.
Proof using All. rewrite <- (Lcomb (1469306990098747947612402495217174680644553844552944252430) (734653495049373973658254490726798021314063399421879442165) (-734653495049373973806201247608587340314828430225682852893) (734653495049373973806201247608587340319794091592875701774) _ _ _ _ rel0 rel1 rel2 rel3). apply Leq. vm_compute. exact eq_refl. Qed.
Lemma eig : L (- pS, 1, 0, 0) = EInf.
Proof using All. rewrite <- (Lcomb (-1469306990098747947612402495217174680654485167287329950192) (-734653495049373973658254490726798021319029060789072291045) (734653495049373973806201247608587340319794091592875701774) (-734653495049373973806201247608587340324759752960068550655) _ _ _ _ rel0 rel1 rel2 rel3). apply Leq. vm_compute. exact eq_refl. Qed.
Lemma rel_in : inG2 c Q.
Proof using All.
  split; [exact HQ|]. split.
  - pose proof ord as E. rewrite L1, zmul_pos in E by (vm_compute; discriminate). rewrite <- (rS_eq c HB) in E. exact E.
  - pose proof eig as E. rewrite <- (pS_eq c HB) in E. rewrite (Leq (- cp c, 1, 0, 0) (vadd (- cp c, 0, 0, 0) (0, 1, 0, 0))) in E by (cbn [vadd]; rewrite Z.add_0_r; exact eq_refl).
    rewrite Ladd, L1 in E. rewrite (zmul_neg KK (cb2 c) (two2 c) (three2 c) (cb2_nz c)) in E by exact HQ.
    assert (Ep : L (0, 1, 0, 0) = ps Q) by (cbn [Lc]; rewrite !zmul_0, zmul_1, !ec_add_0_r; exact eq_refl). rewrite Ep in E.
    assert (On : onT (zm (cp c) Q)) by (apply (zmul_on KK (cb2 c) (two2 c) (three2 c) (cb2_nz c)), HQ).
    apply (z_uniq KK (cb2 c) (two2 c) (three2 c) (cb2_nz c)) in E; [|apply ec_neg_on, On|exact r_O1].
    rewrite (z_nneg KK (cb2 c) (two2 c) (three2 c) (cb2_nz c)) in E by exact On.
    rewrite zmul_pos in E by (pose proof (cp_pos c) as H; clear -H; lia). exact E.
Qed.
End Rel.
Lemma rel_all Q S T1 T2 T3 M0 M1 L hM0 hM1 hL hD hs : onT (P4s Q) -> zchain Q Q 1 hs = Some (S, zS) -> relchk Q S T1 T2 T3 M0 M1 L hM0 hM1 hL hD -> inG2 c (P4s Q).
Proof.
  intros HQ HZ (A1 & A2 & A3 & B1 & B2 & B3 & B4).
  exact (rel_in (P4s Q) (P4s S) (P4s T1) (P4s T2) (P4s T3) (P4s M0) (P4s M1) (P4s L) HQ (zchain_ok Q hs HQ Q 1 S zS HZ (eq_sym (zmul_1 KK (P4s Q))))
    (pchk_ok _ _ A1) (pchk_ok _ _ A2) (pchk_ok _ _ A3) (achk_ok _ _ _ _ B1) (achk_ok _ _ _ _ B2) (achk_ok _ _ _ _ B3) (dchk_ok _ _ _ B4)).
Qed.
Section GP.
Add Ring KRp : (rth K).
Lemma one_mul (x : K) : x = rmul x (rmul ro ro). Proof. ring. Qed.
Lemma one_mul3 (x : K) : x = rmul x (rmul (rmul ro ro) ro). Proof. ring. Qed.
End GP.
Lemma obj_pt x0 x1 y0 y1 : ptP G2 c (mk3 (mk2 (rr c x0) (rr c x1)) (mk2 (rr c y0) (rr c y1)) (f2_1 c)) = P4s (x0, x1, y0, y1).
Proof.
  assert (R : forall a b, rep2 c (mk2 (rr c a) (rr c b)) (es a b)).
  { intros a b. apply rep2_can2. split; [split; apply can_rr|]. unfold f2v. cbn [a2 b2]. rewrite !fv_rr. reflexivity. }
  rewrite (ptP_def2 c (mk3 (mk2 (rr c x0) (rr c x1)) (mk2 (rr c y0) (rr c y1)) (f2_1 c)) (es x0 x1) (es y0 y1) ro (R _ _) (R _ _) (f2_1_rep_ c)). cbn [P4s].
  rewrite (one_mul (es x0 x1)) at 1. rewrite (one_mul3 (es y0 y1)) at 1. exact (jac_aff KK (es x0 x1) (es y0 y1) ro (field_nz _ (K2_field c))).
Qed.
Lemma gen2_on_s : onT (ptP G2 c (gen2 c)).
Proof. rewrite <- gb2. exact (gen_on G2 c). Qed.
End Snark.
Lemma gen2_pt1 : ptP G2 SNARK1 (gen2 SNARK1) = P4s SNARK1 Q_1.
Proof. exact (obj_pt SNARK1 _ _ _ _). Qed.
Lemma gen2_pt2 : ptP G2 SNARK2 (gen2 SNARK2) = P4s SNARK2 Q_2.
Proof. exact (obj_pt SNARK2 _ _ _ _). Qed.
Theorem gen2_inG2_snark c : snark c = true -> inG2 c (ptP G2 c (gen2 c)) /\ ptP G2 c (gen2 c) <> EInf.
Proof.
  intros HB. pose proof (gen2_on_s c) as ON. destruct c; [discriminate HB| |].
  - rewrite gen2_pt1 in *. split; [exact (rel_all SNARK1 HB _ _ _ _ _ _ _ _ _ _ _ _ _ ON z_1 rel_1)|intros H; discriminate H].
  - rewrite gen2_pt2 in *. split; [exact (rel_all SNARK2 HB _ _ _ _ _ _ _ _ _ _ _ _ _ ON z_2 rel_2)|intros H; discriminate H].
Qed.
