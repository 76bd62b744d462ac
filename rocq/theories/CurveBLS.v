(** Generated by tools/gencurve.py: certificate for the bls JubJub curve. *)

From Verif Require Import Certs.
From Verif Require Export CurveCert Curves.
Open Scope Z_scope.

Definition bls_prog0 : list mstep :=
  [ MDbl 0 10211399419779840195411590628865594250932648907855198267260150476981800752229 37697075582999453705166010926862366453798668899478898217157866285679914250855 48617226732022829301933589428955878341477200811652624465697615963602676645749 573863891840175448848748193719768645481785362451488029567383591739688264175737408 (-81459992263764724689716228416157919094010681217782002692269222378310645906439915) (-1752090487967739202330345834616775482096583537080243082656772973032742250825)
  ; MDbl 0 11942661152955493734374839678890457357337407334390348241742808601637444535642 29898316614821765603801603356537033107784334189782172322100384927987252349278 20027086697787917635520076623507028328506763872917764129807154804800998334348 907264765041552142620170243534096130620262094410459020002022298682675417581648640 (-111423310374409635427691587804289529325254038020233061564536005231439412673764542) 1776225446022505573841408902649382284396223788258311039823649625722189937449
  ; MDbl 0 16830440913378757925080234690047407282659721735651489127474488772496905105690 13934231206179456609531861524301176688832145779573106624316168925992008684774 26296985896507828905076576787672864468617442505140003907887309969924199500392 526695098018792597698348012041593708030332964942031555444299598590524648519951045 (-221291546321024254296894602092943511390225498029825415912663879664906635823391284) 5124022347466040212008317653436473909602574901558219306060794226662774612540 ].
Definition bls_prog : list mstep :=
  [ MDbl 0 46211028671320687038485370850398111894724468471281799790132161938246307928830 35382051894256638467403790129988203270153004627056372670348543299673375963399 51635456027742534877846387824958435270634510333112446660832734823899755170837 1898707136241983368313151918770035300731328430218082490860097691364154808128579845 (-1668265270351997863052103215027973340140745406975927734651601653764409826447102693) (-18901674730209066743146147113462086797140435338486256555561014289400635885883)
  ; MAdd 1 0 false 9583849166779300342471369283268276234170528769488977535423617290200192081017 37297158262142246145287070672568997608797047638407461993175815183345327114543 3116164008319735340175084281969794192877913507760379107109397742368415352071 3920077194175784309851067245484515153753309190313727227627586581842451770860 (-71755265653786549751827674755758563041129908574718404701814937844713907498032098) (-4270106453854485629731300103357471831782084970732918355249802561045555020272)
  ; MAdd 0 1 false 47794758157007405239576721903602569903781357659313446590720643070541987088686 48240745394110648040963244611833417855056172423827578338760462196604600219794 47306563604348770201518309874147028355653690093124373343449609233424984935858 (-1745599656577433947049507451619298585681835042915738289860051474582866892350) (-1784573227500676306068090414112134357908643628172870610884796685908493012864412634) (-9974966539524517548858976710774519453853092462526614618237663190749248852355)
  ; MAdd 0 2 false 22875532699254549014879248764282566400862231874786423844025328127311863770138 10671829166104560775333560594783248592138191604920303332591843227552026136184 26453210242907738502542510406604863330338247450727523900387797998916150251480 (-5609698753824497884218595549172728067771158219071517547635180068191958849153) (-408805065917234467651753295183773060739226573814787479599295719163773205925161635) 16389713507766200712150565944712991471833625452488503331250293234325150359834
  ; MAdd 0 3 false 32694423962395745428130232646871465357782718743689691566544417100019609528203 26032262492310926316570578728409803531181476262775026802625119553121982118334 25063653736036218911863702431660463043342575153576113977216535389449203220499 15407132910078048011899416322153521029666946365122765605283220201004503427176 (-835066797844214691545082052444650888417783234257640318204526994892681116154156835) (-9577422284568458179859738146522928305568863233178169436892082105352088631533)
  ; MAdd 0 4 false 22236152585776276710079956884854454065261175509933271000312731861381091927633 41445835804273827895608173084316573808208908714602559744579975812403328518466 30783166622220565116647636028199103624962281364589989227830064994381982187404 3964906528062701331151320488777234063173764368927981003388418728079837679639 (-386271910472422771732780557145765795719433779893125549042057753650150592151310989) (-6536337324630746182852794472906601394634809464514358302930510173319090847843)
  ; MAdd 0 5 false 14472265624698276940520689896067365750957071199924895940933504887938740210124 34458056077154964037731278868831998497919738640092394900738732904516310696619 31089744760720288238745420175051769232971030365906924295881755112101221292564 (-1673600204887380100360941894570194571078760115363845771436727774120616316557) (-163623955223912905809462834767369832739464394807627845128818652649372283076022070) 1928622417381106782178350037957607325604326089106683175879687094803094877620
  ; MAdd 0 6 false 47143606937896911913994837994516252322543991837992889408756982246946333940113 1173259235345347759311582425023632305888634765831202032166682239252218886149 18061303061118477002504513265222024639035178946655928230928963621395329416930 830738410834532112975370854353018175020297275324881134290933921558258783259 (-1736278753188342425903535649415301706759661218114233232769119806703312934093128765) 29925416026285457070430247989545097063133144186240398271863341765669195228432
  ; MDbl 8 46211028671320687038485370850398111894724468471281799790132161938246307928830 35382051894256638467403790129988203270153004627056372670348543299673375963399 51635456027742534877846387824958435270634510333112446660832734823899755170837 1898707136241983368313151918770035300731328430218082490860097691364154808128579845 (-1668265270351997863052103215027973340140745406975927734651601653764409826447102693) (-18901674730209066743146147113462086797140435338486256555561014289400635885883)
  ; MDbl 0 4078226645298394210438442723656929559825119746537613079152762452514286818817 12037347407807013812681498643227588645300173342344348369572316643696717588513 21677454930714854034858082641764448092493151659708710589922982976670526808660 329092312598476134445986277340741758084157623595047334393388109447432418573258584 (-12993212824984927291038144366740531394035910822339993623091547106515021954665013) 1815646168682960446454619999050738220167733124114922563081604164243024340605
  ; MDbl 0 36075549769845925921252994517216980074711537026297414141355090862475725582097 40562676792077264849015397911941675108416705627869258852188204987955468812510 20263290632071469691947217251391752040341022002797120422294772367063984100984 1221878516323237290562295794484944122810041163585982927678816992743670198740253160 (-1016716222062187968119530874630181200813697300162619879560212958655927977178418598) (-19625245816277412087019400590446473089035044786251258332719996323647241326681)
  ; MDbl 0 21610283647708093943333139790889857545552876075590963747663287093016898272703 35777420837048952785633505405402099667174441739130712171289920984830443274103 7009632220113835028419466481906510841068928937813355944647438540755161604922 684280275124827295480871465808377343617211973837323770603436130191606851550880069 (-364833551683507619245397440428080481687694779224048138463779007559723862327120697) 1972137170776176435377899083164612167188750525374205245507408005115576950055
  ; MDbl 0 35711927149617653060048702379562821869343679606954270044672384394841585736106 15975311589041246330029537185535810944785843722455504802191591574166501924125 30558090834040298463657428632314343969081269085188122840668037294478807248206 391195329350546233946354096001075881339803530920850843591196472952524720691383792 (-996323583675766951684661143327734622671447402509328653448558143410003722605907869) 13486405643308104921153360371635737664679015709826049980574510114465997195580
  ; MAdd 0 11 true 18819313203572330824702842812050207697617257631233666043487601588711979018558 40363023844381355144422714916190302252536544960705418719079825435511786890448 16389693463288925700425150968828739531712092705711728169305107931875973136544 7652442326546307243936394544750897284645320204434918485960119537032532541617 (-276682299730586356864990472839835058472140154657905514244898688250826506576221998) (-8752786021383314086534435261863503370345760581384090601312771742540080477768)
  ; MDbl 0 6954086841130925373683153558542882252336135417257295200748014181316246549037 21188950486750025879157349248700741375648766475791413305704774697110160951205 41544476912890013037487098808045120740170393039254653380607470758878792550245 178173056124363795318312364031582286449581416120036410204636441845138848026455873 (-37779312985258111250469120367130330304642159071130833349218098907292498351669483) 2542880628612721522418895095491121954117508265293773325639335210210369404554
  ; MDbl 0 38479412885660896822311803377438978051896420163242283613737588971775291016082 50612249195113023652092616967285123929831253332046126024156392679861971209752 37355470657933033672383644335494276609653220285231126490870604056742601278585 2497756113503581573905425939727725290226154931948518048030234528544879227208197232 (-1156726567577670389865895626401241182859406226391377981320883261561738810409941620) (-21591920716035003482747643131337261104569741602899310019803490103218757079668)
  ; MDbl 0 32341986207628713161406113547566447914774709696201163317917752057427498239759 12226249698958250664139051949832013033081288295846508544353040363378167119659 10964935524675804277874610419980683023435353693253408893148879709564967190931 1887810725724626939033696869659922877688325436578854520156480018364017905075122137 (-817160210568420335049479261181011452688054323014934965979066768913367482834298593) 23676146571872159017954100553114148986766455284341279615084996178422971978967
  ; MDbl 0 24354311767600784530544480029724870482911638601002012064128544557601207366954 6547443308146086762171194324909447011144911794431531830573235152295378582168 4297406354708460400859074668095111857819664215636702423428430045922804409849 417248397598108318613468808993311532924626191949950635252036022903772892469057864 (-463367488716558863975629740963941780473516590311683409678878056883393199115682944) 2637572479676847245454541440854070196638494924393167558455857226508256380818
  ; MDbl 0 46204837431309778303219281981947552134214280805725429468915030487108697162263 8861476292442613263488392037370916972842245499273789814689324138477916325865 27162981445902226931789246294945819517684520544223260571240983447914725182858 310242387431965099751574844272910391157424744730882837903042227785257650300204057 (-1667818280138393333078582000491082509073795101439205820712283463787656551614559583) (-2039052795305085914453879480972340248548728022735646247831675053317812029386)
  ; MDbl 0 313202000543965328851698399501676439808772544305779571294392570368803335794 45234197754586675596387509928856946874948665533108023248834192258853470480389 8782227995917816622847755697285720568140203031212774678419472523393838918801 13296965971771659197319379109013232957177707749636149567039266989708337082052984 (-76634246453607382891385602527965192254436808404904107779775294844301289063145) (-217256012017053711011237194357694598587105971686200724577398144400958033555)
  ; MDbl 0 4324123981486402410928173183017678389300432576184446208309111155839850451788 760813700895678970132529395468264954047225598641790437294450757662233414787 10928150182098454734228189655902982566027129216015369854826428666372633898138 59451481568160584255174601081179159010563021531846590526990912744464574889230528 (-14607305479393929569059897614682854241092557055902915209082436058372228999919311) 3667497221742659472421863046604828926639360910564332274148365583886623799149
  ; MDbl 0 9548204385533616533235978926251782637386237814772079330279835023416925190920 16270108401469987560358442499043163649434671042246998382348685046174609012 49834485685199804386095180238574074637418487283951482900958530519073107730104 163031784389624197321550802132825560776003557725296215679035388480661848071088552 (-71222505938546224528767431314022591654701324949942061933780569434479269758134396) 135576156044525324260288217006403538836322757662714141471467909195434531366
  ; MDbl 0 19022316134552636587792117224846243751773651502653406666205262504910060584560 27660980851103477783510878177763761043551800651515339067882898040829350928203 36889861431104028859218297405428643450736590621546026739974847480935144699495 1481143741066541068522796655481133194772058393128642718025156171906141362757725057 (-282683608505276159607334172329706130300038997031797866723878873755804091748556853) (-10028752746848293090381563275407776207295507728331961977040638525406140810543)
  ; MAdd 0 18 true 14899725783511217022291236657842194196418659951654799072513923011560225155556 47964524978680705579822263217069579767573287002551922475788710788568934952688 43196473641499182679512192671677100724634462892355612470106301202708245498900 (-462802553471847361299345358229796784403829533781327477534004949374561112090) (-173432461443261180044063559323050059337121430996624863038511941602809339832398907) (-5769279885650199820401593335665120277881052525119702552348054250288342490735)
  ; MDbl 0 42316024000847830937157211837960970958946240815158086949165390603519843963986 8805127897700619626096449751758234552313120055149479800061138093140499020587 23506869852259964644064899079144926774084450309404632642440729855333199782035 2856123589616190613995844253677315186444187471477537431133366591329234240748491265 (-1398889937088502842013439704184871803545041413698962937573340938350555434473808413) 31601837123976179693609913794006669462639220411300985751311386511231015488627
  ; MDbl 0 25965069153664764692833879067579818719128023231278226020615770991382659580408 27761570396003298785577334959722152386396235818788203641559243353270283969141 4328331742018629226833309780219688948313088127269008840339067419449156058524 953652471525252489130934573388888964190226805260522471251789169989637887676466072 (-526687248314632589192421685354731603312218292054774053576868041401381599093340621) (-9386805097312160914838550810035152873664311529526355176012576755963156183007)
  ; MDbl 0 12516935785305473563854398536489539233550017016043064349618729806659291503426 29031393011029232701080580694029230888519117083608016643361910211517461220391 47057778290940182401888536790579160753839215507865019972866094038724039198350 84693204067615300724979270338838855879762154878144211492506935629912756879513600 (-122396749660889415072405513680638295789035611375870023887998037774108321305797923) (-303118582038047150616395263316485216890212166083556974240370000010635446798)
  ; MDbl 0 39447942927082865754205021872647175194508651626716129803929243413838132866122 5216529558093191183643307650836581455617573384167653814857598676927905714298 22985550716828885600857186999810781131416980571450338705711834510838436385225 2900459681504838789378977352889052367791350483432941237751136686244408686277288656 (-1215689201108447801022644587938927720628329656439715603878910389317867313397341786) 17916118900850055457256782300282072398588145724376602790567331199332115325867
  ; MDbl 0 20096453226184743252183852905261750154340248007089104234280595352528888267240 21625936962616756980964612236529224846122183414849486669412492383413627598305 21596798221685499126376347760925068841052996377532249596698451971658943751634 721737214632969790215565360543239797964097814541874659420811495637929951940864405 (-315509666623197799045092522956614584086644616557650102670658799513812803519905751) (-6289031836944520154242974180992863109038371894178440264369615861358680278003)
  ; MDbl 0 24278122145158253542015555416589170491712564670760919708501767152789545847403 40952529377300857068198639947569607595108917671890248999027959127804871976567 40890214360571801471066391646464429847233883682253158779259967172055514289966 819261373728889666522128860583789355743744056435298941600895675349458597343558904 (-460472841357698044892615871085491175168205171864206135640276009067420829710087455) (-8948327261179547605493819642391895183731295993607144012208977498930976614322)
  ; MAdd 0 24 true 13699311287584557998072028097922472144794593728523998867273634130053020591354 41335125812684545679193345729650484462119255605968694393936021629105720224413 36692042233805240652711170141111950107967719172576871238373586753756222876260 128880433113750603736242008503090637620969980480998321707660172456486493432 (-146612603176221491918610469678666158906545896650745556543258451354903747842591464) (-99956521147713785808914937626088376455899887992891970303680135626045482670)
  ; MDbl 0 27865511474127114466669658032196325609443406633670209399238685535955033939651 52296727415643493182329282743406967566707664310902065762124586091739128407816 22050215306093809867123008091919462503733160256509692179485360172601582048082 1597604628398924643578877232124110724943778259774137614644946400892935397064321200 (-606607638182837425774816730360082438880875752402865993564716335497334047351660136) (-5825222411601097769456535695214382511646632071159218656117762855999383113015)
  ; MDbl 0 4011518686640177879798695692349320492193449486535731397394392851345732486186 52016188957805223796822358691332039963035257352798156672196414461865313535240 45456443502915246027042598557071034522284192509054206538251153071766135213088 138362024676562605146675598092568765760326418389998629815641437199191591537444993 (-12571626672463047031208407914277608348854134350780714582518798080297001624424106) 21462124207536448451390732663596471826706829964017208987263054664142730382
  ; MDbl 0 41122529994795156050665510318388030886007317009357398074043549902775464997847 47343914804903285474945005732454844184264259893432175533267725451388519822972 39931780023551710326901814027497836665264113019169693477235496588778442623527 2920802083120556881541543435415568901631327370001839040673544287526753344480902113 (-1321093295757792947011256906651801079608288525228365589038064144934977973618834130) 3664203817613762183357104607473702416264411433485688614428746593773114901837
  ; MDbl 0 44946446243801699499856009400235686677698740260055996486126573485079682460776 52193569549756764333071749506651517678383166764241020149393823949456787842471 51669397022310027495924601750504564123597104675524876760381827655181850878209 2804385554746749994193093561723522121850871517364940595983881738029268139435367649 (-1578209143308113891910696274716932767474383737515712632789902821523498641867594657) (-4156977366403423688538335069468544837145334679717763201403658668493052917920)
  ; MDbl 0 49066757682742352569506559228755402514633994647033338671092866221862866948409 40909281128318542218782789335095108812480885114532946454034895408812846769722 23231496912490337503802659693187876745361122351965696172787926900063611986586 3961335937641110669758563486380612045618059413197129627759311944319087813011374392 (-1880825733878789030647437472047847908893451157233006656676882501280684630206344270) 10559248677507211688608863632431795872969611539832544861933497353918536784042
  ; MDbl 0 15084951120724484249339490840014151926419619104515776250389610298261874117776 41886721899416733725358816239582904177640507072440820148407865951307303441388 43661399952262125268193683597345842080000648027437185230187114481833154573660 547647199974040152813785068074615300296935225512327535494470783311102377322765653 (-177771301132226434233719952437554137065767962587235557993805840922272809910535266) (-281193862144477577171279420911163852489766743081248613204286546893987914774)
  ; MAdd 0 34 true 5300024323780673232392946738156048615859993167215924845948147942131963729499 24063090629370222563560806837543719476454786940030152478912357327429723190807 16818583762451235885535871237509494267873354461806310728592779017195389376431 642241193901663121214515981779676312566226667069998587370735507056045444624 (-21944695649958566168165151168625885687416055175442916353260898602063562621096955) 1801546726431976336136964117541669571935869872995043372430794798160822819756
  ; MDbl 0 42418007062071735816446361887405356912104161503946882397907851940348962244759 12794485508023273122683261019111314398060083883891474471983704978422205364007 27708537020585428298089210942799132282193087442102504622836677868955666745937 1114695946586734477071108964015474867941801561083423246315536500379099363304864856 (-1405640807139003729481548711376432858597449132493301691977529482564895466164520859) 9115739367762775428922809825580038073094704096202628457861173077651296370064
  ; MDbl 0 46230129505064523256079790566892341654111995594679194941155980830833188758098 4421176308934113548085295101756326611302420396154850490750797124184895059140 41819657580150947541673350285468812724438107026103205379635198045980914463898 2001449195956785900891509390187392804840890633275092070236338238241055042416473088 (-1669644674536127031544827090117563355269323552822824332216592233899305936715844644) 7382334467900074827405889250781471078929505284342181834532308768126647888587
  ; MDbl 0 41652128408947087758658914736474468432593468581718144528959732302991521305739 25184263960259509452154132365896483818806647446543905793401813348695744000083 24016330580770390239863498647658624578948004977602170101346127028154563559118 2721583615507146600683991008691679292965919644605262706335628500635312737964372529 (-1355339931118165671012263775701042302640644757224367521334960322112360191463090113) (-16493036306362130315586860810535008878496517865655578683139434942136488949261)
  ; MDbl 0 49642724148081534016974667766292395882652824253641281851842304375478980460976 26184702219166778212072232724492825923013570118588436866247754667173504997259 21516800186248300179197360335766005064881334518111342495192083250555513452998 1862835692007722928263488046435998788592590345856070104212410150390023716515352328 (-1925240758453879252476376474842216466211076049019457704938156433825628761604504627) (-947146974247121370372139049799192232708158713565163583091489776595450193684)
  ; MDbl 0 14598868600131478964362898417027320110112836806700169502045568204385224564259 4010370386203240673103717979896947219914017977523121699147942352313427827924 8212933356184085719022676262743200907150033983973188721645086678676601287799 490834892880631198504351581758643795687599831102777009378561881205372097768111912 (-166499232456465767107186044436270656837568813237388789451279924966711539716386576) 6173638861637789701667142004968290095304981380348543980022932653790521166536
  ; MAdd 0 36 true 50422352115136258025127376347808691465864187003978709399799768380083776647362 39033979820723124357682668718372477672476082395339454894451056550110879644766 28541425391135540530508434414562672692420455898989793251582783122766166701931 29278503007201289420402636107947626696913942911577410779271771531863045589881 (-1986186557744279371355926037065691855815097846048081690074108355050773500680636399) (-33678712548466965223745595552650745580159137094246049649559463361241350976118)
  ; MDbl 0 36231565362454967603103334117250236507908461377407079037584466093520811122469 428010245530576597486367998279927389477693879972594559547914603310417293707 39928644287177771010559710715813099504517909665904924961993512546991819753588 1615808986524557122039952761498880596867973813702584116127634399911657815429579965 (-1025529203922707270562671714547728441863732640589131409396837937350299416153479085) 26675529022314452779706400496627695627522740195301511687091395532170367884704
  ; MDbl 0 6787074413236269635231225830365546775154690774087014294806275461831609366038 40317564841616514158353678375130662763086116507552610070033278955497612777845 34222049038824068152672032472688897493235250611877806503178372931434405729078 423419659349585620490508393638147936595743286401694351523625105731057041696004696 (-35986454288664486354404021867429644809315548690415767610788600198803133171614749) (-5163132577653874718741262124386188339331530171213585525706545251496095344070)
  ; MDbl 0 36789038786473234992184524181950489778132019648663026388000828863489575640870 1211873735404612645966106037782164806906129476156966176540260593620472926354 20767873203352695961468348834013817598461278069510865466319664553987809887957 1967201351650769125598992969112165071750718990392917486385796310100160446139135072 (-1057330397966615330372503065877161528066364678976373902438644456954878532380379662) 27436574331474554953487809686522458059252121527738235300780658028778792137895
  ; MDbl 0 17202480263497132603284991037433400770087350412558257205810128212039477326110 9783215485334537286172268601097178008811723435336934504348577061670072714645 10850339416545634221954529422026446398608954174583208211757556401356111211192 558196346198254658367827150815013781058877507748516528154668001365951885381766085 (-231183041449968400318884906192558888771026406216519995649229190121067751488996555) (-2811974374269679752694773837716797596328678050397482840345972400731443968743)
  ; MDbl 0 27412511003367371499025998836988916662943207788220553615315771452847855828132 9365084975349994387043839188901522804481563133791429081396427850056474246169 3348006367976370076689721050101577515155441308861995800829331354010266373859 464730410582937417694762067271485463580520423824959566282266536329546507470946176 (-587045109664898347603312521632073564905940500384929862110408462738419844152691589) 218590939266559284982814978399720826790826447861727942932368029312163719637
  ; MAdd 0 46 false 7121129807010069424212937227257402230783791959220196818916907190750475683810 21264188982830531185719138157436732910835521526900822744204481788061554632009 33156654831342331263694272333806510235633928123353069682996560852309452308846 5279565245180859468328279578918445785975797032311148703091306919296466989827 (-39616092880909191333827779249078756723012584021901529082166845634268190948083718) (-1615975015986346565891361139181422382259581184763819590332257796476850961585)
  ; MDbl 0 36860871733967805157026140465167900589027576270177037734407955621486626146702 21414740840779765058170326334437893510486650037810360079879358166287877941225 26793712828794052598962838174684851358061465290376316488419155017782574289286 1909615915502289369167656824936846342580804858440309021255354273089701306477586872 (-1061463439286165770324405750799228720382761921182399358624201318100472589693107597) (-105833510104351870030241365669759078465145558108019683889053441500400379828)
  ; MDbl 0 1933185639196041385304795353969533625497125145640309682840858265650218373660 7273826201243478112759560753009954636265241155840944180760311386421126452717 8574001732433481725410711143358375862989527355264994175882747781865505944376 80956377097328119404428338552382204027980365494827544121370392780283583596268312 (-2919583880049472073227174262936441517091655586769651863770150252405260250911233) 521341791568234803797735678048346684863409527084196310258513239687909157586
  ; MDbl 0 27206598111480410809248055307114763976276779014048248240275104758335438372054 25757738044438037645984895176640263951646236465400178550632234977754887205123 12670991795477653972620887015590249008395679540039249050735518592181142185257 364472904278239917383671237439164435088347314973513511292292031576823013584459376 (-578258891421320326744502911327367135854026205681328072416023597321820194109491311) (-9590463768675284200168571302114798225281848854423515034167327190863428232389)
  ; MDbl 0 22419317461949528412020831976304881171047666257072222079649224949021360105755 4153177700616557275014275207039293899643067546748827325107001383118937733338 20463703746519585898852088370847171127363730610325053624403737953031905231160 443888576117956532079825159552503988113596290134379328087562078135588013729487040 (-392661760987964254766982473300510639170325117827020707229472243529601768330460742) 9237177702409037332148169933662478074614418278145079707055181627637332186866
  ; MDbl 0 24952786877614130271954734406831461390139845912541196195139378482865953898800 3738038917514423052646205137732912094543961655815704368003456432308845931237 49297103390306450220174622494985940967082346083554314230830484657875382746193 797825047166399719955837779803246224839519063369115158919651724033834705307386965 (-486420591046366205860339547907765026084120686010077234074523809156974431627550875) 197553097851097402766479781623049303100972963168708786406942946909297218919
  ; MDbl 0 27033141703514821915668161571421422393275685252817808118333835485351026177613 7027073685869181492034564307019919090825611852307723963037002639484553659533 23237558496896114915806763962402425751854448393349646970204388069561808772188 2082197503849641934344413849999834827424240641649769889391333930576696452430713096 (-570908985458155188319585541655654612223403023326885709929258786880673387546568445) (-1695650976812503582605155507449099062754280474782250540602448772376408801333)
  ; MAdd 0 49 false 20200281319194378826688594398587058181621700563273045055771941364469369988203 16001182106318558010772859585750519144805171212285106132744481451447912034695 33638662718960542652165502857885974527163535352974368818796030645044507310506 10567451373991616264939026921083002936086677506323044572809184500159603503314 (-318778242479570038019508417363832740547198071796396281258990603611945166346177445) (-3457165806360401866437898564671855981554297812242371789132617474198188886660)
  ; MDbl 0 46520383173246077172951823462464594372367681865238810835817668370999146324526 29085138949031980094662325155276358054014099735091909644042477123939363737756 14555936485878278685304433432877048060423776283729842373398076065482688047031 2445053913237273169453477365510306582754812826271788767700728167456904318685112848 (-1690676059474708231150154228241447729483887273905872213608568499892565554356704444) (-11607905536283986401843991262081165748492626243285238907733061764642414002471)
  ; MDbl 0 31527150607049752736853228976159608922380085475144792130649694334308606931056 15122691371194829764822458516789744671861391936090095843366156609314565112608 44781615033050154532719889338314977499418760842051942526909795746895488769471 717064165341079748896332496905669227657913279839708775473222370306402676187684897 (-776503252807034482029141028031677966320203063550219937120061823409797816728799322) 8394943083515521810990408838228492403567362865936471404074518880087827128522
  ; MDbl 0 36086969048428494147740335307958388302211714235625805971125960623781331478678 20438172110716676161665969294857113977456548727905173187630783082125228261968 14287873442267417178003969484104352106909806688909135993470766085034462541837 2524970113476070379737793367363858360174559653745794660154095023261086836596869073 (-1017359982358673771243111589324395242282527465051320388880790688363647085984860194) (-3658174642532435748937014749921493084858927299089634365594394572378272848876)
  ; MDbl 0 12676956161329038427296882708663245361176393732802979582746245757089216677958 49438403689437347160721040424431976789145563999714861898213802436840451861703 11256747398995725528144973006763294145587355533782956812694044980304717019536 283023885712699905953221024550216565763815159185380572253487218060352785209258161 (-125546269769495861227034381953974818456004336659895411149357045229090449854782969) (-7011128605444263372671782107004080883547939897108046342352550803434761160231)
  ; MDbl 0 40298862544531132292925841139641748770881232538948073090163302668886951485966 17977128212977190679523787202926325834756915761528646497571304178344911784626 46540049537069207630958330644722256516495218096825774854502719106214250890256 708916714167142842671396959886908953228693165696709874970380564401850420394142256 (-1268701381562049916106771073567483428677275577149814485702374341060383359665121106) 24179125678118232679020670748346123572296777017764047575090287426716531927430
  ; MDbl 0 13255072353409196734369314868421191374812330884652585712585506109639662087163 31674856370643210969943823634836493555735109258642294913195798583481797928137 24358163592985999915599562197360053972345561546463536843061432776066949610949 963875867847931317818951907139067470592270123141869484138568150096859574522950549 (-137258118661503144100127758589526449537680681353059653842001522114840869707930259) (-3462598406163755027599201628740803017716067560899875035125361635451804693346)
  ; MAdd 0 60 true 47483667500417130532343908235525617071715728269706009427699352221835613908749 52432744711113603076424784662223367890019716773264529466133991517717194799052 16957442473327799680104540784066083804018369068496186554892879107042555155404 15001354771175411947601366130014585901226069128746420052380265937647712400300 (-1761417662811427477330861964413163812486055882456812292401433295625128872551788493) (-18797448591784843464136398577811397912026534557885767082020857880601865409976)
  ; MDbl 0 5918584818883537006668549337300533109797988143146108376567239618422631522429 43233343823437913675425954438537819125257901618603498116025723628527532330241 28561352872772978397835335011605645260776698908873097586341260437532940817084 156970287776975517550681677973086799999860043155944687529662422481459702245036993 (-27365890710001155342389129553272013105862656102146569842479418369214323724087487) 1038362271150746332270770714092193664554036585464422561279571186154661633687
  ; MDbl 0 51314063231103173269891223688578379218180114524332607731233164018530764899496 6381174532830711092246312769488949440836432477971460251667591770172686116137 24491967408873967451615720260674997250473310226746583465743285300528178711131 2290020093096040386044063108628504302844980638546220006437332608803946658247679240 (-2057058518531382086750620291658594976049268414902707472528009795143652030578595885) 36063754802715289361743034075383753119813935158586336637537550922654153631913
  ; MDbl 0 12024735826666838416172708612603249332043113861276500061683345290479397892825 26366637755050014822046368086762774060882506514465028101613460082427890850780 47944923158911833096512389610999889807618535600649080251003895664122712304775 460156168107117272953908915318410812757981933108429187043702781616849498616078192 (-112960062670502201328099680186556265037025398566436388276102929414574467152991732) (-4583120140898355651449050646814497445529638128220150145971894294954290055837)
  ; MDbl 0 6321754708687678366072657139174458192549550676012713298330926972174892900247 12357926713434511887355909686684121283525977017829859483332204814315811991655 16707991589257855453005368867178053000684065702953698887785130320428226431720 473609683964377069887406949414552922655176135460659692030507212248232955189986217 (-31221165967541858839750215305225551512432053945643205798875116152533244673070181) 1688913071331506623849012224560088462009722958362288784178527622199452538260
  ; MDbl 0 14860157093818823258818842811334464895644091940486471140410303893377572517321 34108906531977602954144640121728927827725103826048600508769503377278785101111 38895568961281957538243715072835421370347454180857544883713603979943921494186 387937053064186062047575132091417071305038973404368900111958333011773178173726512 (-172512527331369237568690859687232397216595833326742657708098734766685687972011339) (-6164157191398595129263693063528349895375070395865633289490763268403619967714)
  ; MDbl 0 967655395358911940967802252392316667895796173806107056042365172521021928525 12446936165233228232511779835069719810340994690484332093927998164535595076069 13090447760985864954119698311804992295224517642323497888381232723723435048026 58872974445179788671029663656872964752581217173585169034979499414793878076937056 (-731501601757205172587641210000257795853287789096901953022714124644110745567481) 399751552338510535306524022663020474900741606678197064624886663226096079526
  ; MDbl 0 500444103712872926563110485260719881239325638310755442119427354954204771428 26371740723657934391222797423940107067632012655971924551234382098630069927026 51976373810745072490118391391370595011649067645823033286886268659625134613333 10244478016676207644165754724286232338398186748684987188907297593075333174916448 (-195652314555301870429256836514282049589187411704090251235311903261713537174654) (-132897301958706346122634201232861139289719028243184737135194725492930020035)
  ; MAdd 0 69 true 33643342401176108716712805355344626681971660062932002101263899209921348928816 14621154173423314825092617178965841294481792512448789605545355380813313543412 26773029523082418994547051650765014246172466854554165043002923689216946401240 7009848923002318898067622594340655105742949317360778198917970474403700866252 (-884243971678059053860711512168631547585014735871881067015980237818313102802032279) 7539284991503847588398819189585976530233950503931385183577062243519843994227
  ; MDbl 0 14110108493066066606758545152700882188646873323905329787624080887779935528303 11243968409592011836611131782475369625238604266575863324173896077941062291143 19782111228962251592762215596220981883846773158461821808012104674731188068993 590256395435489825191514034709382763756705437864754062676340811201873595385004737 (-155537295335884974003892126256788402442727469052723676503815783660348072977842485) 908775859461626709836306127419013610651916159422026330334917903418280109098
  ; MDbl 0 51353892276803511278418034662455065557895705922565387015888922284724130558164 39033083582531866518487686502159543558714789577332103514448446639743367033126 48136796822945977503875695914228342725277937223641781845016947759591391605002 1587273685810732353386097249269405552493634464259822636849902455538703375010475472 (-2060253060890156803301306852481865377823292690442305303088640177897152226997284086) (-27215703414745282972317311605539925417612097201336142404502178468327128144439)
  ; MDbl 0 49499045866616494673011246410209153008659884868504510417714956956076859186949 43366867278020710257484209590613216638175417602519077425366941429225763930734 8227604772657852738583069277540416509239665273578434985561979956115517650568 3722956963879450708977355574805171238609340579670205219927609573412354510380258069 (-1914112642827241714182531502744354594471638536988967751354635203249228567529717024) (-4091057071185438751225853557791821380623126187451414836313047160750799009274)
  ; MDbl 0 26244700173830496738880645598035418943715416312798783131755749047455353761516 50433224165315303439260627749172152654972038383563490003937202527210680554813 12704972258137351981090846011812968049787689825512752205566886769402497749986 337487238199978450761189004098479422946040545572272974934038721462392352163555973 (-538092659790854406360607051277596894659514521953672230663350588974599653445951579) (-3536785019968581633061752547725751684935967871129691717433677580277210567486)
  ; MDbl 0 26436589926932755459923648379203944599933631691535721136395005077947703287154 24268197866857174039317855387394029459829380572921314534763721893342736770169 18616092259479065294171729524673208997864631531936048038001042289987015135012 524932424015629715381981115113344338277991621088425841543908084221322884800605104 (-545990021366269073799536422635845353631642798126035637961896578307016887443180037) 13191618684146128919451567380866982852326291357780060122539077042382285424706
  ; MAdd 0 72 false 51580665732794354093706790156942795117831187002813696752932085742887979872625 36447682206129190866459212521794201990801417318881863181786906821688185282285 35544798661779140646161498870837618901405208521461056761651399376824344609274 1735293393553206571221952676441518785156133145339475171366510245421233973126 (-2078488963294371705094901707924999755526520472750365663651257157868490359549742250) (-11980841521260672565681855300335785163106365223736282508900710776416102781522)
  ; MDbl 0 1138832610664129058967518613726242089863877104374981676257099863014524321174 37845918330258691926121398372148216555573978751133461211279824492715767282606 20997553371732527232953191085905301558181424298183713694716281222251950039929 63322982218119149583007710326020983042666196265217645074624791485493653587969488 (-1013196371995582234163545430532700968010346797509178626491715426856816686262554) (-30367699409023181170871330158684988759724806548182454876945582798711978889)
  ; MDbl 0 27124018921013247663852131130041385004247213004076345063839158922719411902349 14742434299275927727142660579274079833950262286288033099209620328617517074188 52360867443293583770424281929581531068125542323691804472138117715167862949234 889951944391523973819273220896427549064777866582180851191516003848021416592208557 (-574753882764138556375584780071351789626563621026266507525317441231598381776735502) 11950965553731616828595202475122246838537868024717938215342737215712743350863
  ; MDbl 0 51872711193450878760379616314736061085808990046419186921684895024512648339550 23183411579015294750507387149686043064393846531115004074598070360032276605044 41843652453724742670062543070605932224432050228323914720927723170881415944214 4243760683905533854663392132498957715338400445085213453793698971878725074756048065 (-2102092059049233439369911893725866576457932936764792243617397820264821217454432414) (-8350320751966872884537009529684938760760594772500595189840619863321188295096)
  ; MDbl 0 18586437012201203751281171629390192061044845617100055748598808527069289310988 3935421342430366748289263599755985346554001235076431744452358943151280192844 51662162927805505207106133088137248990779175712689092430881600833679815346317 1215179830946815806812688007044274008508030454393948612502186269007920339046799297 (-269877156103865342888526163100422674591529675381012721766431450654717379410071670) 6822648748570039611726969202541116478679613192763798359187170814350292458813
  ; MDbl 0 15576477829430132913693997096904168821568934077775658905414611861889006652906 29794600982325397723428020513013335915475584953580058857936744974292861556840 41337880900201076661641279478766061500396187009336015668714219502916864824850 1257320464358428256509622220119894008458279291056162142480681087789944729316831217 (-189545011528634261177936084785111809437003386888182697858362912664591465177160338) (-7681667122038393343144456512652210088643877618929805682542171737463669920311)
  ; MDbl 0 2748281811805222051660139468851480052386387706313432509760980636696836453935 19800591214795011891722624159420829750659977445132056651819624410192731394614 6464956858368055261735609655324565556796608972170136379923721185624988263800 177556898342618753489101962040009844398626563527596303585978135337948471349324497 (-5900602567664018668614055942793713067620601648443123097146995129319420063856012) 523808464708082278691747628047197009100609362308543006836118712340103590820
  ; MDbl 0 24452927682013902676367960604649797194760947812979360282014127285547827183989 49625043186776377988533054740207485631331539883293791573177721598609662538365 33680545576568063242464766686149174367084193147053765909348035669429051028408 247024349669120002485611542904963531781304667718789797515142277934110816106934725 (-467127637997603851485479712442104933264954274746289740152465568834962817139823823) (-13908324497128071000750355370888641943455106219853396073676333624867823968419)
  ; MAdd 0 83 false 35260035161041363818140947210739692495953476173432378921588390139842043964109 14241976013729972822540198616027194899261149473237904815242012613325833158107 32690755494053186687528803235077547776355072477611866882220170159553761472058 (-8289775930164498516821149489534116769386677879069118136010074705624810598597) (-971268532639422204646593115315260544722296425764875052165442790642215543874263597) 23793026977433341616989224238466823401067616826329769483488614509166339053512
  ; MDbl 0 49213045451519518520141861586757369406798709392134112344506228155824849436877 35242572085594246345329111862661336167182997482861736854479918681548431334806 39749096401940466741942525690716463150345830967181538222160328589321697538238 2513686055080701061509627104191595879441663971483979972037858661673413932593227528 (-1892057450313615851999663914552437841114581359971771912165234313521264879860247026) (-19709851042667784713303219790792541506133507563933738203753354029027995355063)
  ; MDbl 0 27832351444414377323223731114643602391801516165980249279080308796041595503745 37207884528194879204002047431333675449105772734802182198486610152044821214999 28026949901367040592240937199039671175846757024543703565887126911752371811671 1728617263060809795462671132414331627549054470937516609878906594893227321603633141 (-605164767930957258967097329997427506638383744406063474825165030645611170633717321) (-1043164940374424378713418639755183621943867757686724539329854385105348412438)
  ; MDbl 0 13472013754218629216247134151541640814674438710775991982804261073359462579984 33690234004885182151075917922383241363130556451244975500525272473246869114613 27097255190828537461877657947819608524359294304386536908990126846926208873460 590025106472946331351439382473777571207661048419950608405933603381463346734742544 (-141787802491175294956716753582968997005189955732920894126469257110515521334173989) 903767431635101923900125244850162092694859787665765765722138165006830171861
  ; MDbl 0 19330831087010760840381999073852554073924830265575328712199720810964330330884 1350345160044933481161928739269964297910656685467392403014125409976658476977 50646968709056032464142179925983619400928650071785382216816069700581993771305 818491393958795148815057740324372288835519170074988878459441555544046577913593280 (-291927419593428098351117277295737614106420650614729003883068079508607395160350173) 11922313235821870126641977187308625027391935858028836183810814181000274297843
  ; MDbl 0 41288313089313640168106024506839897981328636146179774300183144535236682942944 30034778692200560079221993860343707251824041082765032298972378181864750021719 18521395179223591175131104548972889533312687189825133819717368201122511766470 3267265618779829427578559278030044062227925146642329402413639423436753272252444392 (-1331766588852805426404080678449565819268707745381440916398625518379884536523369403) (-22586289797010107324299102646022868421442919000514496014021284035703699610671)
  ; MDbl 0 45134254885947320957350524114659135793783668717807663457082315272770256483170 46843727457761898554424000033926025222300703755486330266291951667364038742044 12976578868792790903607405971387473656925213082591450101132000538926401700611 1306173799732825678738171605058354388702756222987570233272420332239829755080736880 (-1591425786545714379944786770400540166754857857136257575962691989261617348699975388) (-14468326797557818489920563494330178152347055196585217923925806091628118791987)
  ; MAdd 0 85 false 4416392771961653075088780694337691909570716620849007802748944848746769218937 14809134340871294719768766794791476726326295332583713048773903234274351107683 18760812955667160760404664751997353021426189704286356585865078302878835672478 (-1043178727894153717409928359005294448128158821595457831171949695118912003706) (-15237342071492052946373090786706072656230355695734512475597044390448253782961648) 2698102110847961277577839596925141468944368660605681827927287158940132809936
  ; MDbl 0 24214278913603426709904510374528661714550664097729545505701335495235711701246 51222559233842631075351050770099389684448343114245949669754673051032747418119 28064227513754864022263271709230193925860398434894697948328441271373796602096 709797889296176314605288125019819587328890737045566184879634190325717436706586248 (-458054250613738350235268969429258579290359294979232400005047949287467903111417567) (-16815297229485709915749146178546997967691272938453847852819905763449192067910)
  ; MDbl 0 44655693634417829779105812051660519400941744150233242299993113106257086356258 22649738869782465529542179820322313551347354192428018345612954994764919449732 960927851065031925688221104548132373686275235718456223292007986808269856553 1958245138326084187553966558836964255914441068773732274042064472559028876716039088 (-1557856733484964595308032530700700686100061842705469116458736276198810143054024356) 24333323477243841738204730565013330565452538999719201317778420659809538286669
  ; MDbl 0 36028622125353398006985358973166286737936586143912684498591473314034811855114 5033572677983604071536056000132241335301088401197584430786659748982923877454 38963344010989316156534801806661710212056326627798285944001005441520595733623 54122500006006553659626761608375150969611808093651582098676385249181771152667409 (-1014072821454393890421000567271604034749440956281204307869215734937332669163183848) 12104045043627319532982723617666863765159869140488694094174722327511997252732
  ; MDbl 0 16565381349968894278172131612415619293494674622086981294355391920414776127735 34363899004591734428350804224519574840292886462045071111108994012182538777463 32979581670706970454667021714199217831311389094577728242202362092058722480124 1008467989604113355471077492327997131165605338132656036031070285290968331931967245 (-214376271314041615376336540408443972166217680899648640134035121076288586523780441) (-9265947008543024973050168930698706658620871056887314118913665227600896623874)
  ; MDbl 0 50678666985073396996177672248529969165082188005435003541323176978576207837862 30473138635532575964244331655310277644662930802699900083706996245961067494538 39345273148876972607166344553643136580832224886028484577788280990857311568959 2611472118728152548239003569403062749321099808773789593453798011341427420050922768 (-2006430876742655331176446837633325858143242557121046606935268770994217198526861834) 3760374903703432583715438777107691776658514031473728902114609037512895667059
  ; MAdd 0 96 true 44145900197007949806537204994898456800182485092989322274638578053555367393667 10810921547519463125483294617152985386893115944181805628670482052202897230666 21583308820900673894593936107231179031196872491522414994728098446689840089986 5745159938164586387799073755506316765030965842614700478496249958170810023605 (-1522490497728746522858443265335535706146782643076048168998780830390101698221503785) 16553671895822271634966220902752984206730820028553398535382284774503822582783
  ; MDbl 0 26844971869916398988982247081632821473198859744454846127408008458628645153526 19631314471350713802381814725985875287590522740036332539830898979422188316912 8631670407863368487585318839692344878862276967241240695405217304841973261911 905290614860228684009111769019641479361889164689823021335292323144454051664828597 (-562988784175672753460774287836784017321922492350382933295327447489641833272307990) (-4515671744412526599920472738325634795776817923557999572144036308864283700061)
  ; MDbl 0 35407637980217645724756317292596823965157011274014818532486186381725055019792 26956880323320914405892447793754924660744922157270173998087519444893876612686 47415742654115121352098571707233955706453560824174969791860208915808328540444 477546525784688765861969795326417978342903833171881272607158806968882009783949889 (-979417250490402050356167234476323962126224397472944887222334254623350018390975536) (-4946632106749828705018497832712526025096868024593566418485806741537366042451)
  ; MDbl 0 13300921911161970195697152895454963791256701814208734833125101190027267347815 31828734687944855104180682962671422386501907396885410694151625894198375510700 21304344350623278797443129613808784421091373367090969993237422355890766223806 985431535148058670950316826525861026500544614728918188646652646651405795430795941 (-138209318030893454597056713642032250603952350035048984180946110049946301013019918) (-1235798091478325466133664907037223641182014571720128824165821624733831131820)
  ; MDbl 0 49121760378414197771283945239960075530999374837487533684187947609205865097327 6745039263734311805025277927103874727661608213057403156760945640343829472896 5399230016653947687129851988406176913622577018966298150006527612868375388870 1635164018437539083426629124334993295864427779742098559272699334658898158685454449 (-1885044821225755576477248129827287255316585014870433127217022352873073879366339678) 23498325753465975472955946875863218061602554871786601360266497809094171486864
  ; MDbl 0 5401244279408339312283203921283000910168830142688621654054224805939893279286 30672332422477798173406619273306639021165580682650073209512930150129235736355 43204184944271766693073416024217880613406944779962178665391160188161575367304 45567404264368858784959155535593582894333988934975169687178161782614250511853601 (-22790899981675521875342174243813041823626547303067887518147026194080601918419381) (-2464670511625126719465142388678804528156939001473802536539296435155111896496)
  ; MDbl 0 43544260181767203972064747532020974543132783120036719142487125361824430665802 37262280847682846703706302668306367743378220734870353989228509906161530627307 6623725996188495477812586112854700111362207728555271988354938627557338275561 2939466516509429076569460133837383206764219251249798958833254514967779640403796840 (-1481274917850667851552554357809981914676103954647635229283885419477191991205939395) (-5472482872712252978013599240025231544058275431468709596362067426187246062913)
  ; MAdd 0 102 true 35183257557358440105258569240461458316307160596854751336044729769798907183090 38301886180377177090673506247168690488344472654230457953883995820325709782039 42904474224064961957450868516945566743410429730682535039366432262378301832959 7366295392825358414439103447775351086702530287332373923127925031049955383673 (-967043325182331575137985664382352083235318643961749843732827525791806179040959654) (-697551095619715871291383984715733716600945110897499895804336031777891260800)
  ; MDbl 0 28690573991376676040021716167194519737437714967336713695979807493330160021360 6998649318304097920429161735736945403072410835306384901971081431624284970662 44946924768853078255510980868049629490650954699466051957698848403265757605473 1923377829523807631905822807534786599831006641051318997305563915319635221418234640 (-643061205638884136065854493864850468680242040574807019252648534428155746944432854) 17127736122671402740652158160251836762071233825261765342132644527700368700176
  ; MDbl 0 17404674832779733880005037542025798194363143882593023429250469432434695741930 45639368700243892957435553230390085503803403260884148867858507834628437127075 33118577767896135245503174491765574680550661828947230923422603442861666210805 1222280054271510702426981949762388590097519298941194642553482300182389896667308757 (-236649539815362316459726461929105761716075458206688844661855435065427996365370497) (-12825744853141628472445860935482031913029265487429311642697040363476682909336)
  ; MDbl 0 37259587749290364290249145546334693510932157154292038832541915239261938143163 5238005990396465486185180927238801662583016048150135404474499336639863664366 23939933787434791054447248088395575813381597011431951732683499358610206008840 1928148144705390137774724691644756753647956084549128331962875084590430747938290592 (-1084550870783478973580671668675004764682189811143366339926473418825455244674832538) 28708171915714479448415106884458487890913212683769845945001843354709659591994
  ; MDbl 0 10610836544310028403631587083978765066719087698641225091321341652996943328075 17729071743219048211051606454593860498681143871639625127445273325709492964558 11997144637507197893586596185933741509511957891041965136502830840924407245158 396897276856155087614417521116577730086670228195322953519938774676422083118976581 (-87957542214960291237439839635512391894393600976832944611377335670648643668789904) (-2527671303754688386332887022389899455642816260161323455572977792656712773646)
  ; MDbl 0 16232334864257301753779771508227548823465764664447947919955035880782816112557 9719079993984583482185721390306775099197603428540712588155716381797037764454 29892541869037264917279593153848227368549952404362902381352550276740247189928 304290495362242469750302295493939030798690822108361254527286418353672871440724981 (-205842867538436169732291466706057324943172825481561950180799688524562937820525736) 2479616634589698693660109659464505554888727082044121271264702266365361099834
  ; MDbl 0 12497587650570284653554408398990289862711416770861656046879688455646740447043 46132160683446143762026816208436264073884563417203404527360915378412753926554 40380619853855943451902468415554916625708800537818839757386229349784983115436 583709673508782938856444974816690393886358959845603003440431133079853047486974789 (-122018650970685397029726069206718468399991169947236366392922415102750428657518220) (-8678708346603636746521908218731638364747683386701334742838847934785666566128)
  ; MDbl 0 37518610229915208806780007785641775152440275650078053224442308721511827697587 8224611991698963140001152819147317604424457134379862068822274380247148752104 27600147441407285748180240588977323466932756636143115742090935926853618428434 2367259643870135106840765793376544029536648469732064010143604364293641774707223157 (-1099682520874954010088677467389591520316539109005148172840176233313599339789352130) 27123387173136315407020320658791469751757439418215732512300531148521714437560
  ; MDbl 0 26636456965513365974422762946115873578144789480496416234030286911487030976332 3886995543535520681130696394179708394748786676343489381619370908488202279902 49945676986071888019910165169433587579557092464413918889178400320523632664606 1148664381510494720549060435157751110811458686207669084219208355503097207255778593 (-554276862918846063006984955918228500973235638979605058165974577504530995599429616) 2203429111625014872473047364676973301422381628521883294755588438938719451848
  ; MAdd 0 114 false 37982350817449828054180589859989046118508826015627322364056674728462781527490 583591311831760859020690774554034193807521610402437258480633946863153344784 15252084208190654450764634139138766617874263512101458037301603791123417890502 7277796516404125718427974472465258725747373930360296666188577728852118468038 (-1127035297837394423061949640088171927196417048585664145938065956394144632475000294) 2392847606745767803278976137154615121559433643888771634891722548363753600824
  ; MDbl 0 7180674432128460307651048383917211270643651062668114795874840501375738633162 32296569037245879530572127157619378543101944065201374111684204745786045367136 27214120828534618874367646374822515518363660595888178898649916659159200095575 171119031097391312072559441485904086262796919168754048593953677752058433287321889 (-40281377114123234511805728718458872958917831809529693054337373095783313844400914) (-4342839087914441631803896668957230241934195214896517182340925546004090601277)
  ; MDbl 0 21669016966075082568148597094497465845362618445329323236570262201426339972786 11960018078353852263026549066282868826137685303497075095173029761136799476417 18844083060076740355818180417069838211247674840624279484625185918927405742472 921436641954883042959038282108164355230312680946639046179064584540317576839642481 (-366819365871408170201096200259986720416448841919174518217739034358074990612308115) 8404037622866305451321797883047812316505985672108083764616609716247320609199
  ; MDbl 0 12083341369152990800676000586643238454400388663498060667481917462357734622010 14948946157777828041140492328835953814441901551316521062426314477638162771894 21581672527900901696092010115896270418787191301222728185630687261657032960998 355775368480458283042051105715706290831157094601594259171048067981417746729214472 (-114063823811772354024129407346928785419451789479985012040761751388981927349225930) (-688769629397909759220672059102737002625812472096976030367406253726284522480)
  ; MDbl 0 29990378281529399881526914814836873561948028250872859093587892289151407906313 43299894281681066680943293079447851719789655378079201131321937893224090773326 31263550896841542360692874615090887452249828991957428248629108998026355845425 1011291518738202327642197310098411539104490965156213963200004905277707365120128949 (-702647853683484999151062930126305524857591587109899473012995765186184347804022784) (-16215151478566471278264002746654536101762880461042953150096189643779963918703)
  ; MDbl 0 11526755943788466386525293982920203636085656337261754840788544657130614320901 18907293794855277669944878247436767295120969647998364283157596271164504400176 39892951022399949874079366931591104467884782054698009867413154735734733961782 563160210999925118882176450915088916694002670116504041613536178712668464821262381 (-103797772197437498529612006513456565179900423556111868277256478474371776223889458) 5362121862311416136735252620831654180855322546271642537066714165627326840111
  ; MDbl 0 28525317345252946920618306029882777850062813170997479809009029696588721595491 8502851548165855261240523709443762749622611645802668641026822140547226191560 30068848684392195285926130887738064585210929738497952811760835160090510074224 1778015228835090930656048075953807872669294907750935028695729417566339564523820753 (-635674523023643074407690874281684357629007884633946087281501445133211425396146766) 5660056514665735742529448992928386134867310894338080272520885143483694037650
  ; MDbl 0 45121351338027561829911397394865926716199625762934052644497045652272706718277 18447470864898178093576672522736715846246390546933302663083774757657742437634 38110283069356736419393205780987019306945725123788618129544816223168071511711 2119842412683057887603677226451609533944766232507754177570040070701124666129262945 (-1590515963018469243347873668956364928813792291257024516301550122521954930223748344) (-8557398167086754843074670160667147070225917704001726949372672112303376785841)
  ; MDbl 0 6787963994292561431184916292788437713092953607214548461498054434773752835092 38439935630983604411470326326540910008306386328081470228483341405988439480676 32766364129110257939493362038636692478751105702965398255515297588669724872966 404209444198062098483523266339077076048136259280459766736393358348204573759968117 (-35995888387668121813938529601359791099534068982576335232973168417390250260912554) (-2588077924438379310119888597532869882424539207850774810231096641293123342157)
  ; MAdd 0 123 false 43352954027000583629218759272579840400841699415024244809829345217690616280837 27313126454381459036686712497257725780245399497340823545801130576588494329356 38732831814954265911000753219685819505620414245627786188780612739662745527409 (-20260836188575015535608089476676595269109530464593068122136427279477314019800) (-1468287924059575245882052832419647961235350988407152334171847861275569027689159868) 9199427778965837509384893328429637071641875692225769745537507379682422506305
  ; MDbl 0 16971704855014711870652156960443602768751849391364878195039690304743812481239 18527182284148148244098618127789367123227641771825688206165031136527965186110 34729576599856564326473668938929847769658723740086258926677730064440503086797 1027132804088808670250248715689814061492762173824104380197758348363671871712403737 (-225021894993513774731685675453693886698684588332079995781752008615079358406796956) 2843710548013715606645567092537178671926557938902464337090821301997147694276
  ; MDbl 0 50665863124446600510625712030169896124226481161448953793665705528933737363741 40144366502810156816204126794703133264261775784706802028901271263699912950496 22094800150221606603063802664458050834557667853291828594260301650815431742679 2749298332503133029800677752708374639613797935007310308160689984569799591719813069 (-2005417163574540857406417563837772415868605255460642404519019309313869134206060674) (-20887480052554317972652584374114981796253767541087666167168861391601186822654)
  ; MDbl 0 12381668608592200586115913095709612958211035378495375656352110763227599111283 891813143662853056615015162590409286726846815524592233218357881325388942148 26587332552787248924094955733899025628466128871881417725168326015741958701251 427530159868647672006388147152627350647633524622505277789735904888424094380383273 (-119765625958327435260427792578676478764295631383960932879084045575471816644575146) 9268694498010252476180197957445692123396345617547925287378789562291294049658
  ; MDbl 0 37598312304660468820500197003521661675540408950876147292950332409325485222779 9228549692728556211355912234082418819525213359207641732815749611935402939593 18438894770728773073740717482713952474788090373145898038047396091753949210753 1561877481690813886466485656112347426966236393356634633248079245448569125968355529 (-1104359670358014951008190292999472155258421869321517488625942524712009529746382775) (-5977724665157080583449722843549534343038580473318129857742654780628761875243)
  ; MDbl 0 29092164686255994113808373061351848134487256458236623638387888609391092649283 36069410423291664283866459071428401622673214051321402611403550025088528380593 6021958509246228272232590990274441517535637563068125982784723772073379256597 838141375008275292860152668475680159855798508651271825776885385817738219962505904 (-661189443867762369946400179140521608163299590597054052376908424311557210064607849) (-14891688907384087092335975771521317250010764843889578801030366090048590191950)
  ; MAdd 0 125 false 39037871695268402474723929955031983097126459912842995708243336147520473656007 36630238610455540723728611285363729140987232032187546735072878018585051336553 994766801560160930198998341416451328797775119716873403685149449719683232613 (-18908190531328109627715109946961909329442572864252168272614257626604806535442) (-1190545783444943781640165798836423903978743498540732043206305186929056109452749656) (-417529768321268298347871268370873876614518927211726886973770841728789876610)
  ; MDbl 0 21730809601673323024621453987544544773111746831318108876530663752241931823052 32576662747850820088342398314889932474043950441394309003476683341492543864515 36401355313500378955015640676631988145435009807880929369557713373766455839524 33852207097284837445856192311568547428039090616578328272943123261590029643523256 (-368914435927896823415241888875719324060549691419642813521972181636970832447186903) 1679908745339061607866303314032077832095010215312123891622837670075928711103
  ; MDbl 0 10024315161854699060765171796823861100617986156967033718394759779489641191915 12142935353655917025361213974447097263140957679376142254607043436947462420488 45441756850086445035618103448209398250410582701875132353208341769768037624597 570193610158957060345740217335974413046831029046665108286583308915504855020193032 (-78502459071832836163413199293242226942048736435927567696673396335003306665094260) 3906373692566879725122286261489109442680625874785105209865918533818969913968
  ; MDbl 0 10364366603698590880237733743454693346621104820358175669923560165246859894128 26659862230843088653141024633436692672342270799270540402882531030701185980668 18838606159746365926191368361363334389373856911799980920293107815387949657467 735879476500932888622923868346505530784743638923378010087056352664722026202673761 (-83918820098082369710297192565491635066564436970878317418502582404340288471379214) (-2869385732797414070492416573575910006225046864584660795063142024034733533008)
  ; MDbl 0 23987923068905683856357148173090888513188877148059935101801442652013211474734 8002962829941919482589596056487235210529043262584747222170964532654914735577 33227207278873697897244196810412406278829452423415821829278953152888125313207 706106578444008046346180778687918662488149246622961759927653278479029016426099953 (-449530466775102504925371461019739959598269220787902941233662928073134446219350243) 8535001390525618372382949712883893292093554198933578523574455476850708329240
  ; MDbl 0 9927304978474854900517526073674642308918945184750498549004342712727732778386 32162591147079253349561021628512451659816687493455302374298608963333253649817 12878414988886425017546539370994441950257404301314581867403536834381741283622 515385415710874319186628425465974121262038753373144156756518256768315735237433384 (-76990398009946408753809563567675202437350259474642835186123109274865221666254429) (-4573967682808725885510806173159238731111373308479989123858428166248425739613)
  ; MAdd 0 127 true 39747845481954089960983207021488416496113080651006989568404800252441396697005 20080072016572136392774220979783969079465350960535980870196975587613302366480 28222636731967750474121384512385777379195444151957744115717261833422525552826 (-23490771772240643429136818410329878814508904092739882801907169091039945191676) (-1234243993042250430389350210573339263387293976173987395039744342599183468900588116) 9158884100402457032111985160972749053921914443531709775650228823076563213749
  ; MDbl 0 3290331087598691402726065097769896135034317173672813500838111681924608585009 21206224202604804953495998514110087162573024362919585591504762919887846246098 37456062796122720671829108640138177515923348870920353437895692254035786333489 145114250702912281396839300042633104454123728129650232031994819704364258793083921 (-8457714833472500345020593223506844620396842104218696586052904273548512122214008) (-70665618428129856546814428962923104199605878289202125878940911268414614029)
  ; MDbl 0 31643671271723249950186103117818728953425756159467000880326615661408674829129 10694116195105874938733410603196554674541607027033849772718752444917901389509 24339038882549050175683112715982948613578435439615996163818017840838530240472 1851905641241857129680316322003583833381950961348327254598452052051526619841304541 (-782253590068616595353301646781308780363939359522902209362427283486995003252697007) 6343780647337031905327749458966271643073501285188286941661807546940124890540
  ; MDbl 0 46876428156366779740658391617360068455200901330329397335324848304059301948147 6237381831014791686421771320788392922723946580217857481073178053016685722321 38601973531984980427527373372478349336874377023960529174287488411051100446065 1782638833474286433636896263059248503719016513772254070439349711365851154616776224 (-1716654361187400063923382506223152691191089544594145750203525579209079991842038529) 3984214767706008450724527453445392730702698836970674809723106539525934263123
  ; MDbl 0 46226837878694621510091873278232721162674854656805698448593536731856888576734 20329864581751125259976759571768901907845722702721611983712950299327153313754 26699257227476953777545786485833859868673348516862010722632507122442320201936 2788096969021774597300801867930101382382533817444471889194377642267575609401857816 (-1669406922626568225560037322573885562473934904629712948530829225982272023115009934) (-12423763563607216139069200048681136452809620251478364231152974090050997689871)
  ; MDbl 0 41297350122580992347565592835228135177976043448952230209325867644725041909105 32538398483635506296407123507969792475515928249236645674113212999539420926802 31850118751154213087109683050731589865974166062304492596479976361194347253872 1722785303716533759285498393974170902939376192293523459041320546552177278472761045 (-1332349636944592660940329502301747218507164999376989627452716699792240225035989644) (-9615174674698386027167857762398304622362827713273061459750307374662737834296)
  ; MDbl 0 12717013969748084979762856257758218459194273680038109854935874513046170851071 3597234229777908106623709626417973861495556500054960656474022508430081612600 7954194438116842929965433056621342523273313978187951819669697105910450018457 632909483898950325865272339992358702430542143085919428952359551710923561706757269 (-126340948567308797010778223685330254063850557316911719666999774449278664751516130) 7018957705728714633841639288536271110537966488896757409501410983503612769501
  ; MAdd 0 139 true 23368677545933462193121190194546793734253187517025459444204196771632558254549 6927144035251944791497120789035241058142298402653231961934013316031524113945 21591944602444424338538837079304980759177512071652320904022602901910091890927 19895916935366792209831502802115011943781645181681967328316549401927251868717 (-426620881259577855338020428132466711610417904901385959894059733919314481297084105) (-1484014298250482392037572092604885883759217355393028997487921828352766392253)
  ; MDbl 0 49458828607429776118338631117663909105151985018217947299531140363558255191191 50338431242768937398612916579891119584942325597449342337781472280996436634506 28007565315798258369012016104994448501827888279879763099115542573402400130351 1668553476895997804849179637408599116488651536671849799124598637260712769185528704 (-1911003528693609446168666746401133936464669994357665733413293475525692216123231234) (-40946611579451427385403317624216798074875246917694026492076451693187272558533)
  ; MDbl 0 37865596213796085695913526336173842315416344637488441279294371518351711277291 40476070795191437786834809971614603041146277056317363306731296980676880837798 30680946827191720118845686333930537032720666694572589122573385461745845215182 1657150623843515320798854505238728985320674002794581825568342498133518343266366077 (-1120117120653670749285920032644417185099782429325702164578032804230543520561111712) 7121920959183916582423771555578199531174819602189354126368529069332546049615
  ; MDbl 0 35118562352735608545140115058173551405636173872409623099364270675758568022707 3884700627792416494806632685986852131395851197673937520778399470256631255702 16670174089812839487375797976288993655928368213430515322618737668443597468746 1683578995720386527407663997708297360130190870587224950457012717026184150722145749 (-963490183747820326465462462085076477688018254583901327968973454085650629171859592) 24506815429399183374889056180729060810436660917229420642934924639711121425688
  ; MDbl 0 27869014829403092551798139090532135631266047402976176748805525839931601580231 27282306819854602063232297600497312455185665463674908784764229796748666071377 34726444410733479067166932570500729080283201723445997863473032020278103849471 725882122900539449112648953003748485060771128104161380237446655920694979101836853 (-606760177687685325424259172152411390117978892265311819820044827730262055469726019) (-12435536391093436654614757856119552399900621369910064586499854753113500608934)
  ; MDbl 0 44755411506498819814182119191687447462135024196695691294635989783535388041745 37503975192530850266414834996776903977842865639812830218125199422221209349222 51176986684208462441780346680736154784014710283922371038012651874504864635440 2428383769957770552969481865432524643032160235974983076348252998494772648218789792 (-1564822009030810117217400972962319483064762888250765237604549343567645232926806926) (-8724465316430921591892960518244333376123027061608056034012102025992260391572)
  ; MDbl 0 26422962404929537309123642164608635338401456240831543486926840727045470535002 21312667408595003308897609097553552187002591539093937105366591650537735563085 33189468241685638945212775207083709710236056303927547702864922221659967110349 2112888556742018755066568478016635683847062207315995760418966000743876914919965317 (-545427273043606584515577434424493273859244330012979106784202301274720119272386219) 8158962073823158624130967954156110272890861976007205666834805394691772016845
  ; MDbl 0 22969434246798011586088757502085970746199669903678130339096257069666197925173 34727804801464215898628658216096097354691554109118220167359056425172603384938 26616495221214182513245730040570355110445829102744161770000836990656660558443 1191142992399398339107593287124555233039105735176728395861877124664592162049343544 (-412168154062640987849050946417059776221340889911870548688843643392884507076884202) (-5876475127537129501382413698702659728785005631555650847655032756359278698297)
  ; MDbl 0 16777966479180301248221794813752021952590548361485496758168647344136354457011 17021734275785632697385899840991755267016075714465893192067374560242395674942 15258906968486762426890489383122632372638628091565209054749667971283062312976 697809645583965227352920585202092998107731118067999943846741375660156082094015453 (-219913799130717116819973216294453094629937316287814344542343653329443170849918648) 5665431477317240767902287748082187032244002909709497927639187970171588843849
  ; MDbl 0 22577920061312166532405856723308644994097538002332191483672173559756688660018 1107249311032237925084504432476123174426368950535000778189447169215074400971 25301098934969345060166830643606721752183937213156721872591407567918686175968 538300226565699694655081996068263239982746341977618860124482131856125066001678085 (-398237083433407650783331222358139506980837762936037057984926284183505574219912281) 6852483498198650999359867075659459258852958613617911828696828930318836810118
  ; MDbl 0 28771574422307975604281529623047936705175210732493762050319346727910967799333 48911066554310436631740339973921715147903533883383190080129713127771777026229 598255079006127260589886434182226758960707255650098525866515252069218567585 1137383363626267187262858858085302677555503396529860470634774077723114043603440920 (-646697365977213855849226133106561655885871895642650732185599398746904656874816433) (-26229963377016869084547943647891583620379864639436264261011499793435407685459)
  ; MAdd 0 151 false 35071757811577284888890302958880019291713750076950102624907702458068767973866 11846552812435516471614591405385176060572325367684699086962906241725224946737 24021389836978975065228368987560111462662465709774505073113710716387708456791 (-7767967589144214088586940458425640840393445437134125563851112238157818402274) (-960923696847102036609567202358211364909760511968073650748844967155972051301901735) 24790616062331928321465885414649414868318332436991655211326554021872067100592
  ; MDbl 0 7075462807593923622654034013334382296292507397338580111044077875498441267621 24821681355796479237147379996438810847116439220638377765459936766986182894944 52434703536137960725970352688545852012153509596044603483618669416402385613318 265564455833403338785821607076873084933831476958723083104318936414848359330817408 (-39109615058324540329533174199119716198293186098720586329514125873829625751834408) (-1750805896262603557024439436076877558588699615399041915817289674487733785512)
  ; MDbl 0 7702473400334018955913057385505833335111611572183865612927911210903278285708 22086074597196357190781487815458732178607050920368704248298627097924447469272 4894011304659892170143984626595765334344396269132376006768890815396623833210 631069390134465125000682004053076388173096011438569063283643989645299124881042369 (-46348347123163008067290275138261654385841113112360542627283449304403131178138586) 401842025550605243127167565345122876009605956104873725601277542329386672096
  ; MDbl 0 25035917178664918740522059305505541418191001419499266978811186692290091644772 29801388589704052769774715505861169609457193661056237802348322217288982751204 18151395242480712462804983763815040667715912869054473006635302403578075181533 191467740989986551737054849436657404096022049896284243706079654452116212818389857 (-489667013756117294892409038226992042144322827290127284230994688925843982040728022) (-3683736782855219759286755636398731254645561507757118253629228766526734624519)
  ; MDbl 0 36271695574210475093857060761395918459864752161088790081148414394957266842048 13761524980501505647483034987263938013148775867398030110775414954567452745892 38520837056149729443691458791743858634076680143925694582401559515349015554254 1028734145394695531771051915475357689707475166527858113957618437600375227983986369 (-1027802221676805957521154775524334107654971336018564335579691680364289270708965486) 11095324488087016306903377395115310066998928090536935666568312734962371188053
  ; MDbl 0 24493191590023811144957275682703895253028137243121228514084892884098141363378 12462790319996404652990784922170018182304552334636025740990149506564582596057 36072302690249867487198474457070337581379114248668708214901737276132001989125 1474171869345194835849145010050007385356109979928250158646521121423551303086700449 (-468667238435149008302703325663542651677244261604325506625484823803872025319992883) 606648725860222392980930701824834481419755837237558870813508637712022239827
  ; MAdd 0 152 true 43485463312534187725076843847324748945593376764822637627862820330070960084340 26190704421013660464641474271243031343002700817157732698596451535779398230296 8783696362816611834414162134544748088389474791473210263943205157746958461041 18240838337071890329785066828135004293290688288583472757602504635764246971713 (-1477277351857366108311633472926306646301589758643505978105292629726664809428554718) (-11384661798885861482131270346734360972895390493024972464708526850730158476802)
  ; MDbl 0 5453909661621007358848400426292077846197789197536073536435584884177534826706 27003788341805837614330047084632274153170698041743901617194024412224589090395 22568261752815706215756845023000237741338109131383260302426867578562678632532 74888776823175702198471494245932939347710962859937519647414526944729657257083057 (-23237516790003935129748153220074535463619916958088916060849598066069012318445981) (-84569700353179485900492226941092635154146394487290829162705129307122262459)
  ; MDbl 0 20742261930949746482253770885249899599417444492879517026954997429530234632471 2146512742839644689104147397526227365168244248958819620989349859418181027132 27991344999967732974807713267586482855579037403790293757075269022174545494037 731446941578849122844410727070308545955791280720877669429079482596797524442813144 (-336113584071105578063431023414387327567458338168383183205474769342341652066869816) 9832888640488333453215405190993351228882373722751123356946045958106707085408
  ; MDbl 0 41908652256888068297800931586091246069539177577401824422684352364904214915603 857625366254745380660511203430202693494631988378553730303604892399863680183 16204764135248352894488981142721822572739982174194964862434324071233855084520 1832868706139153501803750263317333716513317851959369953226777096837163603409150873 (-1372085660598355880395970594378111032860919266389039124778537555788704249550277845) 1030125513938450059719535338898308888420838141388054727606621996154698460130
  ; MDbl 0 2426236862140003514562305291478143085699362899809586158900305013180110217955 1734088097458357448499247928644620453126059512520448635390053004792365348680 46903663669658075961673856056186732411919981357207661890465654100985098076075 61429932847309031390579519294144415332325233456460767936212874611035963889256720 (-4598754544344305725260775645538035988161778936049376346985713829043679076132316) (-40554413931987767349245369414600548022127028156276639591910956656685340710)
  ; MDbl 0 46460849304413309526765685399703960891412713383842105434019737375671527111311 36705728126065166282844214891620471578129955872360220310395242448434795270332 49958782950523677169127958017098356731083900677449557463515087505960507449168 3404848288294377352843950366202748528466798836441804436963802345192490493985463817 (-1686351585963007873127031633392823319857099041743370796568809884522266706764033746) (-30986649729230519820831234795856084587343576366875061969128393543533723475655)
  ; MDbl 0 27246802534278332421700754993949619867316706728268861485649144504656291379567 8096443305676833150322859184974870168628666891411700715745504515097352425721 23506333532107558192467638771287840536986751486482494274590995992964689302729 2126899486820226142595110725759587966046653023713035082265702715078812686210924193 (-579969192914433042546837169402155586332259669205594152473091564429882695822846711) 14865996448893474854966985705363484979376886512622430904431509807199877438580
  ; MAdd 0 159 false 46676145196745781608133553726744296582964408839618821125666031208510278247053 14179705289007914304856448272122395929295057719247638212475830945820608438472 50465885930711859568231246974945713292708318622326603294135062817831571032517 23465966024833112348290211102402214528878377572104432674014860161494153706943 (-1702016636479745586628643328801005181493883345319155311359267674821719161036684050) (-5415056364664212588007061281016036542555933700990308737069957419576731472273)
  ; MDbl 0 20471587678944695145411419336336766532390754140659212826510969557770247973316 33120233263212153635514843958281838141892897874365220639681351154611114100347 12820781642877371133430598572875691079299158108820603319804628563199658384124 1614196326590614470225606958164576434742891686717770306178422454419302600646039169 (-327398652852726678189561407072504179695310798562215974024843535562210565497987149) (-7394606799532524510558410434480011523853608341027878355765348968455603121357)
  ; MDbl 0 17060867893738442005748962598088746749412614001745110726779078891659406263736 11737781592169560091824305390618874201116035452420928327022954439870811791837 35312382211197505633698015561690457640470450076544723179804842467808768824148 341821362609669641146501313019583021584876040924176103673689195314290618893066296 (-227392468787651054777212842847495818081190926286324407621805817909080077924360149) 6957129674779506700501131151469370023826626022360588723144137401812669331776
  ; MDbl 0 8462212120039913135192988911892935006824619753622530887921486183003869906943 28571750113080325278904582194799170824712214437515493699793193444652952866280 22212474851349109327966388797707525761843014616717063584969745080144261728687 466898080341206324922247649247019030918774959967598995561373664639129031038326576 (-55942471781520774984624325085315141925490286335550221538830147390421707005563304) (-2716701341786627769794976864966932962926943248799287072744432217629786654968)
  ; MDbl 0 23713484634949720002141481595183777421799499518522383917087975100541450810907 23316159221339425770479127838601066982700642954560981391770588811601957333263 29545174275999323392363266362181883625610002159770089261143928311067136086485 823039737718812557755738321759436709833573257168382066705234306015947115608218121 (-439303426540534838805979780404544529623693609872519294364272458191788997888974917) 2376776843003833609343112157262893918648469645288790215282950587365469703519
  ; MDbl 0 25654629697781272004171654262631780503224236125434032577148626546619406172522 5182174537825981376505125125802158721237047436134180768776401110238875722996 46289855293756260109254236602690669288878324919587699334859584272757204270378 1184315857977708146447462930583755117442461446118882577172963166631564671392680560 (-514168346979995638641944087915997395157925378986816100941126737780352473326163620) 8872182650657077479078728969325867721821375887196236552265469500728082988847
  ; MDbl 0 30121270995525857113790507924028168012855949316097382728053122842166222611364 15823360416930708641974598354603376789875519339348034782870295680659300354308 32361546429270901275032206855887747870232232179624296779927130102526761292512 2178528545933131033490014609001803042440289392136690919574880862129858603978429633 (-708794637696115497973666268068304277517563451447003890502834563322501634314729262) (-6112724208526670664915813317281451513274668006977487933237170097769777224266)
  ; MAdd 0 173 false 41380919409332815876027372316053780708876952179525927433802638587941484593467 4052192019474303254160835381530078284054235249208431615102659907137913311542 7761227539865947009759373657175213437145441438700911850911133960928728451108 (-1490847694690468911548759587459240707771775981583802530968496421782010058866) (-1337747376308170102017506321104717690561686498329630666830726625579136379347713414) 9289475367427327016394863869014212177275290778221216819171543772874025684854
  ; MDbl 0 45243774279160288759377396724850873426285978168816406274773955319461654754324 7060312594963180733241072012055738661352582619314189700174889334421693990662 9173912698904313539865537049077727671152268554477132312965648111374397662568 548648023393822444679840780690168479702160245604234968682390439880678764386058629 (-1599158425484775023362822407998405907570086614231696062576806257254762752068997044) (-2595526972084889777195724454671374602023293654209578506079835822055511908812)
  ; MDbl 0 6387469638011805528690032561761312999641277033741167815544977099377124182604 36577250329517281177130398594000615999143241021756518339041269602472560802994 23896708047458355359202477234276828270521253514174435531356529992952512573374 91558951754801375262109924256557126540570580895765409232790445659507363939151749 (-31873630528602164014687417154986274937162992066748600047298727604732832167396608) (-3595602113188064136367226535705926553299411817233646714608481071326420827190)
  ; MDbl 0 45813929098111951155670136138758669827958261907782372785497072214135977610932 19419037533950848425639421901313004874774176811075225712743843607694186472872 10747160716371208217445223508292849197839683116932892798315369341796895461066 1710641023255381146459719517200968584191331740138606299603593093130787066433037013 (-1639717060294005552340300280139845425084118671318520916763292644888650287096543566) 14991361197672735010666900033958649360608611989215378623677030512929758003328
  ; MDbl 0 41954247725763313663569130339432028919644546016421463543063333657173394380105 582977258978633747200627656137685450846923251965309150861407303981267807943 14630378001575751883821698709469293351551584912858290110179068881731216685777 704509435422292371700223540599925046613408183638151147373381007581567548592250417 (-1375072868152417413284973959464304767280291697072291932652559628382604554767054173) 15070841028480877979962803417520232548182618480569951391060425111867137479054
  ; MDbl 0 43450645965174712604994670204390545264177813580834758243792629012665655232028 39200248779113691941429624627202235275886807087396067747377932238691386915635 14386745852634105301531637683846778888210791742085221577304346451608078770413 993243256283434217883369547425587044337219740411433483030156158175528167825210896 (-1474912686348435693077744567790634996874533164416095789197786279812714342950749443) (-31999950174539536855024117285905083494920778080594512157907575754172075933582)
  ; MDbl 0 22461476700047563725672586426359876890842182530279564676407503011668856242957 96244347734421470476320643569375985511259857604721143274464052772520818261 34044925748670815431215008524687058842607004984366212293186156870191937434806 504987147066442462393994599272614397259383568943450370638663392318803328954902928 (-394139940312125104926737250578254874348589523411596352492585062739330928020744033) 16750625053563214324270709872029050577173814996072599403905356145886586684323
  ; MDbl 0 15144222688511572569470275500393211939893767988081072392024059762484259472807 4769427032957449146771868716264719807117739602108433547889873440778676634040 13184318648416265313148090802890052487473119359199532755695493048996609060500 805569863634247267880437757885003295093866172255321515835061682101376151202400208 (-179171038410641996081780460546909499215165869991025706112288658691231705692142120) (-1349681282380611915116476439869136399625390589661797194215967769347324133343)
  ; MDbl 0 47186218271866098181491304489975383294664993440783369914392342069188287061699 16268333367214868229205583346775542400608124283008725716447230018448848571258 8183471570456792736605343996870369195452445952824275947749331024184494284717 972024646141507983430346435397209300390871883280151406536879391006224801855732097 (-1739418885852046543735229214266541570997522053214482494463896957537598862605562128) (-10347684717073256403304714406191733692088348320789168913392313280292234639623)
  ; MDbl 0 5493874788079654207655532316617043098626047649985505888179250256188792099820 9269670056406873004947388358152004464764695000297952502765592976446997058428 24569360632719755939301166340956034294364004653907624994949074767689595143722 70260910216007181597725133784504029629103122520701405505422534730737052783813685 (-23579324036738114667801145519838944528995581956878623590313350437323241338998962) 733272397668407826981962606095980887250692996858919296700140484285289058897
  ; MAdd 0 178 false 4061086793150265076303966918993051957978697057534284622552424246787310798428 8292601955794900195326819901228051552556161337764696774490341926438098441588 23206827478411879930468259018376271891426684473269645947323926128534264241338 1298239850733008322316651629911834246552471625219339994210604624011644473807 (-12884227335030072952820831870152426100304548817137960430143972950163560303412976) 75672587634924471295488809270135919035856999978226957859270998236594919420
  ; MDbl 0 30645697009512619938306747321906280026767291848455326040352683988417342189510 19370794486332167843277213014948234683895440873537487441459468483711695480189 43961796876156094476770588934095422594107149402082258852196492134758346253849 1111195942728896038161902215940862655932600208803450826894845110659085263578331745 (-733690411571034426497260626058537760908457643576303702285505247555967221810783479) (-6474554502428479006625221901083917023796190110408988783868848084146984276169)
  ; MDbl 0 8393876486534738420792465931832648578376053681878543998619944200940817614039 31719379696643830343376667485379362410272538301835575703776614402213670825363 17571992461061617887615587273133891024497395610862462511914050688206817454966 576577926931427611731692825270587966978299874233252854379968395770659742361406216 (-55042605731874718781019913794276970811548870330020851966802744980555327680670419) (-1976747764629185380948878889954907133391227722964055501429530516520581280777)
  ; MDbl 0 31298413282473041759902736184408151255154368317437082143611994949619227726571 20842616151634975536536288257016310650365886438001603693982259752774819671414 47312416848953098197133480716224559589943706683784903457630742545840079663389 859362211765072841870523899269306417016909276138930591270921606312937246260037656 (-765276678147086801576841741727886697173738134154771680909075300307544763987171202) 6492223872882168455581581022035064140759634188093838739438399700058190350348
  ; MDbl 0 32279416028023233268561992070501189197989430293605551797693823371493757563917 13321689769394111937486954290631462297072933229636273583642041390387012553959 50690945551715860819371757450640825475158956381672938690801353299458484036596 2386212731318309137896548371194891905429334830579065562733316501908047122154037453 (-814001443397242678713451664412253029770904727011239626060131463924294824371423865) 4629866685693289329586204476297595186639131647967375963151579679207053811250
  ; MDbl 0 1945958225757682091238021544951953795826019879402342999413410965174806989242 1585134054503257360492371389924832922773045201896698780018742247415226377128 18316016074993773641112255066093940282707875876559486724113307793064194924791 154133254004510817155169693406558935496582338381854370593154703666771547331000112 (-2958290796731990183721880428517761471184430604167285691152615501900485240179208) 435557660841506652498106873763106103761262888772397590239269158619087022555
  ; MDbl 0 30436621647804679300558163884354708135768452904850796652546838038439425396271 7325801837171465372767883971735715378206598201545864928523249520515762864211 33549920556849317031400996602253038212315633613451704572107929898132718438651 871026494872578157674179443029597468173412442327553721952495595887127696159564841 (-723713589944116840553201073067092175632186328369117729235690438219943437747223081) (-3332194470355639996684591604176225025772986471897416673632524798060099569495)
  ; MAdd 0 182 false 6411727352684099394288593892634037993845975161915859573007825374986254588409 38828359634115739602392114411914538809405716472745581113976728925728479802304 34122644363067921019252260724400070703291226629005270514192216804421851451368 (-752317484106677329113433815090306182760562461643912692999941589407154628549) (-32116183412822707878866343498455973200991158282349938500572877576285723832450270) (-3852053786297717749328096585370267900380966901408454449561373844064963822312)
  ; MDbl 0 50286812923807236637208776101871677815524223041005868210596248434994785020649 35023590925193802133383697050443293265200729835313376054975444011621344095604 16766890477444543663661145631342745886278530914423736188940485446186868855506 2681109775240443146479008828233656502569470973425041348137873253541122662828757057 (-1975522862572283396727727697020533891581865736094967003537693181006045872005543226) 3648831866444624691439163618293389150656277625420063388425100161435701874802
  ; MDbl 0 10980506203404239733444743610846871719653871634438939307874535452098199507347 19239866920019461778130475376560275237078211722712174195250573568392886784280 6414282097473951988356668569643451793549010316758969629003499551045356801419 287729680168228896186017236540590452302731093032998659339057449127593393238519857 (-94192984949977702166123521016315996713055382518295584991787579116010528150164902) 3305242427494587280439946331708129601547020676754358477495938699125831386231
  ; MDbl 0 9341946987826387213083165045335944823566192177688274551188539009005546756985 49792921348337182731260475524561892651972214749430615280010741702185218298149 40275656629024038127121730910844049877681951062101696043814194967550927895327 93645630165280174161777818481684589438038116680786923300778224402917340975798457 (-68178687043383642186297245042221894380755846752855435046078930903010831669309467) (-5443315551275749249240874908799390134361825434509906784857265962351190519247)
  ; MDbl 0 47435953349466588895174962176152739583216811542123594372138104100462721451187 16528836203888995789225320784777786895444233126822255564557803522594650848737 33354810471104307004141331645053929875565906591761738239795300389178588294141 2985208930296736837923774048495616040695435407265927330364200970451488798791018504 (-1757879506370526461908185541598454265300028283899855657736413275460208151200085201) 30092252410297096163747718043597547227119055193701827287961854487799831978352
  ; MDbl 0 7712725084710800328050092809598441850330696880137427611304881781890512166042 10937489319465159050010575255186835381640350822799790581985854846441309329332 30411051646788563973930159038627843144353471977389150991919343978669163605653 401963898003261351792425464196379239853889963219239924873460495106475136392513624 (-46471804823903905149588169460256399543170149789549598128263564481113071907448328) 822423984128944666343811231545386918078468034967425476670448305802811541632
  ; MDbl 0 35174861768508111699287020094469463413671282591562709970310475889280519960515 35785712465409767814294567015730518049449425421589503346226408723666890978540 50060370293014213993426922485263316904644400089605294706801510082650706034192 1671357862823327065963100755245375078209805124573108072166747124755580897155257977 (-966581848707404792210349954143287295088416823432880093507820800864395815445225082) (-16668603535890958968504739986430822241966426133947456771303467281798951433805)
  ; MAdd 0 190 false 29388611519333102265876353197621616093500603451826908943270010050711600568577 48190313175232908273494780830750082842901815448571662395595738727849649346179 39657614245319505544898976960768879070382147364254021729587279885465846621224 (-744108450469615119265520425637620702063632115571619705398671356921404221253) (-674733033304178696789670130762410236105133022676676637073770952857129812377146912) (-6952377357980439179799285070689211072398056600802005262184519484148696531663)
  ; MDbl 0 42939686123983339925987464973968304383739551102495612829499904423762147375766 39588755264749838794281373137833371148762383626805725839456278229029201375257 36579555431960422396244227416287467529487456557346068800157706817236678343436 2660792260301467023450080084171242437721731290509840284360296869514827189027826344 (-1440428042251959821182177501676628842458979576774223168631572573873371970482437297) 7043807233499085555220036477595277186275999863074603925681947882392594212584
  ; MDbl 0 21027047245636591918744322421925861945347428293055937466648134070226125430302 16347794457398319749188947041964281096245578961967524150223931003461208148884 4626539880109209913818080957564609172673177021971119074424274390692448287819 1201857418784640662102715011975722800322150633432810885369606897606963929695535864 (-345406429632737667965507259411345519214205087425033867163504849533649229851638232) 9319741098971610318314500977056810617648116471938202162151816732597877548607
  ; MDbl 0 6030827918185204208352272463006485124100812716809459597851631047367583506911 36638190336736947499937286082260863825215863466146435312790067715353928257876 50070119072064040091517452575221259983315746033453451190652728641895225988024 43610329965935812547567458524013987127741608863183227463525427678884896912513449 (-28413694701950294608396668695554511161852985438692856120378011635226142111115650) (-2333667275151967285319307563236167680053918698769865519266781385119116743235)
  ; MDbl 0 28206122036618277538563301493877277553144392871977452476147926701748152421353 15899029903667557504010440908862492186294444796917601056101129561776794708851 35073265035957662729418388539654116534004473776557679432242132341623198611221 2206688095453013832738314002940577872725076408789673726544908960870951848830821313 (-621527855761928644939908430649956745245833183916584354972760483754596194225845857) 11155936430134211226671121225877481835318480124526295695617734910286040881660
  ; MDbl 0 2791936923317396176561500011146993330465235685243184453223978204888525061480 24371436087056870476376608163046665066509430441123543535593663094405489872659 22680188060496140823353230112974077424351654332289331880350039128620679808101 153012419136323965313731732308130631949205562366490752079591520878386940254812936 (-6089547761803304400029610800569224516778357212428995970597190565397043582840571) (-451111449436970621325134455208949889101510354456216386951679020930836452474)
  ; MAdd 0 199 true 38619337564247366281977059277837471182084972316306617696088787696727298019194 3381178943633608785563194067386445837937093487519018634900246187595002991018 28059079322754117855624001101076094863905191273263998940039227228379723885961 (-10089842925492536921356271476859480233004399060113078394665726490175818353313) (-1165154392283590179802109099933663016959401953643208748869385024600406323783591879) 15459450680948165411092828404719753772093076067986659395874949853373773363484
  ; MDbl 0 33806980139069563464420010641595848213894203522276193333154035167000495081815 5484744459458732211587891900585877324859406111673731907583635427700887140542 27299006909918340429117182643906403744952102362536586135813310153244426144904 1482121540377214229474616078813299603215872361877795343332894861109887656694770125 (-892866633122388530756994199144547999272279487609875651540845232860668711571425880) (-1356231728319969356432447930330982716427275581293782857472830252011534005725)
  ; MDbl 0 30787625086304005606774345592833856452938368066808568815417173803291050901051 42200490651311395932471864471393586741708522924975508533191013974348126658608 12643296833968518151109405393651501388588696434357849931732951671013191151294 1313189613798465096020735905720925744338904655228936159693274598048910702865941701 (-740501964810576411094663879738148382240345352139720055999644960006995050668218386) (-21557581040525342382654322120933940182143222159399172524190445203056837324428)
  ; MDbl 0 46288136462539200732074696674519962099119895695998619760118762536287430696842 174836712953834579779909210296369369512454699714544366559797747588811258597 27135808146148275790885265805342494758816262605309691853991164489357544181902 914496932161120884584944519012096593522769620784562348023641599736987408480812833 (-1673837255013855772273367280539657275425584780507285493874089277572735398611530967) 37098440675000354457169235947500208249250480173097578407281105507823569154082
  ; MDbl 0 37053751919001246019009076586553114631181803599206316714139754345302651036409 2486759424863096332215319845822860247114474990805443635724715725622679169913 31305528736485184646170461687600096573240394283923395418799022946863601489404 1571009395079377596839909496105405646125878620630379555597460659519307075830517520 (-1072601044519691882340098710978756830089628520401669947868376469986697116327311881) (-1633717570973758671689035615567753496611180007454701151941078384895135092350)
  ; MDbl 0 27511031520948670180129256662112253508923305984874059499949880057066729644548 2527045771873590832446462601865984319620133949756806919007471618292844083377 26495232617367240674002658747896642180226711426498355342185092278269208850305 1345649220271144780610257125998440615816344054374318737514023211259458987653958392 (-591272370659822627139610004860446256316917219403704494655584959191014743776620517) (-21136654223239503281361213651843205271756565623574491413721520339512339037)
  ; MDbl 0 18609723617262426297903173429894897238061154196726092979259129726721697782655 28979029458790857773125830074319822831129385734037673242638830861109614930779 42035984911966191523541504490406814999657895248372464915559211654925983434535 770391882756432883724544306432556370980409742502460900197998409743008053121647072 (-270553827983105812009648780623133608952463729629810888805627360792423750116229315) (-9387925802664549992497554298898299230841641998422977035602559650595320055550)
  ; MDbl 0 31213558571027581917685176473913134083297374521370484740557191789749974568079 26618361122110889795844086151962904803649059105906633718330331489514239214502 8351564849012712943690432845600604517544455330696202255309452010111711295963 2050116410686042323781709355526025951312150162542951920680422171673130603793996480 (-761132742563358725949861240448500995905942803844516404875459805229804908687964642) 1405237523882962678216720998315236129103766210162833923752055518154682149145
  ; MAdd 0 211 false 30942021784429732472497517231545762071304738176094159215320931943962820071673 17266804704061106350701889056395228481740542095536212785526040117488488664614 29186995811631791134749021759839513281244542295966626875819247438444636595384 (-7484811169156628172964496479940420659443903155870605694786657313310793894221) (-747947666589180997889292278881979599495198118667800390233014376063010987306135416) 5518284217422213029481977788694755898486324695600224521234698113977839790829
  ; MDbl 0 10401494261495442686802644178380717522702287725790046246875247112574526236543 21333490774872372847607852958952648812103717104906588729298587465692153064561 17393787132420340735701834172456508644328895142480142432428208657335009583737 474356197478351588861095709015334937084317491119079184963321615942812535910316997 (-84521131838909421500562349361745791779313755682767879367302427220812886904392899) (-806692206196118687719565386236649156434376164024731568870284866455397055334)
  ; MDbl 0 25689024778002676497076634322066445785892444271482864758531304881076859941989 22191696008912551410980874105743050029806604373541695048519563950641577912198 27163906882361379806842585846535874877273299822109146244957760313390216552982 698170988085100144006739193447877563688628044821061820096006854106738012399254864 (-515547958907268922894616610616945641487760248384229553586887318308330660668260302) (-420446029521556028072660471119806940813754927406066762504183975039294756824)
  ; MDbl 0 13199472463737309073363221732855935648071969519405502313538082743348481957242 36459554594804125201588044246732696171292494203614071276006295130793144561819 39953365072240500828646617196633719626348914307966636398792954159637109170455 560240475143408306193245556436943502100590646161902693705763849761928420781805669 (-136109044498323432077408695606840083338853778007064897260500236293272734351857721) (-3591590793364126311285475059079507395303800488313693497397217471804501538863)
  ; MDbl 0 38630652886797441200397677642476377058139451268412059788948607798747484359950 44024517890169099749132491636180363901179571125598770155398101542783439988534 38095298226425740977073556124192968166902391024955757247163306009902496144580 2411587034300097259619716735470029029849342349898827178153451149370254964497731080 (-1165837264132090547824826659283867485407489930042638720787414032349052040518376318) (-5573273454263545507617205238718708077830192757295812683107893347642936367445)
  ; MDbl 0 1393322696477180616045492573294881997608551578606086962102583290675270733518 19463200215039961756802233411610705679214036809535586407313583919396203908923 1529422047500200372871487799086273315168181625837766153512441349643997809385 83043800603540042587938434181066993746268868526866302387164993010157519524825285 (-1516621679312899114029406838675814144246028827391442990190038461684748365165753) 652641750668772168906824870663053311874747975951852428019251810053183102541
  ; MAdd 0 217 false 48604506922702983065899977091579559126688969400587513280084216786530657671512 52083936687705858010245573355186428329967251429393822496903778704825563384233 46480162694672821128041238738152628878556080890467208924868920107168107758657 (-5124980017384137227046489198891208959736169226817363760924675111411594828215) (-1845554692595522450924409565652490456124368606089266449812738409648298418462541516) (-30237214624797069480220097905701752280916854863521433491056036066986388775674)
  ; MDbl 0 4813745979587069416535962313864408855181568047475306627913578433495494769679 17955321677133097029316328869090325087909101249314827279928216861018741720629 14103850474681623124747320670729600257890087442247912565157424814481949422243 349741693044443193778199518517921324260414882362102713471247020438166561942862288 (-18102567450482485814490158618325504404657611785299820612259517164100417011924237) 3133093187580694751488305352867498267584024949342566270508551112214882790632
  ; MDbl 0 18747980881801573716771817490083881939842235506112774012222042410661992711052 46179112807719497548870987587485499770306498613767963446959364033045131127601 13414132297230456799584925940083585383214014281076397941612066946621892002417 413157288277356625346656476282744827263582108428297188077127378174257142099820256 (-274588813488768876261752906081429760825300817382429959041492974807606260032203229) (-10091165538116171079997873045304457662379798137432708184858563414940354388708)
  ; MDbl 0 3127732187039463495725907717036619894636913367068766178131854973476115754695 24205161646371406613835049713893671858775967669014802390649344353072264987553 9797810961183440173279054326461268184867071609486190926650715844999168445699 65675520734447368974703557681815693354153720678252212554009118725060146331208096 (-7642456145498415297926559071183968333186003246217432973586668598660952188638409) 1310717788045696009500385456068875490950101145549552976297040812528897937788
  ; MDbl 0 5863487415647126786057952094032495494566017288271351838466156876261857073963 14218927986832008533329656979352645787173891454328683480550451566107062021140 21598354121155446005367633608961872467222308280942823051185418718574425041537 89794769049637484522458469636941077732248883437678242062482262057895493275784272 (-26858752132192432568828817388054701551729848050103539800911780967089125410265148) 1116681188153356688970656712266637814880367832309888840059327505534721563691
  ; MDbl 0 49588246544177165373898757668230698451132542123422184393409474871686396966619 41748502118375206714159238576563099539683483984114748896777950551238525678566 47931958395791518453235714775782562998957991931238844665768180532045528647823 1673424963784882859599270654562679848974920089452521013436328624437257330175944665 (-1921017583494464642205252045149432665613645179445631177818977966643797761651607924) (-26034528931420295993628678970553916388192895554882188278869468883219027423158)
  ; MAdd 0 223 false 25657366799047904126519266653586823938735920830371048694430810684997273619640 4517782796504564607613241321372352482068253905914154537044303766222411157217 22449293317914257458316091580632391038450569810206494390461996032935652228903 (-13609784306238151312965125827739850511429317259450484295263202769650816666073) (-514278066428271921539503126634886581666904108807776530739107740247696548221913263) 18217341059785911305589370169995216845095516742816716242793508714934518222818
  ; MDbl 0 2053205000617064744190138759109789947651621733357895721687693281021676259313 23713455356025220548930581158450196351296969709790971545148424756943342317817 8988177313707241918379019657504140751114691976448599628361288044012299063422 72018796845334430287002154269279870856565983769573272326634441723264158762731136 (-3293354363825892664394066181637400676316053686778910660643044042033650059104833) (-751635226031501665499721916670403990346879594474914890893089114836955992125)
  ; MDbl 0 34665418125210939703357886010091294549818635817388821635439497708592459007242 34442864742914163535491618106105291930309078435191933619087941669743187014150 17394163491893790114339660273784795640101072433951145054696596199958305790280 486856089397434517014693214650892133979251697886641927760047927651650302056321496 (-938786254973739314673894486192232810667599728325409743901988280806946692280305034) (-7093225037073547090528583802155580722220108797254075681881980513125742671176)
  ; MDbl 0 3160377879040310134045253937616962975674511401771765803161160384076358488101 38834301465633035807167232262619156551527155318422830741708903058285723589578 46995382117850523966346350768199921723148621437517228605568625119100401381007 85958621752749752823166665415252569788048939999155944623663601899617025039829957 (-7802824934737175752664755794900478354660093944226505470271990764152850081928508) (-264677559577942150329179457817056867074239938200735732378469683501457658155)
  ; MDbl 0 15059641010917363642226290879582975367556627499809763868863422228348370049019 41814802328691411094400769608730355343638325293328967507195605084311669959921 29968913098195458251804569184963323389977065088793156222419227486637877306989 1105878774297041327430048235572600931815339909992208909245997042918128406316178173 (-177175258563192564244499661164747661623574393986783270257111786593587997872792811) (-856003125350343428919222170384962347515869798511076486569956933884679219001)
  ; MDbl 0 14631530025283648636384747701424030149315440746156873074364374725576083488897 47856831115454915342210498377341272258061804717537574070277634571942196069805 17038961843195278805319734619270344096458049505949823366252865747389396336115 685216756785361389999826525756953898691487410984699805661010519443916278151498704 (-167245069080494112894209325289157150627054832660305821271826715447762360742372245) (-1685947365461238298022451912670043858459960988556514684473535381060761951004)
  ; MAdd 0 224 true 22111578907995285373828483482279940671807791164911781067395055465391054862918 41716982121788692725879267432536865892561821693987187053380856964755470578551 51837396607674109483260750729361222551997119879247617124299224684633213532125 (-9203158517558679856975346060015724939529660809665500602251622697299489663828) (-381956008894847625016726682848185735187312955380450515006353964240433000510652276) 2589100592928158496353112329361625487054182941503339663674674545720934891764
  ; MDbl 0 16440754852795700396248055773206221922592479453707230906474587860994445956419 29411120723834007303492367794990922792838052481515405008748772239019375376760 17100222673878526925974157798848279412234950973958647764579366214522045635001 1331684180458743867945333911023866845480098749386556338494318309248047046397112456 (-211162766812109824125463843265342249854801856200757803109692699352864399335497356) 3858382258721743265299596167906402623259215956708932522899851852958492673831
  ; MDbl 0 43631196014006875937434425315833726089474627527946667668012536892337722056732 15813488066448086579107457515368300438902839433995483071115790157377601009617 17946750197924368184771275072477377276572056552379514186005518142670051170394 1165792220192044672102243969227571124269628711768655755810543744781371560737464449 (-1487195533670627682382609535155921526358560270619016034984295894318557349698868995) 11314409720814553709860409699366511344057844215870194270748274010562015321137
  ; MDbl 0 49229638975659702838986622817259224726874564426105654775907405511293140996317 466756869093362140967032663698711538401008650533099320204953094779235823632 49294010310236649347067967648368356665048551116586830785802074099416792933647 1380450384389635971000756911417635588170136514252722319714873720398608290565306040 (-1893333583244695645165516284563688815333118466990432952951356297809560596410604248) 14408342261457232283570861386102055735965010384036803789966019704048590406708
  ; MDbl 0 41483228599276372504516584727855935765168211401963771746997263765373155397685 40796247740097277348274948345811681646404984873890496261786687403642133424693 35857645759302802354918920870599380697259787121591921408719375235017824640866 3194997592283953079751094893139183946856956509855102313171712913975339517623165977 (-1344370382361264877287503631957435033018399988686372919556928535849083153987925563) (-31905589131616106681623314366490711573331257882711671758240388482643300113946)
  ; MDbl 0 22472841356167869126492476861092476137040311367583323181592766194644694166027 24974037676715856301961713801695991522591338089299468170522694172015558459496 10498356362061014581057676343940082039229974848576304187223250385802154409630 1259146998980347403179966730215253192444273649116958468964757717514269764702314352 (-394538880961834860977482793210888919261873224006881250653953613559420821040662200) 6781044761259250544864721442107557564947240966283207542963630021203370577871
  ; MAdd 0 227 true 29446905869659114530299757775420236640768877827720729915503487332604320403848 15915909874732082559696494923492011479248532460963611592445290064276498215301 37362893639896461551407423328933243597347269412424081962329920010843960021168 (-13366026218631959241526878493817479248924044548647003358274756924744245037592) (-677412447660610283324713451975662133077673004224145469755971757215677341640272628) 5086857725736747703480746116726052100779487378608268244062076269767415475274
  ; MDbl 0 34768430117344016304448498763476813790141430338285266210660393060065661690246 25339092659028326187707599940172110278160723875519593913087749811438656571982 50915359357404256692109766626370536335544332718368474859016753602292420637115 2029703116175328295557353919058477304600530047606836265497633659578057432125437024 (-944373952109003861977797116953503762258197066749991155741634389799368544147379690) (-6248189260206711103592851386510130522350317649426455794231300602159156421793)
  ; MDbl 0 46717634335307075462009209902819156223077694177391736528285672589293729728765 13493516106168299935649231687743154805852623011448586430619079761965819973125 34049872272382687041566966808099439277920948173261447637950208196119215245335 3716531184607656825738208810202447202957197137656157648594349290604702101522671357 (-1705043732557227342066308510962076432189031367527461672763691782091416576600918727) 10553791884643035381872665924560858274544415935712819383187927856253836452435
  ; MDbl 0 7743775295552952157354330996087837105366080587729653346270714992991181414982 30666499594640554447525174862618984465749105146317045952058686258845800020499 25186306649464562922726727415041207004796597269456228841047582201365606414182 411986554653456942144524084193775723702439110606108140837591112923920896157892272 (-46846734277529763333621324150412043354227848281124832383690871360428998412051119) (-2536121021053410227983174459119766040557284488805969390852300561993475204945)
  ; MDbl 0 39267103795142660032115934779284975072007616797075673033559859248421666527275 8494739036281446976745739438607939861140929888893638057623059000264014659163 23966446129826748940826957943142911312352193998714681377500713801400906713553 1545298243647553218569681096405619163250928019595450614427681181480585581429911960 (-1204568708961007238883472516351465466888030707082430698656848906407482963257626471) 16603533749716651775662383833025802653332302516481470684773418812613994710705
  ; MDbl 0 42930443324967854504259394105100094340969386142913292948668491531852988481067 2610016970047061684516125340787574881680721705823231215805099779194854017178 35979555456103893987377345260085414846091159879766826463850595829771859749422 1607585055187279726965845867148449559919206342788891986624831365745336647967618896 (-1439808002600403809785739921865361034561386591074224857252517263229382944543224374) 4817955766045913555176718459894204686781394410608815197872668879840845746540
  ; MAdd 0 234 true 19132620595362883428721611665659507921368003054307489814889354298298346333375 25888906481373969007821553766706544322192934418935551468497323966470605657924 7063181482492681573751829260882244347457069745583666948089396435658310390533 11620602248126943362502156844851775841457729485635031509860042942110081645297 (-285971501313913492622780351932804708482696344105263289212695677396422936436456591) (-8493920610919189147679724926617777754645295052707317758819860560661967115785)
  ; MDbl 0 5777714475179409316390675883486889354389403700346265086080258610763828951575 14869813931829906734575538061071062392817839360430702323761450042212847349407 27228885518717933408730023622306473357443877813284282925990231787773165501502 63800102641958387268549469306047102121892829921389453818835162975076994928916185 (-26078703002734287178033413620244302702703821732883176331961294930719277713593709) 1214152911803461599607617328282533408274276417011214631476707064747647662480
  ; MDbl 0 42639437627378058056421036228878964198449001040846210028406878898722576723107 35549212059304831213974446005632551594825999784710530300642044896319550536598 33467427187951821569676574375057539979355261537777896406622491320797164532607 1814045579531706198741359742371548332825548989307325250507614025458583129487452816 (-1420354569472100596365435672929462620651495547748236878165312876394759682227378170) (-16815928096618512105934811398521444920414992175669219679020760193266670839042)
  ; MDbl 0 36754409035079698055608232817604364912108803579134413204800610300323432807739 30934773186632024199657101250156966832886245348189714016542119260914954422499 1677024716904174988400321084246243667597691095628552564464217908758313449611 1921993618683863690783996305119907401094987975745492138421178242509343992818510893 (-1055340791441192031012437110032272501877381610710099464907359380390670742974082677) 3234445372126474445164167963027611655743534997929218574713871851440728173111
  ; MDbl 0 27549828470892286864657237553178073511697287873965097698560763289015954545884 44061137586635658532193645095730295343529679102233071196562256786664457303638 37341849747826181616058489622975349824526171719701350838034013651441303009555 72242282451940106570075702928868319904830905803573738188315988356492124543101704 (-592941209547921542939330803276277547708749706644689304498887952995369644642770014) (-6896596775752332828668619982265741475832272407073756749750998323465420805234)
  ; MDbl 0 33753733742595136984429893866382655421185476845591256964785339454777235137689 24775892350888207577058534922279354331618764385250766956706750038816492351408 47252276653048229272308279592726018876735872537425278238418921085073411595088 1969454597417781774172779592571638314732286103536361451564017405904407056561048285 (-890056296854733162398297478480108059896503402663076830549445781279123474449476130) 12414192204745713767371186965149878792426576494326600813893892554459734228179
  ; MDbl 0 16590460681147877034379405478040806482010572131488649593441112293958970404224 17500474572967644899733282915771463920482739163494506959531663193089842092036 41461384137590864153467264007558397965467984258423862382777898731150477479549 1224891068598917104561106749497404667074639820898046033857523286192620235421370817 (-215025877046631537783080257744151151566689353358933711212943686815779697281832806) 2301907466603562289786378935389808229808833932421809665966136548391730374707
  ; MDbl 0 18848566495605640662340332612375282779382622159431257527273695088800602742279 49924930608247413573633449290359672107163118793174509835393760338426275574409 50412588058876909305542857415378906632289885490755714543082693222789483320925 1221046454550066532467583395435477244463442067426347420964037159045193121722383257 (-277543134416715313936219216086426819644102893254758896931430141924757105328534359) (-11655274439945334051302699445154326567162577227114022628187648558676034860157)
  ; MAdd 0 241 true 36919838492043261714210189624843332176987004085177481578450160689403923392816 47285759260969726202464732439525899269914515961749102627279338350065733054874 51859977309079297031449963809651741224598801737295629935202770098235301475944 (-34325808948422527512119251607897872601556523591924837024409927853840748889985) (-1064862226059193952594397606345434755621182925808815784659490151261074988125118506) 1858227398110475917866745961299340348827036325930776719227016572136226301707
  ; MDbl 0 51127988463255909146840975654271183446093693313402149135390444934620077211561 27999103955775730449549151796604075837017561367258121989370699786245268008847 18307499414039048227586115198966589274828915783567430918710918532269121080886 4142936448311191979044901354567811515569524652896000697453555472333589655653469589 (-2042166979291569402950837236929738343408441797120826187471902396544523379929024777) 18805596104678325379886387276808587432408991461620062928166955150869219903909
  ; MDbl 0 43044029528183409478981962730059135105178594533460302820058429011766102831131 46763930678172833784102966257850960846377427404720323932609747322059467598623 35634049882682913616424355281049332269430787737483754732791218896817072335505 1231293542798836096418578461656028736061948009639215823863242728556488758776689008 (-1447437025896014345307969594998472413578319543814193925939754594022597500010550691) (-15403838551993085985416314166767156434322680446865057681745320688542422352119)
  ; MDbl 0 27767036485860719131109670999523339033962228789884049862502624562313403259206 24120788479181555758606896471814744288385728188168477079931783691062265132641 42567543499563717558570840427630621397905603005437946134890895237466204849939 1546086162736913181375866143107708202222946182926503712085206399564171712345643760 (-602327786437455447663161714902875056705576452087074724767944201119033518596991281) 11990511333968790660806960386665309163803790703511608050654933162977988233296
  ; MDbl 0 27662312602599616021711928353314796875692185568161599183318580831737676625641 32924114749506220317772093782780212105070635502692665625928599679876556378499 31232473653750679100981022693022663812476182429457370766032594538546010268379 1839834519856131791521814655036605170357057646382721765120817710296821809248378400 (-597792973749470856380433845209587939904026329749366945754497708952440789341437579) (-4644155598034455697838298156731679253321822673172494697687200185296064333792)
  ; MDbl 0 22896147979330767520285264755902244768173000782573342637955396334619861624949 5185570936654858189081848522865471664593916351006184973150937672949732389239 10857686023857758931742519521314624747422371966029226559489320948880601341215 1117369322357269435423363160008971382864331840145400943266734038127635450098119136 (-409542222817943779234607160003827869689599074420800817523287979852513249619978851) 12112047367361714937165215284632262566271578975377341808835312488569350522242
  ; MDbl 0 21782250390285897302137947309612011515116244235308432929746302624477314933154 6151377271302118993729631105703618513600767874345914065887118096103353444306 46621277711744559296207275352408700673081228368924422410210857281448958300457 369526565148047373848613895226601976040158118816702089942827765958305745109498560 (-370663078630848789354769511616216539505409395237448709494947364044083637211796690) (-401203095009851918410724928802003113885609816204359820574777829812417515230)
  ; MDbl 0 43281080840567444922405712444592571999693160798221194541812851748973854307464 47279280232994223234571574994996426067276366563713136578764195751789267246045 39032735936473561276493280703623792633102408452176086949072448994896812877351 3152727244830482715965263817700206614648309175341605281111013652203684146933507669 (-1463423524086117065560596562159683396974521213653815029084687378889038529473899651) (-33947370706466431578100476890834858667627963100306389376119781411659935783208)
  ; MAdd 0 250 true 10363906736937920918643457070714788283310546931827133660786169022989234715605 1753917317943870826015425896579801139440818136718961238506148682987643175519 41086770143647649378431612486400432828346796394393390907024133910773325200690 (-2534104197950462197812485249101685167224440811448965383920969438028852444255) (-83911373310201973740078833099973802429727158510146846719612478926427802289020365) 8998049786354093499621560093103757392659001600793982633659099692881178877053
  ; MDbl 0 25995936000250918610105287269345121730697881163125164285832905161205424649424 20802361426343961166771939483860106715761941793028673200676923324001770789470 30768295664667901548634813432810135850640438731144200098991862036081063810962 1668827084284487750003195126798395850224323216182925352197402459636333235095448640 (-527940226885726633169602437389863073230189553108204366387004237777371404759737118) (-9443575267743850157300918865908236037404582226745642609928225058278304702452)
  ; MDbl 0 10273671936432056492904803564823507209663769902136214123313253773883879614373 12898935777200919743610048627196837443305476574671597133230527084620623824021 10188652827296510244361810688567793377665132385459635471940220528003490332621 493917866207697426568678307727916229343404738942600729251457501000766264812212693 (-82456562093267720267314886125955645552093057123891536072518017353509553986828983) 1548504759806038021919205990840000662449913432173601147479331159415971041838
  ; MDbl 0 41491074559267293986565929229671530134628283563274203255755646146944969834924 50322984563738965027232005828437356667187368853203026635214979924522543017218 20631688298310675546012391943455098857350636392293630557846514843494949750038 660513255902808173150330619816785652161524012890688799190767810785594391603651680 (-1344878967352318961524549152786746878876986357656346551724877788102830430782375022) (-29612626724088426621410897739245439116197503436840992638924057546948563098399)
  ; MDbl 0 23489115816141437611314371323716804307832600126347703890408192474253208803415 31361725872361213723447196004517160506735670029814186240614131734837476793586 50037500321131334574550933571175838068534056302731613586910139140815788961294 757335582421722148545477545633449336651420434308876452131263658520114229066540005 (-431029679033258923225197375977586223302428460582100827372920501038743525444939068) 8493864170934352891249793803092409944567999519693912871617374384205227409996
  ; MDbl 0 49964543828870469009726674151548945298141278666225937091834236660834021690004 29513666584871534776559183315459553926230969341495040950547723656608734198803 40185637203821965822641509630091412080032267605797922256075017543262716032760 3906318235608549214695934589764211072579024519930671243175013873980148245010830037 (-1950283245898446231886530981635133659601207071189671019736667013052037429992074297) 1760959247075387025532866827554971110798010313977495771574259243598089196006
  ; MDbl 0 8565689408469047360914650865622159649902888825587691367292734685732153294862 25826317199114744056555902367008352837491521662333056977649024028778148446334 43809174723140924147884721115184195972731940536309805524450630147446074818539 537869916986724489526425830202319046172198110997628293885867991050345598189664520 (-57318983795676745476238687141584561366994577451870951406367964086310108579650486) 602348858933215643449221729271143560786215838880135522461159440351309826883
  ; MDbl 0 42481846988214786006763827053840055063497266212435900127015040369617668193088 29455254014650916655995052665459235302823554268522164891037421691169294390788 1440553895493378863120661484246776588353375095283275561580069045650164088594 2907890133757112014822914100182123902706867427729440193029104417260007828619090437 (-1409875024573933696996865761462797888411434529005677443955360123084975139388290818) (-2940047019576346843207622904736185624634617788793238937754761830120091026045)
  ; MDbl 0 36661214890556609464401958151610334817068041278500884298187454563643090074919 2867242303161176747907949024000405536301986484530943784005077113550516624595 42646789374988199502160797746138022299279541841758582783828044969069667012142 82566023937968256431635534140845032593630225890692819658278591799520751999391281 (-1049995751478382767619879114472505183590753249892948285531156183074489404837951649) 18589349517140301584193896160802335075654730922600142207062845365764327020087
  ; MAdd 0 261 true 975572001411310705979835021216426843254371169583005666179853079574936756517 624701913388202359357026100139125315178691766170519458943152679980524993029 302838309069977372960362812838697587274608730773936964011585907772088754676 430986324404527384003434376025196057907522725197285697137475458053612177208 (-743519720629377402148568734350142389618412830864601655396502343090507171892732) 41722572742226695168496480562642010814797777806806369393909442307290047908
  ; MDbl 0 50805608343027637715857506093207575731118143880610761060053319480706003866566 17497574853336925021327919683491590426057085262471817381168656745863994536185 49220014801860234535752833266467450377145182941776289067697971107323127690581 24039570497404276563681860211894459599456236844694943439904437739415705446869536 (-2016494995000293766689015521989928907467881680436628676744469994063600630650370453) (-16348283905736128336700791688515371961829348788817576059720582508247707694081)
  ; MDbl 0 21677745409425018484641012308979029067147652370315724580791059720357886296310 45889963600556630307968937243176279585619036090115441713473289272394645009854 8407604605072636698221879374986163424975094022415642775831466910084703318530 1667109962648710809523759252645460680601754136773444690630699195590772924994287592 (-367114940599751876552157752702332939973221082759064065021387794327406691374541122) (-11737822106945911510346969320397938532284414813585050496345552379650000551077)
  ; MDbl 0 7053840020776862036515077411242038703731469461455002688334272685756867865830 8650200855837102549729983447054759954929503118946111201255501797234817186793 1479527739538228358165402410288192385596299654401974583897512419545856906726 92782493825822461270325789433775403374798747504664503655659590646998500977291365 (-38870940440195434520911432737808988033434661065464275350974459259007935344591351) 5009610842493307184658944876487353222243769968520066162659131132121475303798
  ; MDbl 0 41614123972653539554028576781516934818662661610451605490758902173124234111718 10830099507578542708191625077894348087502365209154097200348085831954366837280 22912186261488380101915294573523122705220745879426536007441754495029169654781 96202648253687793220974474657547883076145556560240064186690602355248017906475768 (-1352867767844810644402292559889485891103359109695416285930666732062706046057604228) (-1730009701152475971487225263552299272394094158939438801695543986617126591821)
  ; MDbl 0 11076561635716623941675289592726002984978951889740842050705272245019875863448 15161472404650190241014113892226387713767451115861418869977608126564793324450 14711211093356733234840789706088932751488353640643442625762396664919741842012 396536054821676068196551233131693992284339850371415338061535327119149805178273345 (-95848158533472853787808764434287588378913892881716349880038573833575529482928356) (-914959819044750428510957152468867107681797070153704310009905979576724031881)
  ; MAdd 0 267 true 8162277912805393541744267940707501725657864726929559828856915153639391700779 26839860144930813514710284929837333797981956883573783077760757567750412123445 29459620841665162843051069958690733296460935573793482109683051195764364436690 1692169903351737052761504992111853509064183408587361000752967445272485014819 (-52047106690596061697923063329335714119152864958263917024020540475967318018264955) (-1817882241715448256763633407776889962633639776088740787795586095144947484639)
  ; MDbl 0 48979710818556526199012430113525643063480246754532784897624325635885140048309 18500922833674976340047263870576928840810255697308433694333244871665291876755 9505817474124752971195537298547760863001756042895447940680971846207051927651 2254525445099966623662576013640730081207953494875377555462643046730741654683971472 (-1874158296850102141775970681547331090662696568825174213351019419186302643207207907) 7789299533482979820836618548994893049874985313653666108360004397833464483413
  ; MDbl 0 34767158209490351214963183789892842007486362723797358420871193731809379612687 21987724793911814116159252777383592978622074705511723515836089641620006926909 6287489487619491395982227900319652224323065533157405091398235007847876702351 516391359656390965555535924828279336071942931427941633562133960952789128651207664 (-944304858700304293079246829842594359439655638946220171869142345288190280371777769) (-2311894194420175129892166499420264095862163501542892422988501121830942202600)
  ; MDbl 0 28180240732959168505527695012424500437200494532619141955896893026545781608734 32898616695846784079811660352546684185291835584479921508976327556666889265785 33165922768725098053072952553830438937158144327521381489216357490330847041417 276865723745193416894019594855310270230743327689536103513532588715259052417662624 (-620387779072686312381623337235264215182168745744553144887086994959648067159258373) (-5863763299094820971725804523872455385103455102149521811456898703255703599904)
  ; MDbl 0 16336053518806164695778233662155361768061388995298336568084866037782571874309 35939414844563190947287019375768186716866279786300741026884344529289246048660 5399953536104664937724147175479738663847517602342904023293195308951517513690 846593308771664166796115824134663280405745442481696781901568868353987335577407200 (-208481792124688555014280180450723876395929615305983150905619876804236343601481452) (-947340749656866661095517700478549296565855778880080329022143094118692283114)
  ; MDbl 0 17209943912995234773140979104393884514825201155071331941222221021560852396445 29147490387528825263008292094139178661175410340622294249949490091880461492300 39862070507703829557312535565984050089270636167633453332601973031292406654612 145276136322066585562488034822486752758537961863976578341275996843660785874752657 (-231383691993376340769353358193699343470471565675485633502110807058257513736719514) 2229173034234204450181748541373522904658968186899008242600942081765448041146
  ; MAdd 0 278 true 44356783440213155082059316270426278720567367604103840696605532746161733719989 12896847373513930644089906384401745404957160500015133561492896211256375857881 7019310387896354712162923275372741691107411683829828473008916416906302939873 (-12869266330984327600930921786291634590757289869264939405372352312731137755170) (-1537070995419099394428517252338538695829285631279584897452284323095977943695859697) 13746814571692456844156641937776761482625725456977773031355306379851807116762
  ; MDbl 0 41622409783845287509539113790825564650346063562098295833283169655281773392689 14315804097766412693358581564030596032596831355215430328622150803506782382837 3266731676193654852819431740288008528294993155329377804078012834323520789663 456493452962161149449538189285026028970745289486593303507328679846725486271332288 (-1353406561975122658674841074262445415319473392037158568216515120975237924090007085) (-1126335701371030578263337547973734384619179423364096499686893622037023518940)
  ; MDbl 0 14235820695381694836747188251908244680922071166544719335443023802150790730715 33443739989307754251890661518701088206814488769981019858584046257088417141522 43622110524609896282392997339491870390461329816815137977142460165266157739338 72672463410496038453120859005369061016070228068661746814972091369875180942679912 (-158321120582346254803520369216072611875242622929477871245689577879985387161722466) (-5193045118734079126984272572423175822585002105473806729769449111903874445752)
  ; MDbl 0 33381993872046256385479044801787883654972137997389004827885790224253486536612 50107395593951662248488080190831466367390371728328702562420855283079127025258 5505353229735568889756629246466641339533822005881125845332827809702703843147 2275280755871454826001070805694877209313543495316091500746416733459494559954181973 (-870559346760467034008975617669817522809638969532402684892440682554751930577457360) (-10608501286996465203902401058451285793432432409109375114731290636277208101109)
  ; MDbl 0 8590054077892710424549570841791290341422466027630668347453664250676632634957 19442616436122065936783344174054675739136829037914362359666613703834593206067 3688600623650703695562399697308899414075496584187659618406297326921177858589 74033519777103902845511913955845641791977457558910767918437732181638658094686669 (-57645529446481558547128963159921530617799058391900475468213633125019735574821037) 5023509388803857210170897775129703065994967258309331186033085836169633467427
  ; MDbl 0 13497312940452261084539383968263675780749611759367495985784629485390898034376 32517859656394184952718477527731540954775378309172849426464428457256855749857 999418633043607907959512006868165100203089229814939868415660704136140066092 77809659406591197378361485751370715755650097212911874793189207989258306333478536 (-142320831067477134395347975048892583551319902588292539141694118149735002846401609) (-3365647067530133073197329887851237225263271710514530846754184603566152201017)
  ; MDbl 0 17834491500436962092363037050774110814400143544750055189494987927503217844510 20960009734238486352087148306651389982035201041583189528932315721810072467854 46584456232261850801407861352005399054981335290538739610491844886008704342541 27909651309950693582154150951148368276819683680167508023721634917154941146822152 (-248482208785395412166738481977295243581897835601596453393256831421346180995424610) 3931056276100682985854393342131473944701392962953461926587029285892748189569
  ; MDbl 0 3310621200596326510754180603073186113008516503682936351070490885245258858545 30738231199578663133455115361529892515084938721024688150133447032210394748355 38496915957417725967961898006765949656932803093151955218117559608093050246580 240990350273699750707111870557504196373424919565147962150768541714773992160242285 (-8562346922396984819141735017889063279485998467204662020755972586871151597121125) (-617363344831468463718165671292273535951492080976371647260473943352552887782)
  ; MAdd 0 279 true 9382730649407619961332924319964670939982953253854045374440833034862916087266 29139969192272184775636304169433742921321110190810872644011300244219490050265 4943203180845369770404719077864679947520247191186731437048158488539796511325 665615187554273750208577589391041963694062127686009639640609961282926173336 (-68775274888203749186884058646601440258561579329161445992144624906045960067008345) 285988588378741613798110910665001503083911813724662071637523202168865368195
  ; MDbl 0 43602152514335697906044169059701114556477600832710465412536940549863075317949 4110409350576707852833565638833047810115754132163533567097907954217311693342 21908439410759607275692966103446807268861335691792317793377730453056644376972 336808366465673427689744272910127704892942352786664956838618682791469789952467072 (-1485216262373402858201098510006812030090255112868861603423940250683720253890976246) 20812901128080997305258114148278883115671950547534621247992148553460442217510
  ; MDbl 0 50103629070344848756999704715469678741108817102354185519835214871709749713290 27676324664538158315648928965575431611862482886922551159335395193560943519947 46919973282777940825526444987321321853396095379623703591865511986042987629145 1715081266825684169132282356819400006162875211458287733569811887861443438289897157 (-1961156282641615493916206526915723499360364320861693880387441330600757611021751961) (-22517749072565989785067217348778121011715332424910405841877849543237119173159)
  ; MDbl 0 47268825941985582692798924466861705812009303655661857173842597717721452344845 34106625547843196990829779542218097825343547617380651473485625988013727976180 44886145487628274531091015143363270394228663501749015448350889153522842979535 3465308438306112637520603904268285476959631356334951767542325368479195532929448512 (-1745514526628648303136888666928706851194142500602143164621839167250708839332679472) (-5796656815441634064473061457122734245494161606421390190344877303343614835005)
  ; MDbl 0 24788126937165645255576064237262299339568342013877929690590211080255858398803 35673643981511081388059334906965375444355377186795395322906473466570105965889 1616172882382642265866318373361622307750773083586743430742747245741966446690 1738507154897287235388150261494784358369513978829110055277677351182040955401723497 (-480022129707498229896438954832476628362866802186641243870887410634401958000533199) (-740780080754025914170308946757898826782082948416830208779276122676989950504)
  ; MDbl 0 18367413873316085514887716274332827645584620783330280237146362236189899143755 20582000209871216573338619293980912620039681223781651120204911598923482928556 31722377636796912242980880994939300413850585147080658523933798457401702063182 46453761564745821553085849454441949951083400942487930975775886621046950559251000 (-263554150929294980224595006251584022609965879020741533722855521865049185458665492) 5286351496119474460931070610609162291091725092716887990176198973256527224311
  ; MDbl 0 36607549769620335992049940258236365219525032524935440955593752339551483448813 22229073813716547134259001289008274357701368172583797740620066619249010550257 50592070444629834485082258039080089395794564584007815084301466988006850880578 1814454263868217513289546290226194176103037058425013021561921593351485534224853777 (-1046924008896499673724760032995141841920973001013513499898822270386921253595399919) (-1149886956699407516636221229900601574133530407155374646029406509298308862321)
  ; MAdd 0 286 true 16178915691513717658287460581477030638358207593041573300461683797624601973606 4444583927721708881910970185933838946180326743913393925120456191348241846374 14842341111928031871920531012015637300423330424761105260584821904599637788927 3773211992217131895196672342566036374289799379024569701736815746122185342578 (-204490275636661842520263673938337178067770069788284302690872385574736132279946132) 5487345477139667965641716363599546837148261869232490412587897146039457872161
  ; MDbl 0 16935702258427097060459317228153963166237603787782461222944448640553867878479 4985121335895005509457870677149837829749876209640164152312036156633057307859 25018933525538606064469145971253251246707977147699547990128921922726122312639 392745032123829741690603603485634280558005172993303323970005904662245152485208333 (-224068215945554208986271695111569644564489252465154475196035617937696763354541861) (-174582393710239025348421897387805511788052209268558150293066570097351754337)
  ; MDbl 0 20083117610667654946835441432736760798719696120055303189241569158279660654265 48285143824160026903470414626120935782944451975471787459053911735033944797197 33304016664108379208603478736314170623472242908157078376331380866848919989914 785063061414712750508440460147482069678258013081139397136755546773512681783004480 (-315091073397228159814610230104454693270786926469521808737577497547052847428702329) (-16584055120126790061737527122607542984164935476840260182989537235112055259971)
  ; MDbl 0 18628964604547324285257522602799118626787051812956746632250935455446348167298 1288956106883166427734606704370131003116244340959719150127983208085902503027 36888734463972307919290225472739613424960460324202428613069347705858806052649 969502473407229082639246097196859092612526310827290848670328250408177498039841744 (-271113579866015801110455109557041229449354855892027496596539776319709446859142303) 16696399451898829135372198580559949136278211285653622196800555695495841209969
  ; MDbl 0 5912675187099760512967566507373779446052890398266910208871093936413116287382 22990522967877116448221810743781835384515187440553119434409968562297742160271 4333752713951460547367535685140950214915253948051643925840187221442421223707 340785989187273634358802846968380966668704991328589824593218941614909987251961080 (-27311269004432194234363161985019811166306199194314597392074445215962226461899271) (-2447071122044575826179523781723618081878791591430138329128713068851504800428)
  ; MDbl 0 40499648310817003762307586463894546263269028241376912021889373497468388325215 47874924541968613873506997243427036402678121129345205581990842275887890271957 8816493857433925788465466244852468275167616984546593299917130376355283834160 274262922384358922961415936158638040788311977142738935962901025826532522707427336 (-1281375276877008349081651544877086812297136809790687059697438224329382974790338297) (-19219847266970334141134983037436044009756950980992068931272109546069044849989)
  ; MAdd 0 296 true 10600257815081427881896795788248628472765534249641365491059560814219579693005 29898316614821765603801603356537033107784334189782172322100384927987252349278 32408788477338272843927663884678937509183788627609873692796503895137582850165 73953096689760990796522650760640493685361302884847657956144080032895683131 (-87782246857788811186022267418504096933874196106592505089342431732366083865606507) 3634089791234890714258942007502898184644920411439396028596330296022435732390
  ; MAdd 0 300 false 35605434261747432554367505818138558555030830764876148695129169927441676078823 29898316614821765603801603356537033107784334189782172322100384927987252349278 20027086697787917635520076623507028328506763872917764129807154804800998334348 (-10840063061176268782261424178799382509349613508650846391723421775332469051963) (-990390373843598641811018376584069432111635608302984370442070238496064233966811496) (-1) ].
Definition bls_cert : curve_cert := mkCert
  5 3465144826073652318776269530687742778270252468765361963008 11323899952376456035002757165992669487054057834803086412544461372567504754529 18606861335451956985051946092600201219034790515847585676658165179764306949851
  51487464086487745867707624970564403863932192230710361188278096157071779040579 33175629719884006543435607313513638533300198751199617432860030069151083304669 11293997910901283553578917440164469934358889965595797225556163174298450293268
  34163218279256499142707621455506710960085675025701783788087121100296726305204 28700032734529317515502274402646242871703645686605390272748176612308693763727 35965337279797800182221432915860595234191932740294115995230730873261363019164
  bls_prog0 13934231206179456609531861524301176688832145779573106624316168925992008684774 26296985896507828905076576787672864468617442505140003907887309969924199500392 bls_prog.
Lemma bls_r_prime : prime (Zpos bls_r).
Proof. exact prime_52435875175126190479447740508185965837690552500527637822603658699938581184513. Qed.
Lemma bls_l_prime : prime (Zpos bls_l).
Proof. exact prime_6554484396890773809930967563523245729705921265872317281365359162392183254199. Qed.
Lemma bls_check : cert_check (Zpos bls_r) (Zpos bls_l) (-10240) 10241 40962 (-40964) 81929 bls_cert = true.
Proof. vm_compute. reflexivity. Qed.
