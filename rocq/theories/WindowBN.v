(** Generated by tools/genwin.py: the multiples 1, 2, 4, 5, 6 and 8 of 8^i G in
    Montgomery coordinates, i < 85, for the generator G of the bn JubJub curve. *)

From Verif Require Import CurveOrder.
Open Scope Z_scope.

Definition bn_gu : Z := 10490343039211314552159374964963273397065940806110934391320975213145458915269.
Definition bn_gv : Z := 6616883312113869483704354583365738234456616760949867778155342207036773396159.
Definition bn_windows : list (list mstep) :=
  [ [ MDbl 0 20086912668628808215851352316055013683417045315953982345863429526559024641507 6268435994068219670514349214860377606233659001455359991866070067096814116090 17075928723171027068166906971364886775676089845984942065371348590933836782260 2048821127100678500311183803660325963268424141710891161765029129719901884868474024 (-3109786446291678817713027701983385323087878977670551390571910469677425146848095578) 3874458018736880712156108651816559740433361704293940640622546459756143804302
    ; MDbl 0 17367944332175023478756400578739085278774550469741660518243916344641481165307 474641988166825801292167659551595853000299192009267101666663098492401217940 9095109433853941947474608418026691844232382724404304184875474933238597043948 4571591774805532146197933183658754270461207734321360110739029718155336944752066773 (-2324882564392017832903618894486177861950465721208460324389892889677113027567495454) 4597275914552618563141014949598689798697093133419810669518889612036364419426
    ; MAdd 0 2 false 8495798280753147971816497919627918208549332410112084441015556662611440745879 3578714739560381500469433122777698670723558355969627044163530030280582876076 231131251655795242986585996562714584169121540430290889452331953411470133015 3887537993261083198108029150325067696231178195370055186395787440293430225940 (-556304493648629044628067583624267059904985525951182537180673614870156930433715899) (-1204828368317810667838720238219452401235848013093247456813356629785903344171)
    ; MAdd 0 3 false 6344409589064350394798508331319885699654026114718619040267913288737287219586 19820047382428626180136769930266131152176440769195130555612854920369853611373 7711550724462406541802808497542751871652873415383516480379439017804805337077 2003367795080993007511474803302630253212397596027593802443379509297418993162 (-310232011887093441671884918066667558760336965103678241254586680140873245950511048) (-4707626243089951599773612818393905808824139927177150868344940939845588722702)
    ; MDbl 2 7935144925931272291249950606969166233614790439421593229605306704870569415864 20842952558847111556051793890148398176549858219918542305181077421032066866825 17655001538644340244193673879663302463571770876431660629468120138277233111545 1112492221967859351803553521900652180021817122628527333932371091783008678970593473 (-485304043314180317067678960065527448414841203220774581100650188453216329479455659) (-7384123852292787105708767186130794405520758454394838623158015476439427050749) ]
  ; [ MDbl 0 3417695272510551030239685666707057348066722039634932907986063109030897062962 8117783938856484904316995854036065061365247387384774078162789965729671031916 8339953535615905311792478941693138349673124326604098335747976667681884848002 930171605171239708235235704524254658733663623954837790478277145147776092189879928 (-90026602141861096976609507240470691285483163495379233541709671480426412161605992) 1986945635110592021051143583361173241019183166139159002361819898838385499183
    ; MDbl 0 13775570299906077302209851282550316011904567394356492068892962784865231874507 16509180385839443358712338435108791186367945951328165188004727694365975137880 6889752598749602455233671048440608372662421531843117975175023156295825614210 1770963509381958159473225646849874061718427257657197549830897412205807727693377265 (-1462592555013859326301937055879140757435445780570436413361166157497194158538594630) (-5281203810951785056872322988538336968849223196520147220583242583988886787880)
    ; MAdd 0 2 false 17087647066874341302795842606175988031350733057980589630585272909991153464957 6973900388212979766972247645276514103173212058061814156702056170403136707852 16630312055473425327171140060636191492273784905410620127334135964219083274812 3383276117420628106487524867256142307105920776781905016715980062842290057590 (-2250446611425241818370172724108839570350039527045665671527418853377998938573054915) 7443973471844791382798539284423236195172238804727845646979918587961747798622
    ; MAdd 0 3 false 5575011593492161165808237316496412666508602643257523332178992730392662667559 17719366076209667506359860147915583166275695501499374473302142500991195730888 18245494968992310785545976001733285466704531766692509875104127599048536652380 3532495828685753052418152834218358063735513387021644522071153857653214719822 (-239549756261398770334879822370180108547236157367706324427940849357695433624974739) (-2736907486764369491248128573157214766842029152441797438215204585847417145148)
    ; MDbl 2 10746865938716869497843578983527614817897042650206553861684861749446882153186 2366009273667465980063012605798968798276644180367859474987250267456266521710 12166395511914053921805738995889438025809749371696754657731076787154737603327 1141389444639714235151979774331450792899187839041482192133258952153966704784420993 (-890159531038434263751333287280605307430945059550505543003267082173038591678941704) 6944128168752965138353331402827106863663630142361903618994549103569408302099 ]
  ; [ MDbl 0 17362845908257991735522105303354344183054934911075971195314140868625428207186 9963211739746828752407372816851867608359539189663415213926280842757564167849 14613556862649102716952614451883163413179189065900090864761214476072054786671 3256245370672990287613902511534460852569888292512557722455759202968772417559335733 (-2323517809086118076651160177008552626520028254482398638497163663269036350526711151) (-6026479901777937143461407991913811389403021560249468638711033967950019855956)
    ; MDbl 0 15067453972284917322074014114227854555068194230829073198006722749809848000325 7523521145486117205334454132458090965259997847314249317962020119569650904519 18659068069715569293867708432083797982157737977963676035715621093134217726252 3394155438583952894444058966898100010364227650968929444904917305817198586573165424 (-1749781943185731761888317069602392818411882359809123772703960396545982867440248495) 1679437036169489551462864994609281677773703644081080750855187611991755255631
    ; MAdd 0 2 false 937723317705054702763248564105232355453918091728205943899687297172587865866 6801331213675502870972592569595135496319999131665201513300765481192843074267 18542156995619342527754669674131618057209946914563088775587341961399166931957 (-220955111466130912292016611466406125573941663940187618203472996407534548557) (-6777251688879784638748099838891825598019853054275651846334858200251450418127482) 30939639277391204551667513968518013996386324073373249185044002686136144919
    ; MAdd 0 3 false 5134190668800609622562786848066347101241398908640461312079307620529468773194 17404162122645882982493505780353856968501320558523421158931197528984994824562 11945280457871142917105402506537391348343758163100236433957479944658850286177 (-1040366220845134494004241348260611703253648826101562484758025099134973759884) (-203164661872536958791430393246068213607230862503483613109483253912512461989159461) (-2487040912075372032036391807784007493974227089664677668637041704478154160892)
    ; MDbl 2 736209642285570789858667441596598107845615065715339775963575882423137352619 21707575438250180509056801250695430086912033450768382928053493506587617498046 15356195312760400010591511780190880138832055860954199242276655088420926832527 211758835825735280290231492808501295165860599542195068345483277383349408445189024 (-4177410807427058059638089613138887056369334999390192591467638690908146614709346) (-477079754559460663161264067376302848870719125020362922659832263590099112376) ]
  ; [ MDbl 0 9812606736707597094477582987719786798358097453024548186436845283440339422050 11527179653418833238585619746114498527364465194409075490805535655293850112711 21557718994961799360770600752388084072823969542163308710697752704017705800537 2322813149305508672570047243632063075076726393872028877589850870307908043593019445 (-742118009820514278368500306238178533301439727660623693089746524825080197035889453) 4563921409566824482300852388603384515714213482580807636053636369063885678758
    ; MDbl 0 17472709225697589843922551685160802743874527147385042418393675225749428870493 15624533692799495136478730654633390124280865559768110090734427250456790418895 21362169982763552854383898222011452208744523306913073599211756880472235485317 5806288321108418185964808265843937934534348767511941892796948547646358035528001560 (-2353014929985691026276356554896834888401301148896557651815718272227817387672902195) (-3270791362469009897486720788975521685736203161668876278922907651883174227398)
    ; MAdd 0 2 false 391777405699662680489920757867744575165156423356187056371354621762538676411 18976654432769922903388339825553068157781156750347787374600796256214365601497 12179097984924578426579605841192881912717107984121286890029047226503970218258 108880293760883170307626665959389680149071744676710581268106384831517669003 (-1182995127117357098901432905293238000968262500935096661067529232484623924339708) (-59999570307549864394448309232100785918852174679041439652586484114413319141)
    ; MAdd 0 3 false 17914871976916995833052222434702008280207356102838582468276137600713098838182 1713568558432825614735622904500624667020006460858929483463912986537465124740 5102450436698521694916408574335692622142144067883117198578617051425701977284 2235177144127748187990811960940278502220287093544021768118050666673949994497 (-2473612127710351052681641873325253994326879688089005840513125201416071635928988293) 14129319341716788645704265964736745659276346151692453898315110698829256033096
    ; MDbl 2 5230466009365838639545671617072862302616253605629153725705427816105705490052 1640373753116729653683365988593358832071245959372859362207525000647242715051 17484130429536823189376410250815511053117765725140603577520250710046847573168 1722377592488220468378944347844579700943001221868428786080412340034656009497153488 (-210855508809823713035839581006671880428437185327487428800748145740223233814040067) 3341687757318815681428958644986915089469081212054861414106052897383326580059 ]
  ; [ MDbl 0 3462485439768944046515716243868435842287165076583903085518675708577158767113 5194034829484824323613703832727997211663126016260603306493918686539983043871 4071696264549798880214471350994825137177254941671404204353814673386032633129 933181980990099528475823877812949228051199346947995221010079984644887201909909800 (-92401728466716419695951667275240277968999592547797413231996153701101382837592363) (-562151096679795327194913983494854855002924452707071380130870323266666935021)
    ; MDbl 0 4667094934733521124269425323968503826398190359491273401177892387169640234020 18843746084156237426685151018159862490441419431045586363803708077697201115097 3337615017063429255487837617014456666063770145909315869842726370520360779394 292928528516532947010318242422053924832223080060008334391343249403676900561945520 (-167879417544632852326046531262337676816571382197925730422327945883572883554711761) (-2910443685692664306434002514094315863244516603651049588997932942440591936979)
    ; MAdd 0 2 false 6061687964485981249708860049430152875769664561416610794614769265455272890294 15481142189482168960083835695178143315193782805476715908845419647322807614885 17618024528488075631184076784147695789080185958273334506727864260182497084779 (-4764268909945192073910576307951833266489658612845386716080010123619386912994) (-283198753020858675623047961993889323361126214991910297704641225019194715936196243) 931233067771908045455150529881227639452450139768738250563590590188536936715
    ; MAdd 0 3 false 16798637724189063887862540176389737053668743866617968839598907843357131793254 16700372981605689009993593134195225279132495968656634329519729943519093617142 4901781553702126562701816457117106594471966146964880762323944162113788550461 (-10622417530190544816002417433603834991563959738431841799294821376534123763425) (-2174965198284446689269359593804086731539260893365929357688310169045770390835678128) (-935726841984644850415613845494696727464055415923892587656714928059780828654)
    ; MDbl 2 9954130532864924962150383078351701807914548696871468530261702487896544075676 4518107554567649109053137917176747714198217484743287354692343890009716906733 8471385568197697099888674471509521186358089768923311510878027646449853306869 512171043968030651736422928835323868709325366645517388135129849533376888312991720 (-763678997072176338050334817443650217334800275265008663040061779560288259782779225) 6514880007733635740682498482320456287617176670360085805566546145883239595353 ]
  ; [ MDbl 0 13072684602713221726705831915450914046586398335550529311752875161313606950958 15586593199469864215852471687067034394082672916261776099993386457545787615367 12709720423245383045761771100989712768261048373143246847563512537290959744355 1707080978397681585060916139895103882784650596499429058776119011124628439118241008 (-1317145493313936141674927662213687234246851612592781705758515608472385342565178443) (-6610618436239362002863364961635790298736758367904945969768894781198912009988)
    ; MDbl 0 1709742720277276214928107992347463793957060325893491106399798842645897440123 20094807934116582612484722926300674803327235032557757715315223551602991828932 12463831247220837078538082639738708945628899026581083006711608831801807626618 334999461738912348668717842705152937134715157953919902485915947889268763180438200 (-22530234404336682152082200509209948879579499815797141939456668276745147972786792) (-352147377436390960620779332229927420496556733192867440795634221829786921004)
    ; MAdd 0 2 false 18914223588535807787186000922121503632138442275192732907842706561261088049442 8369897801916716420100530810303768168679353567323510621010197050385626141848 21404566373350890841737724012823673024098313026716931219710709168103867787574 (-13460248749773764102158949309638163152282330891361613136533015334716664007177) (-2757282222969754556604824717185457087902827435872686736573647388471881978097810483) 10131812457236409219827117417567201035508326076102366751469535586675072884008
    ; MAdd 0 3 false 20478203788380697049314476354825051955190882595607719425264381696157968347197 15295283379681467238143008042178407600806111574062921627316330632263595758287 2261268862545605826217107036944525542401684118628020901493783205951391829332 (-3603658187510022504395264232371461851899204576810780113083405683070527028350) (-3232123186061562192197875516625065161490919371482421985821179295993405618414880298) (-6479252720511412784877618130195495529166482072630841691610590007763007543717)
    ; MDbl 2 20393991744050663256524017009882504860127541843599074976797617385744300764054 6474104309352062595774641950608798728935929787803295155703585112065865790966 20002220213083861560176811470237925010653906203130812826145156790233503503642 3918267780961853838443459769315223420428285660609634015504903350580481975044509985 (-3205595072906819592744802620285858343531720121055558590609901520839980070302999784) 12690855035649857495870127719854926523911449429444361418160965761133710164512 ]
  ; [ MDbl 0 15291183880943072177312054546081728385835790830702117175875198410562874029616 14676122369927989521289431287906491320966048599879665262195609691860347686387 68509434446166833040727565981379886655489490085232036913600178555732298986 4714699567213088151154290968669502962743717992109257705007610554686677831963840165 (-1802131198784463113356588472591318602306969736011825463505230486452998531243075801) (-5729951330192984780414584800599112420522084837566238000207066653687863672692)
    ; MDbl 0 6464654791733333718134889940734061843445082330886820182529752906338469396317 1106018331693410769217447643570862285723618386128058558874500107649546678837 274248434218805905060173283078276974485723210623233304074534598220300909372 6856521093854018349767165289224235645068693820129711433270605205446328560467080 (-322103067806745637131908419604656722698665286835421699628573380701231193826651377) 4007906829650478372841470919964498906776442252276620925195730025170119249376
    ; MAdd 0 2 false 21450710925623727837064437043426959557777252424731987430199364846834062912140 12676643264819230582411191700921670139015514866005157864134770442628024439126 20227323792659192913171659094530115876784164834112101151242913152208001297022 5260781379523040191472006684562229583674210227443624983334475285171776445870 (-3546398741188335502352183843437104649448544711641605874708111639160735976522025531) (-11339335556652665166785497074704488954477777230105643337196944629776077329862)
    ; MAdd 0 3 false 13921458536741764341525907888402072863109560526090872997401401018358426330336 19929218968265137864561794640602583369833965266852106008565918218664835445127 18879941175349912643340678494265598393672122297706570319577499300971285788734 (-3944966683559367522028044086651328303888434881067780398199384042436608106140) (-1493735353981968506143744185050778401889124448387316759466629220892337150016535501) (-4612815771977894488439905353525890030059194570259988727524095527863415435676)
    ; MDbl 2 15143493864141817926060692586530071101237474025476251008962643332223411643119 12297817615363703374053479822785530829639287954640164712300932843737998785051 1435352583270282430438263275004116021670836669240074562089536786220881947346 64018509611334858424887763030744373458358398218292395666982058128329340874240080 (-1767487517771359773665818096103209010714932943741624768998091978316347934466996219) (-7743104130072464316273396769849995353094028724726511021654804360697457873352) ]
  ; [ MDbl 0 10414658643555950879526549574582774994831101027046838152746470310342853421275 15829404133691888624368560683031494406331186550838368611903293205094716708501 17826490110850327974496685945761260723418745210169447250597160168388761143798 230450088830268733539387440990326850424119571256174746763198570017382775899135000 (-835976873547326951294578056307823365431904590794319395698003105897861625477696353) (-1680366408300989615234680447380142577107442709039133417763131611128173682982)
    ; MDbl 0 16644435628265786999353432676713385467094896750339865171701583254837771975856 10473867603572274706436819855782155468801991339626485078613553448754743294733 14844390981149202986267473717127958110336896074083924955058966345853278568667 4573749307573754213357208203688549620846837738441929957462486817339629200928906800 (-2135218538109469200343902720776136195221710988649718398243326208509379294910355249) 4072500636635679813614440359403583831595019966419699790358266302808387797679
    ; MAdd 0 2 false 16794614506427688153971989736699117240495552068053702156286262483997805902937 8395530278010166808806787196018248909127089930242585978194860485592522359283 17824060836547924226533046463610039928231831954973621900232184739849001476940 1399497324037926302916437254909292548423743178866186359126256087412138625511 (-2173923529201643917616264983068605674579094220841744333847664784901347370750660945) 1594685987427662151650641264571830501064327435424280577929606742258961386979
    ; MAdd 0 3 false 15246120926439304419291236701509198858074216204700582626369744026924706425326 8775650609089761363644148650874524122577698701651316178125006419109789289526 19990235457869201003690627604657060143374808978168439891104754075575127480278 2718114239839184824779224939322534604286272746688779858558508815682389775786 (-1791525127298808120358149749955852083469875147579822567365945836238462794541859374) (-264770478296079756314169392302048125563101005487088290235229270241521254508)
    ; MDbl 2 10627420257680928584299654576574580015006923795565600050644834247073152359394 15314165515225809594393530580961605320977688309812362150206079433983488763454 11905990609284517447514721018597982606447075172861760172822041142104048378160 2431795799713171126480914379483168113680507596996462803067166501894604618647148208 (-870482197154912703288784148336441364165251444601848740704150265001042528895839554) (-2350114642856891993471061409388906078589416678919391721293949170573997272653) ]
  ; [ MDbl 0 1794181600569231723560232852658239815995572589937657261756052692259195635008 11166934010266428612537603296617978931606959466130322777643596433052606525798 7148270470075284973108992889716742008105666469750293098479135876272107884585 329312720389698768125753562901929066456386992526963359137597190036880738287283749 (-24810583653003751407055528870896111731866857731085078092145631332979392587272412) 339949008381681304629251094901393861979139717571973978505849520403790216359
    ; MDbl 0 14253478390486761492927937124770143699124921907352699931104540209637144294182 16879797047380004376913743448898698486849737140761031594173765837444733727245 12283243383812931833487930582670416447417571982428224680135913976245469446490 1570582462161690682378681130574411737793298330008083320445680189731569104021892213 (-1565834677518631162296830994180807908263591910875153764428371612706295751566880067) (-3720178468600229388553485948212341498535382510607156861522566684799044693837)
    ; MAdd 0 2 false 479278752322192115358346220109282622191453598516807171842859216362249677407 21154630957661924672173494823032539303331270681398194184341852358481757918914 1838602342158286388540235642293796611763527279107712141796064831745836792049 (-34282054147551148283945702067004566664736040045976380446041555282018498471) (-1770437237946539009287803899412432969292175141817693088160035186499818154465283) (-93604455821370925392641259426909133813945674394143859308257325117793045366)
    ; MAdd 0 3 false 17280168485122107933854712593147623033849990259785949429316936181125314368439 9612881539545240366679285554221519967911268657054579038513808535250531222021 10864563615625255124193673742939036275291718285615218008142695110323495862993 (-4610887564971021052545417153611893786920481800544952271274135386270220968603) (-2301442500151031222438571337791493467375394666719114246917931784048603970279662011) 9111895172486135354388537026879739215284083660083831626795294579778434735705
    ; MDbl 2 2531849848335911391729684751489579421088071715232861138661876858697910799942 15725910507865807351670589357043038733953790577576736832753176125045218711950 11894683169385132286989510395355462439245546247250443728964325393786617942013 479424871014173472979614909549479333099803855202799600155698735120296381953615488 (-49406043456717762353675744594106245468752053937417614883759074970387728680144914) 133471995772878484644732162884761177520829797198467399361196018346002387811 ]
  ; [ MDbl 0 4389828292554492158010875419468349814384036241975364608314436065296584474847 5015046088487265054804374802165627214324628557504081605405684127388298564154 844350650826210996194047393868393558592384454067627624981889473670076895448 804920298682793018784455813998880219661467480314154344726341308292772438442330253 (-148524893631002429899407594753550121721613696872815681636307000639050300059476556) 2148132947044193714896199236752675597649455245671463044966315621216832143703
    ; MDbl 0 4902625893132433965983275134337960845287079065873570666600474586200883696053 3693023528330596415447815100748226217571224308228840621103402703660601618509 12658055183217982435437327596477678717044022499785685720844199451922320990369 63813011027280826629526137058247978176266830186785453681643950229991729995426549 (-185251482773728764571935685239880635716105101509401936311782159174594263041620695) 296112487086300415223593864648887349094866953828723286273968690610525767704
    ; MAdd 0 2 false 1939682057546615121299482822150927442457891808562526295015825018700263623740 10717024106744435920231575338465081452518652054297614080855627024485085058023 5621662880177427793456411988067164096697786275655878384987021388504930199975 1066324743897976866166018574132352642412746465155093717021132684746396600288 (-28997815385607160991029658391622294913953848412822670775662309947868062143932540) (-622449594237416044365462366199736465380936902432976989769695080337860450912)
    ; MAdd 0 3 false 17885205895630397131629434027454825101188243166963483170998806946374422744397 2324260779679447783378477532309543022646118284841950463850953433843154468881 5162853420001177345135954720659930713855112950361361783595194981241323385966 4092834912168124380524399655644160885314444944865935298826663137346565457893 (-2465426568820929558309176154415753540742002749493251606377627899179631454195508956) 6857850628611918269623244833078835568491271507159215350511405161811924088649
    ; MDbl 2 6814818019390596541645729338471282040286103192908764352623635382557859596302 15609434318652002738460905718078182677475557073235418494075081152019674041805 5227391283902694854298211249617512805120462134478902786102187020584081525341 1329707252568349575404650646763603265741265516239575136050203898794311396789984624 (-357942040674772697688873766542571710549798668415921928456194604032656649278392913) (-3710127462301815821464880899692559873853069441563116953463365336164124510206) ]
  ; [ MDbl 0 11068923951012935477837929744760995494537781845713416790733877497077058442901 4060521053554764606274301924270101475725336250990112966560893176669783877785 11489205922859603268848426775541626597551786666360142389214590522491164771390 891950704539188803339254358069782256748153546442725286015830420552011427738410968 (-944310874290942141564881588548176357810678557807320576958995964908129963226662729) 5840306295791019407522022392198558609246941260827443645006205572144480309417
    ; MDbl 0 21194412742405440200340690663827180975231422682990599430207722950345897491125 8288979001555054550602344288335315040114690533403952692486970796063026763904 13684981059519446472253710634032112424866801889528873437318462223660732109887 3753581428907793707928732230820431675187002539616019775646421442595742528423474808 (-3462158599344550477881376307363178273540965638485007056514274144369713136209897416) (-4094421079780906972906124316396608165547452836331387737470628843668911131856)
    ; MAdd 0 2 false 151826869099740752835505104683524864840135258836224136731730962508120847709 16094186886635554077235659781172887386648745749762283494971099492559194805604 19649927937048695822709781476343218362918636228479351994942224560451398816739 50778028080514658889139611459902197788175678565729763374081162354565732315 (-177664826539156316201173931631759396314666864432301215732773809958444289960583) (-54140493725470165981890156242308213814658947092884307550088013473454111478)
    ; MAdd 0 3 false 14352955142007754415508677137396054771871864502829701581562593362443549909715 7858407165863022720899406921786825693688906258816073521967673938288039972993 1276744681612914750379347531633790843910307695487129211901289103880956220014 (-317870735626405490638831146394265176663840394720475436464756915162221987311) (-1587767246015640933403789623335376603755105336959253679664708955442051868963809800) 5400514677392752219939568469165374149446249976462919583210428778571454465736
    ; MDbl 2 6173510642798696777581256696242889892420692405832003227097413676903580578815 9457257311551370041548840006686505732466382933687044606412397041950931932148 14150487290602831687610413801715160231042785423710036803732181139792109902843 1302308039260542750241955730936653814486657533386583038349996329843181170231968249 (-293743716914140918206176578344822249279224958009406424917513787362482885249878762) (-329509254020218690091658989714528341544006577967779848093299020122962691270) ]
  ; [ MDbl 0 17086886038421379139102951537328352215061094070844491637661058472300090510913 1249969369750494321878819398870297702677680008445768868568948618585042600307 11399754558804117672035761744539680775374679223894003627976077278548274591061 3727090396284429735578486337606194860768624293679510935106121928640992432846980713 (-2250246160683435689701694545771715181488083400705568844995057017093491848525372753) 6406955303227470341872283496647123476010396727369061366955330828932303892337
    ; MDbl 0 16962989980318930805531705037403106924343778996353135402142898415921338581244 9658121402304538478746352378383077976454657525964257893149477710877481419657 18269144711552445947694139670188929611713377838039687195771980582175054222847 2980795053913092105193924306436780423594485151265589017123604613287436342541768760 (-2217731651130702911454619736673106050989844939632899547759196173420054040490486057) (-6516164843214181815317185143806062808829472606799235297549671181136229046524)
    ; MAdd 0 2 false 18486305658921207087208131218005000117400824221929179816981781359222426135913 14027902145762895132414967769409247130389683943765341025628091978914387931296 871066665205023798345528565296336643436445989486972557510687280417024325576 (-169645183457905244060884074841592350322043397961672949131081368490924702489) (-2633931296684596596085746340979845763167950559685432644769507955676159419228539347) (-3690616143060508687500767670831843758791322485561536603793063820493658887990)
    ; MAdd 0 3 false 20885440416702076589880818480461157432927918526905471471042436973344484794032 7435695300997415981331541985111363430341169412132249835280728802020771756389 16593548696635061252534711141013433185153117204001032431972320549728161591099 (-4361242284717504301524542322112143875461868028293987936852980891527153631859) (-3361951617632571211694056977370553441414464960535890555505980721109577524049587443) 6290187114474192834194327911540276702596812307469925674058624718274784115597
    ; MDbl 2 9707803902908060132413833613007272237097657066899769669098599540418364333159 7072255664617033738556222069591018751394913982763443817050993335529886219431 6801928339343334792626064690760758319115507445289384236207653849723182746464 2733854651945194031840101093182311380092257376039699003518224121544895071664992960 (-726350389313156123686002130659484288778361615681680679282150025374040916812215279) 1146874952352425623224698378264122007457912786930540004202063114410785528719 ]
  ; [ MDbl 0 15707215215738413545353537413919575255067228333887526152822185605947987893684 16112591500097624642275161420873911357216532876521335257652567823859395388764 20320573279028036390078262431809715662349524431545174037849966113363289057815 1646900015237405275508039111266777867544347830250800889793426181250300496185038080 (-1901527332395600541618965917241942147100830495589711528441144884092467545812502372) (-6487432610368956795996280808001388310217755561481061419150910758889491420603)
    ; MDbl 0 13081107887681717292164576591501884390047535103949603024829057905638784889105 9850735083676533991358383234509837026350117509693383903501655428583325750872 8262511916208423665520313350363700283594101997081032345849848484396177515169 4097495018634372455402394514352566305746638163901358183146792911307825180544174249 (-1318843425538665325340072530470387674923455320164479076684856539062655253232949894) 3742283921098195075733293097351937485884000276736118344863885531907173529228
    ; MAdd 0 2 false 12468755011975343538633500710623752370886554615023111257228343320837174643242 17582880433298873245799953348030205384185355134614222195579128830943713602751 18114679362941697999422472532705875304440408720074618816346145236370464405433 (-1582775711367886721762978012389103194057044283887158689478405167203893152201) (-1198258083566991125468433528820515508695002960712001336331376035903943427163702056) (-4404658091831745516999386579056736735264014320114424854394851480343987440960)
    ; MAdd 0 3 false 4410876327578135104880524050291870799911642481717183251326970804524036821468 15045708062208646669631425709435234250028307818981940129843280166760478844542 1966995180907853113342272818051074116068762976224665967859428261462326453134 (-2118080754663126806740680645349415031318781085726947972543949000684208586823) (-149952581226818683163956416954270189611143498395382852986152065370584703627345566) 511286064219679969740261521238997430250599345671830468324314432019483694485
    ; MDbl 2 5686417331290378214873062134821363426952930547014747759518073865241032930683 9438654484608962796022475326865775773127648060520220086887693039897542944716 5595699358202656974723147051637431258195154917619462963236292614652975687051 724257469810559238975556915216562425001173986981224099328601738272417601655897545 (-249219283539879118300478439186008494297995673304985208121735029055294720425811474) 107055750164446778422423814799967443826629602561788460424398332327869026584 ]
  ; [ MDbl 0 13490821395822128905535016101372710277024874105040064065605066766621011520527 988703618264182169558961902060745082099955851494018990550642347803947449700 21409995328654913855460830744883528692398125414876189696530520552556484806198 1163674458339224281204868619532149442989111082964231590634552084816829549263228665 (-1402752234066427446401522761579520000229096724465605139375388961002802920561323890) 5208128336696892626159085790541741570816378039851613550306118365820800397399
    ; MDbl 0 16564119753829245287525481681130777612739756171047665416446138311672895877299 9640352658933231828069267225875103531173829278716400393449985879466293950597 18910853421127538475462935614427778920156856503741537089652696635361785077396 5466622998114271549996616608059476908828963550281914870640204851923075904252899953 (-2114661735804695818364505238202813715012464379878243883329058194702234200436022435) (-6547211286755149271880628739278797598368073200078971799577887245752721976541)
    ; MAdd 0 2 false 5978672902783166762421176413427356934839398233881636724577067109071441133682 10503673285144771795515633246208205625557795709316496368073942900669626192066 15199620984031391191130225281686886241291127560333575869996884840230234114951 (-55092928949760491664786063422003678796500682900242646358680025351343159641) (-275495031376714688618320555997771159015825431810103019766821660331860924083094781) (-235812059678183096857700945371867553931705880730985909673765020772668503365)
    ; MAdd 0 3 false 2229309582868218425283058353612877386774146422298444167893574482512131743712 15800151791908149752057664445546302624536542713346504650820353166576208610872 12439180156884241126918281988270236566208825980433341820081949761458793245394 (-108471777833931958253486514608028799267444268733576894225009152061822040900) (-38304072377737267109552402792581355439457568542138734497645759639017807322513856) (-539444411308789711651935739507037964735401016506279085735762586205677307801)
    ; MDbl 2 15476468222315316418019728687976246038741340255809393529393358938374159770187 19889478340680950337295690535603156203162690117602320367453675173247530867394 5331787496922370665069486026254503293266806756449571340106962747580516440518 4511473328396313259953229662372450276422557729333346983187141774269171786755126320 (-1846068892580522724715411331139026942927563636535664161483324872967140768928895458) (-7246825103725444118923521700626036794655617220065916761886942170907384945209) ]
  ; [ MDbl 0 4440618247662205282764685290975420886658407197625631101999680665186901432542 17851633021598131690659962435610672930702883668722039549823816354185751052058 18325104968354839387208453201474715762928337139475629692566759573810041202577 365018574808402462821488304401995098618553276096031936516174534584908366216881749 (-151981617418088643510418312209125959840811841715802252379795695239306177453117832) 413431683978374965361637373277869127040528116805616112215049960561841306201
    ; MDbl 0 11205266158865014303558809146276131770508494485385083102082801474942782530756 8663588025169339452266588755021564341234051363782256508577193781500276169832 15177730216924749043733681611923666331353049087264239315325257460448787259398 3165255849638555439865641678529203489800450527828500147553400334250934086914896533 (-967717371599720890951426286027228392076942702387585088082840094369033149527377238) 4703643424802754487336938977082841662841265402697749109116742785496510140593
    ; MAdd 0 2 false 11183818464293788736491475524460508699058436186932345277179871189371571528596 4696686046281878740148837869954099158594795533448690128226206830569642293104 13315690074373804949804914574305674901863385834551369025739763691485333934931 5735879308534267870364459808691587780562711495016625199512699111716636237896 (-964016354106697728181153280547116666705396180553417304996773825891937981140499284) 2026892330156109034868478651665173146055809677637664741936952351063701918727
    ; MAdd 0 3 false 20570201705536319483641157906916360242913807953809566980788755706417903889415 5600865291533888866424470466553396267169384377735878934038168319292038456012 4925040440916152732030098281189427714513389371853897920961825389682099056655 14277930110515344074268761830695633391868362172109748147070560525857797032139 (-3261228914325807667922871072994259732902410098341284727953601243614389279149148724) (-849732413958295457528052098108009844776455956689785463357248224207418802918)
    ; MDbl 2 12160641935408477329633313099668216311978833588167523784667157557921946207565 5713118233831503447432613802678486070237086439881882426577309505213381879999 11193253618584578808343786417443219342790164191298133601370680590250060218729 2845110114947675014482473081001764554931529470220017318386394905501410712538083185 (-1139769905602507598106432717801578257190624710051922905206418617594591867229346533) 1639218227053774226747313430619478500380960623956477413290843992883521975654 ]
  ; [ MDbl 0 21459653442775209778696051179526431103963332219472616009268728137020429252969 7816354962014758789004371605365434797498103585449880412111839978521489147224 4949065142592391986470288748127847888515605916930992661681247964968568255565 3702659300159969778290346646510996287224834749877976428314912288736189162009135624 (-3549356250820187661942147454874580922412339060894933116295438773684475404115998860) (-2062053658633237715662232313213743155455034219975999837042601797841069638007)
    ; MDbl 0 16762761645251310208878937584090571664983107197759296592127685780386003564821 1680383669968094580625946336141064651461339069323741679946990325791489160376 18613672308506795868274956063163845777905555948316957704910333705137399649955 1278809232495529435377313704603477432227627496543089146721776177142224973903169049 (-2165685171807716608954563362222149983517408958383854933111488914534470265897213566) 4699135733869894904368812339842631092658134451318499964769270539007773487664
    ; MAdd 0 2 false 7545466765354205685726348343151989494366700190695305218989642501678612620270 2832793626524412796795879956147023567753545110979474799611405616484605643653 5663623308829533217271750657227571491772975136207339501241643528606041244320 1390192205162131090631799378787796037014659921545831129191389464971601848508 (-438809887441401077413460332355476374432495074919282173536769780895919792673243878) (-397266746269811480154583451434631932616023775411503219306373810875620233945)
    ; MAdd 0 3 false 19848860323451947885068069713383835195284038522342346480363264633081113596762 7579606544878471019818241280203823417522496769885419753359173478874596994329 13314062303552208683297091197379886206659186358579636500857455585102979011887 2611957531328137868822813600872974720557792968883133073704270320056474375579 (-3036514328718108840380025088257408261809049508808010252089503073303569959570092487) (-4304540439798664487962391270756326789402185851275289836384739328380873794007)
    ; MDbl 2 532899484986953274364261485411159250826903815370143543903486625449838496665 12206887688370834743090476579770762159201898205204120722863339346323034909290 941396497046531524395318871025510368539270352248070016278821688092309871558 152901815810907046946815993755026251236651256900209567075082121926874243058778825 (-2188743073072285292655651295013238522218887965082436950795034446922553336136720) (-256282270028034494126158170906123894244259374302088817336093906746110799819) ]
  ; [ MDbl 0 9843871415439778853931026095305114693017938328689234332856476555732198083330 7806367052282999010722358208332683050950356245721307409050082345086597936281 6500865589223254813389314426172260050543717818046815897784350192089814222412 142867937912193712899044358400300089065730002882372374195519495663324685155276373 (-746854578751327753405225138013141807562044798168896335165665593604797477675120727) 1979060610587874127181344155299690199284112225034929249074318639530690938000
    ; MDbl 0 12629637963560968073846106109632569991047932426373085771860078491081273459311 12884033066969866717448444386663129425042630765339588493195575392228030478382 14473420125218707891716620049698817135140931788741534535567249643435330507508 1265607773153713161346828233719572527734107170516117184049816204063630765442623880 (-1229379555103890361862340361288148666049855653008241975518826450833396804418483926) (-2929841551962996995870128469903008686091420564954357732092253973196309172443)
    ; MAdd 0 2 false 2943692135386375678942026571448918962476735948913365896999173407056773114486 15796345191168370859060781524197331204466883080404505344003252286254181738081 16819135049920570227079216598927963657248269392189281918011641295572850460088 (-91067498527244825538460669591368616480671061822903862183018892693174438186) (-66786542168055582331810673687774332631676948775343437167877321582448832498978403) (-391669187243130172892392542502816471004980648673198941533656576889144656430)
    ; MAdd 0 3 false 18100529998752591559521744388484409284220543452454031458530734624513212744604 9455160218479425824111841574193978029938046570814697159967279603097269183928 21391817648833176714376656285744526133831756585349074829058788124090119224605 (-2968309680637915379633434957858777528506317746418094243567738651997090842002) (-2525147589123279727273347108407980464699276163974578893213902028694871360986471741) 5243856690454864590787209061979035124755214284518283174115900924900593639207
    ; MDbl 2 12635059316433833713843999080822952354973035878216966118223908994891577217112 4708501132409251956889101046211637287512911081273990655443013837643998327937 9096793506333389553402800758320104798466109254309254631206877698197743784490 2818941986774902987996588343452259064883435198756105122389914260481264948245810085 (-1230435219704522132869358195550664736126471369243143351102641385135502391301586647) 4719352372934092511480142904397168336407964535176840922053643132207787470426 ]
  ; [ MDbl 0 17758833172393403778853626451999394509676309736497849102082224073704100265653 5126729562289595490509129229952636399104800101618222672395060960843204290207 7188271879526502091799638042571349776853470219492098478047221817219170004839 2490218603004148002741860910054630205765269448143984145417733472881072703769835880 (-2430709389000120691216515864583935882206070626178357886520864485063338443811663287) (-339325954928648850431027557601140923449500481669423866626336774852188320967)
    ; MDbl 0 19670171479433389450807726605189134449361744012646316576887959168358136547712 4460243712929272067603684357838760268659953884758905599408746511661764692335 6825014767170390142874184800446831088265150147295834979191772177064298685351 2179553520939892787428930229264494897478213746841857970393048978686377232262462160 (-2982088140537395970347325764930077604445899354696568667974325594838984566000724391) 598946704963702017337395496962549536023331735384740216836612166177562670322
    ; MAdd 0 2 false 875632915941011243497528851413780248455693535957118941155469089834077337089 21605291743894550458414805038201901252708384168179132619683467194016567436241 6960859782791441923125924728165551262136611602599725555435999949583784654810 9931467290274036323371557720257568088230697018412591375430860453688756367 (-5909467399659686256936838730976724460917586107964946139372969400866118831200183) (-685882758575279495944409763739091892792716185273990479174342521523061809635)
    ; MAdd 0 3 false 6562870682231913477929883502928025279879199504847998381759333088115056800669 13547779291478362367640152562592728129471823738429276786177469451126084552020 9674699854535691619446050799478927236121891983161672005926619982691920637055 (-5066256454536958978830463823340532378626476959455861098169477112985266294368) (-331964678940401281406528456726821109394662645563965957873876897647799749095268988) 2415927699418715864384325436653348292678118619971971376503823392646243644752
    ; MDbl 2 16293633128207354568861019946743683501884672971848829988110615744054514134089 14492221835452737299986183589229692044941967532262351530652839421388018996639 7394458824916135095907944609125233813657866934140002612247608218761423039456 1714179901843224463632193838773134287772077853665546726638656790580434960809470008 (-2046162166848694816493744604303229706225742064494484100898001854414971294110206771) (-7467816034191527753736947215298127376246645263035492411297740431427651504439) ]
  ; [ MDbl 0 3340169559086290112609676053716975156068201836663906864524727955076682734680 4521634654793457704317962873894124363608778445584961592702871277799990086252 17994819729769274290993635056067293714134150289071753602891766121119407923389 380751763161423753329515017973504294948350363209336756295678267840054532836284624 (-85988665911550247407837865718201097086290676881205125797513858938411111498469284) 1521522398214125074709404101745171752024913532137732251424177398524878889195
    ; MDbl 0 7745821959665132715423345573074401487944314539279962749556640995444758461006 21307104551113846247172621061127636614962626622821254842820734802283303237211 10401813990357511509008336699530839213534953939566489604185879749992088903525 2148571231103542586466167395877041752922088590889495998544916605642896619223796465 (-462422763002291145596600979015791434060395116658044628392224008403798571438140189) (-5940050194412480808925216643104191679214393129538410409557194608779929487604)
    ; MAdd 0 2 false 3559759667023386829505988649620266736389424108936918812313844008445490155142 15045256755205863895660278532345248554739494333935252253464386332982895113516 5713682800091624720783518365607253436489769814220810482905824019566716962594 (-1108327642778330693813643677782084658712520294733460055794473447731604223715) (-97666480939025016861934578624502681702972094601748975520359813219982699925653392) 1018385685659172166647905620257564114397671164776893409308464264551091014163
    ; MAdd 0 3 false 16533129910255338153741315952023630425738008482565181680582836855641414831241 8379034128741004747436781953766920118576898281926463302719239834279189617908 13451884199823877582111771830700364816680463566378725309896826158403544264202 (-417731026959212268776807090935879272236766519730198325935168721275668390707) (-2106756488265403096377501035770595465774642422111899807425745887140881067621513333) 5035284254627141194490865737458882428970293045556928594355732748651932475596
    ; MDbl 2 19281920387276227729022494487895341901558840333602642274966629916331516828415 7406003210506486879086072674691660087149983653989668613954546954176168154726 12231556854007765708556978108429568476492647204339458032049996109925179374806 3091735186315607102071296270195223043718662156941397152433660171673873565949413360 (-2865528645990203934954999005092363032441969500779758703044385393541328705652670738) 12245840422846444427754381256332966683584494311743944846628408965772318759632 ]
  ; [ MDbl 0 567732309758452395266026155574688663420281211247705028172255783885118518250 3671006346422870410553647737638218004353170305043806307542901856293157509110 2137654930627902276883169892024579915265975220831181217619620511069377554928 107050827181205984193944334423406415051366371823041325120005659804267445527929925 (-2484227728675942907767087907175080818116805938189123107523225620166683367668780) 96877506751120203869764097357493845747233877991646335950854188018824985498
    ; MDbl 0 2564407866828788559656960047841579328381149377255259742009260363740998701834 14807536488210423930127345323192304140777562587587048468893556976842754061587 7562267913237682765501115907357574419241341386455838526913072383034677603692 84502269597696207829630614394597809214456175338967995263732292776180241397344933 (-50684875562793926196026269868238943797487690108385548708862697579519226129461865) (-1304746373292418545178843659384949570411105336237548763471308264211941548414)
    ; MAdd 0 2 false 2436485280131533742049855673519456308046845544515420322610249622528346395244 3635116915584083823033182381503535586388260737367704070032464080551985718626 11765254541145924023725798126204284771575422525470373517963433459001874352515 (-823900163531672610476796794477102453844204164687593754084632103551414446694) (-45754284418265726476918620684811761654818012155607411600563395423677194101472661) 1243655600476718112840564459075151946005923530885508875665832396007061313981
    ; MAdd 0 3 false 13211901714813082528991917947517747914590857721417977620169777445855894353537 14861668866041321859116904620620860227238541423327216470732569970654802982987 16787206967117063511756471751671075040244367406487657853944132389963109426680 2276134242385807869279809350047619556120726361113459773287589756464305657777 (-1345348664949587907448178026346564477514933386063873773972725329741251213073393161) (-6776427958797609207285957605787468882140765157045756178254845136280125283556)
    ; MDbl 2 11550962680589848292875215745408355407581614580737750347302407425085781838545 15942367841696058590606106011108650173733310274171762644539817556489897167499 11583418169345897693705799303888674211608413468520400297742550424419195097713 1346524042163078655224898425650260255114609574510039115617105398207715413230719480 (-1028349035393821458441489454457285612139402089893488531222954874234932282625409063) (-598878342570873078000929823525497928499031375218003644075398025421495056085) ]
  ; [ MDbl 0 6353847229891552294793839401263816617859258231880786590054189343605004135774 5893816682957178751936640154747528431859193105356958927738823075940532132626 505711181357760783327190534398553045452432998857301178567937644300163365760 1134543148777518075931154281642380826569052077152178324654879367705632429441464824 (-311155671033394025346086831535815515789295211335827223090429594119631539083400466) 2916952234047076875927492297256092732884890767882361230508259540499852666237
    ; MDbl 0 13229922493524653499234021952927076392161425024346844107603840123726615770861 19217235043732940282886581540740122865041539200572542509620199934325716535953 7263105452176822727543909974731389464437292666882302509051136230471381781979 103136902423680969065185792506559116889850086133896829763149896628678250418414325 (-1349021227073607381103519465813670385878924026231805290928637234067676308705083659) (-8053080975661468533905230542229500981519607453307387608535445198946331544558)
    ; MAdd 0 2 false 392342987736820282256010043371993013186349519200837136415349233214731607900 8773450787597881771296813051398489904172717715302630851772900834875996321053 16445907339588169136433807091490525300726233685120055346356440213620453647958 (-58701431175251900683961029073729148364858646234735075410311500194905178302) (-1186413209615808197702499741934330894164720639414694112397064786150923657865459) 187203036000782281599275349413251032888813905812619013568635850682047303039
    ; MAdd 0 3 false 18950976796825244538365630535117369217234247063211952589860763569250039452991 825159732523589960474068919522109280970418265281185066758217589638396872761 15749749214260544279905389693435035035698622109720183459335686271759135813563 6206892967428186747427118187167932080686210529151510207095864251107259441143 (-2768008270050615374699772061376466395234216373498456760774845718444172880141850583) 6881679824236583078330204600724044549067092906775075314364698200355774229003
    ; MDbl 2 19306856261081188609285547433074453426920677374511990781197164034515316702930 5283400413283527248667193553995895968256983175120613715960368674516934935610 10754240856205883927339528159410571327906587116082896594019645459329803312402 2161614584090428579021043008285399936353654635771040468848073879409092261768454248 (-2872944988619476175498802783499857487824331071676499696152699751609595690587055942) 12290549951904679132648648084245353141721822195238532564489602776722395339377 ]
  ; [ MDbl 0 89839128278011546570784243630003630051288280187581297676340955633191292660 19172720414607877047179279026512330444081505587352578206293125842137055291272 16165702002367919970298709559604366438331665756677470290452825546608342319355 14896732585779916175618527837251621690860121763680458249884575288114098760476533 (-62206424845052841431655000734701913531745760139561032708041069016560971174070) (-57007974947989802237502746067422970923506744876838073019659865991527598181)
    ; MDbl 0 5240241499397228921891396923828433344902805890066259150888033439545578980489 10357222795946823370644141660011817822325785896458444612090159836315209556256 3440541645578172706138724463676502398449885777751021336413313770991831910604 1305860562786249227238119251745886545958329573398291674124584799725983895248780745 (-211644402983909203767093325716591437399878764565405779021047779977588382257086694) 2110509131757605253284377431966974069420647914996692300240394416572994405345
    ; MAdd 0 2 false 21057298988795932297836560881967797520369054798677979693824032542348274621574 393387460288880174184641760909525498890706468118608436599606226804671567887 1534833038036973390002323067642709923880736416581374465882602791613043207579 (-4881204743266269977334914636265189150466056957002380288351905856691313089706) (-3417507771851697539801288015768268202197436384525722873360282179898038082701288403) 9585578018599931123590589529915271255644720417143985797834369197742356718719
    ; MAdd 0 3 false 4081567678037835165824028171831672228721747691484204903161445134473705860174 4195607001491407928112748036947080591871513523181285063896597515310174890986 13978757851188199348429887620505645536611704748607430402530536730762962627118 911855690335372529594249612733994879672900976351125321039254952347508205987 (-128397978956126904431101744438112916863954954840572698800310375702070685777496093) (-709011521621151347137197066799914257318427581354317621440873739375159871619)
    ; MDbl 2 5649930493536236063171091768017733441680171648527528761270946276220013179743 2390056118790320772169091864909981329348021809013781556292536875280895877275 21290384705108951384940477904472454334641653905936062870264736201639055490476 299657679841274111123243958732261366786117745354344344830072134863231704608635105 (-246031318341980623986409212286432778094692060927479031550085259222064444515505105) 2056535018362109336142830636852847483628241164186062454125499150347395148259 ]
  ; [ MDbl 0 9805673427575143880953639032715301607953503965379241916091332795307678107791 6221856519533532971353213706521641635965044816532659864165285472224962318663 16176378314251433358047615631012415132279489186483094020597724449236945050647 3218068017017860142314127107716912581449894268720860575370685180036072859755426728 (-741069661315453763613003561398038338275687052862145399057329710592597042664151283) (-1716601172115110099896962412889187188325402398514497893896573937181401475543)
    ; MDbl 0 1058728393554115975121113623766794043546428179552393403018569501570710155468 18910156001189461742225035395931279005831060422700960934894644280217104355789 9568015698052176291308867333373686828312552270486590346334429166224987001067 264002939868703591314522608116408688763798733156704979907389752578974061220603168 (-8639195547879198156173041986485234928182252082775174382089100119141516262567189) (-613729617576117758403124339303565621851203119765656084909670091802940159946)
    ; MAdd 0 2 false 13074373236789324018683404993258320181087960976365445451547630916909378339106 8244869673299699994000574803790654516570786298424801531218448902558366282134 18981952499890956338340904942452787573537505845022943938585191678165524228296 (-9867852483006375341253728692993943834741092962527237561875655666263703005029) (-1317485793792722426219605934549073575395309940192029147016780324514567424199008488) 6370631710572738311763255163555360999557321604430251102300393834960314909851
    ; MAdd 0 3 false 4518708913030036689282738512886053904507432988650848443237933814992023869973 13626077982036836299651578121820285209732653866615987647823033203071250678110 586591292917825586414751591543830935577157530161236396819032328397744833008 (-1208694473457634868204260584691320599722926035593703107816022939660977567611) (-157373975232948700736451506745019572846375268373810159813778635049232577237633701) (-1110921241597064633029613997396090443346943985127605832362790285566341236256)
    ; MDbl 2 13511650524568995120605601854404548080210584516060193298475937386064000934340 8419065167833883480289864184326438903833414763478317435016898757206575069190 8127999876501959356867943361821632945755031520012591713705828538247075504909 1992852442696601992050337092417301995048641052819734433035112714349556855714890624 (-1407087131349023650295768479998839296276167193467888085515407686380522880154347098) 6476168680683979389970036831925459018089012949530510201001778718552329514852 ]
  ; [ MDbl 0 6506774706530144276608969687482924936929899672087014036171324854623294743455 16479847271096468922098990740046039112537529138963350254184602534852804011726 8502929549017611445182784296890696948986386262120099850331844300395954553674 815246255435104257744752066107039350807131638182370165230314175019648091316786573 (-326314012206302415894686137119060798821702155670426134038397170003065665280821712) (-2396249594426785799851504755622784512379886843405803588267699390696590724239)
    ; MDbl 0 12762334386998361736787688985131302981606289373858276357112576264342681788317 11584402917178120158133926309614196077908082275910761070416818956720974479878 4809979090002452229996992741540239179299661327879670421903259889956932742002 1672794313873202631850228403295506057233687967644328391054170387701927849068389525 (-1255348830836926076878986888683772563504029562506307495932539955532236355158078584) 2854377036268655750549942586334925385052478250107148357790219043676182845420
    ; MAdd 0 2 false 14104971812823579766530723128931195604665397520217676065340674590661436671887 21327491922682165388143367836073226266135185481478213112096701193519548277659 10253981877663281373949589128851902140887299227164629277019214071007465921061 (-2039770848394976164193550127382583748414985774506345231080440448151869181339) (-1533375884515671818213764621823214218442361613395739072800400153401591415157840925) (-6278530286653290255698459644473247964358404685566088449936260478088483166930)
    ; MAdd 0 3 false 465138974875804792860844416335133749850896077468515458036318393337427330848 14192259670217999176230091110525337157404436229367568301518321467582555348523 4017626402816184496685448326180086909438322798421702578222253973715764715186 (-274312215154299671382355894709668391907555710304303491349609424898069548680) (-1667514604951356169206141884807074373044948514613304106057611357923566522023110) 151628188468336192141963590474889552185787278659136566849838573502690641193
    ; MDbl 2 16948971356663907258651668402632641250377047300676320144616700840796713494187 5160462365424609903128626461556143797789742200678561142755295429031899215103 14430436164910535847929434245195944627922588852458743485508609430274724550444 1256686847892601151981562027986384860715061709296674854930064959176725926232534773 (-2214067592041311693491218390186512900349707726058221523107844545695276048572722721) 4974322746969447944088691438115991338898208182305943275181507603792785865487 ]
  ; [ MDbl 0 6032637163071685693460434820552310729960463846043009144029580739229555043990 8866570621550983451238357157726637446311852275312880413016495756640359955161 20089461624162151425919246292013855574041280446485036261500866669373296232462 1341905780499133071302072271274347795418677551619332285225977187123937511096644048 (-280490782447945120055527654036195877020367493928634398282169732012697735131898945) (-1021443636530520755297839091475524908417740689528629023002889101976614418678)
    ; MDbl 0 10629199446066069464295168388992602875478159321956800531518737613804410303544 2749785686828610169699391547579166453982277548708586657273751379948406818749 9248334505671268583979797337222314696625873877391326550023083131444712920664 3291580307729836472285204033285057662331412008621830725154102899516043691492581160 (-870773684913776332657522092289699535900268656853187707702838173021056454204612457) 2970385856029793397768445933113707025499196753934078258719154668097999486906
    ; MAdd 0 2 false 14231314858712053315449203744767333724951573939664835750492038301615937836686 124742056741884783051231673062742317616771254455076081643947887474937530663 19166511282935750751211207611375884429015213348111830439937337796413065907669 1567375647123886135656647918588206237552443943151191903062637695013757633992 (-1560968855471428280704140466781483769201881358023585359962759501718022576271280589) 1706752919197732453194252557819167847672050250046711726539756613141101016839
    ; MAdd 0 3 false 18768958600378118738728738204509340853253081777933665805060931176061142124408 8967166877081762064074122619732925789894338588548783521492146580730054478901 1754815343333927505930790711910220672954664529992990210495643940578380696078 4318081928739456070667311833505105810607304959966220462642385103310975658985 (-2715091913919401613702996267219091187962090853923944900369752966198187090445532245) (-7582294583976770108860191814633508371836572525305053530099618031576485030003)
    ; MDbl 2 13454174231308498239138156415652985296399762498541720450780395551666473121409 17529852350679530560187828434912781069016635416838016604693064282550777114432 17507535280529482460225061535750198368445843924009232983570445267654760867656 1918028212136314410013870266838694441079328891182471269030190380794488344350970624 (-1395141567789200005759582294386568612176024873575434577852966813593340273365905584) (-9084949998505526152172388831349254487995011692658222345561703484876614207651) ]
  ; [ MDbl 0 7136497449966962497956842871588840728071689043304023656253596085077910305413 7110666988263799972626175181522662952528223895695565418848263072130864843938 1995350112631413423055034292318870682266442406080503209477124206893803295372 1925988997129921184981468140953966399554461239626444113108661578622566752109045185 (-392531409248935713559347597414701614999663425412429596608286234484380015581705400) 3397097254676284872209777291211154803607221079480755789656848741875496521282
    ; MDbl 0 10928860658351861963024969226508604416981653981750253034451330373720987535016 2221204222116655802494564979349408953424317431641943442150053325428419510599 1105736496118104873092173139562227485749871123092774433932006446801475215902 336153108161026151948160562944384137139417276994544633756518988523740019098114293 (-920563944915435007311669663892442436621239005359683316179622730342124378770830469) 2441322383815980124720316652176408327652726176872808932067378391623730503950
    ; MAdd 0 2 false 19371202363648949774444804694411310560503660883375805100650264658478755856876 8146823670810683378865636722387644358733145415759632739941484263939268987935 18465121736348780628675103280086475003772558177930064986685096118338858533542 13548228724829034650211805491396680915648553949375406112693725477619279992162 (-2892126865442062979945154788710568065796365129443913630704097041966050047549143392) (-5244202293565851789959545631424716050512054221094555120172469794989614906340)
    ; MAdd 0 3 false 4992424532314570393746872107528492531049431329625580373674113630399998514819 11745929585051955916437506533470559986917573181849994021156349465622182432822 18886895412764234519487050003468238404337285656974601206489655529771238225094 2140147239916481721980229480009006012825636846551090782219461257506426006337 (-192099927433240454382636932975468654481298459846054313407858810549291889981058411) (-820909415427493883639765047173930058346754730086890715644211072898279360817)
    ; MDbl 2 3433099956895250597796045577227785112672586295123777355659143374532653960215 6536377593569683497512375263730757653004928288294173720398015483369171900198 21703241672750796799233425385915455978363877899165453862376557958657142000532 58516358320494919884800014412669800136923613140832434118823201295991142260901424 (-90839990542853702828187308965390000032584714867794205725013135992828257461471082) (-676820958277591633729998159641229309630308497682506515448568910628636907707) ]
  ; [ MDbl 0 14646884432949460161261336712304754832438484893546097498258117295806165667935 7353850240733380541481113653060988193214086664561726349344794277261826969681 11771973378720613663499425520568253559305018149054246210369016801829687590073 4900095673112053388826253129800993427781188794201489095201764117480772711998211013 (-1653463808488850322280342303578559783969455221442456301260186106346600897039325075) (-547025517772766307919578995660050770013178147739963519046938910232417464130)
    ; MDbl 0 1964240043054907599483206788720336253721185002280516624707505429798574606506 12208992116946132125789856587555751056589177774467009419461528078310485712801 14183752572066505686048585794962604833135682900900061115736361876206011831321 356440498209915021207327130501097185319328922551049393646244745800956859035153480 (-29736736481140946093032208490676066357809099575748723561959428807568048303881133) (-435698020339466904932600752983683539509551992202230145001325631321809222642)
    ; MAdd 0 2 false 9470434990929697989313506130914542835901843877798368386974717268935469044427 69681193459687071455351119378163648706572562502121514581770517527584232971 17930963496526619359252036948643153668888204932490459118261451378531152466690 (-2454382811210374003728492117610298871916911001254993318740663577509206857476) (-691264156011179704286766243546131102198551505929144094739883884571749482786678504) 5252342803792209155651586371765867241679716101198189653331757689234714476247
    ; MAdd 0 3 false 1206097036115306760050235993896742284058488131135867681702084282067024366676 21303513014062143133877160709677479202870330898364211927789946456612387248917 4899121425637417090541931630705948784958235523000530733919251861484961944595 356331177760492360042714801168093078382605567860278415769098227314497120330 (-11211628116868407755947685768372704521563210804967213508479405165581219196394752) (-1170037347180052084286894763204523306817804690905633264536489181036004083293)
    ; MDbl 2 17199092155624183669756383198436408472620643567223630998768763475432174835945 19677321359869437324056631101937728291834918841330098529350464506666111585127 16962339327585498107290001802109245061342347431609165360035870934877300013345 3760392769236257704647903065033001570189296239985065480444508697589003670299518000 (-2279897018510045365597740286706034213784722645903911877010403503528392294297358431) (-5868377998621291550404725889582628042304432861079377038945306923687236023408) ]
  ; [ MDbl 0 2948199480399234604658986305076106123979744578533399247119463517723749490220 20514518811693412101028993439459548890366893317113224433450750345842313599416 5591858710971751895200200279566105231675430012302562421043528826758814465836 770915342588729434216232175486466195379565886763821622865617498943885051951339040 (-66991224207215878885430945703302715876900969887734620171764104211557264596112704) (-112764880530202195805803066969490361342753301321453380038894412470112562233)
    ; MDbl 0 5866431786727845302024493835556986664793473698648007078276317170301538304308 19588439425961527995757367388662143930012292886502199221288981162202763976388 11290382423030876644364118029880616017029694912677101593103513632797443613263 505724426830748068816964005207572137993322042389127277276897805054677390808060065 (-265248070844690503054150074651431241140917211555953328432617380633852839278742254) 248205467076599746876814155095624163943493351175474418293187483456225250325
    ; MAdd 0 2 false 8489409528922288550029435879539867883052155010923671162138642455098226038633 553763487606118509363441562011787458001245634351551959944138992982831905265 2361212275686226792667424256175074268321089762858127802431047985657497408873 34473079501399055666186213440344608703018201578224874455287722378576665865 (-555468137860728687216992477044936894344756397523082827572490327166315878594516434) 7382646484561942310992863639407939505424754106405941050089765605455226968019
    ; MAdd 0 3 false 21710211181669768714583232113406721060079702244380614915707819631905337035504 7828180143249374885250482516583050040232140488466714239447556959014164285386 4951495239486191894861287790302050208087250071413266035552447988309112650630 18968013210684583287778045195365803877956785842061654516766664076960398481128 (-3632722966348314887672050180975868067160731071044537020648633837643585416832179228) (-7215248969146704253493828258795603610175033426816924718874567275616894486111)
    ; MDbl 2 9394717553341382214143339243297081116017931191638289194171198876162410074103 9303944730502353054342712702972429960394212871971667862508706593011769059580 15946960067363225379432704207924617459428731198406708048873734824566290507904 1635085730162208407149181740911543099479489219088385651159017516420801999464289593 (-680254838092901789391642836618400123024483306075470672647977336458280359799618362) 4414238429663296422419480352738537935730874301833280301563436243957704577321 ]
  ; [ MDbl 0 20398527034322565291081023656445481316615451693606147113013059765539546330391 4768025920765389229235364856064415568909644315629303879967466719116354629964 1899677843945689955767523647005105182787087839282867988912590331603754796859 5014318568185631557570481233251943079592465970258635218909704995373928798121527393 (-3207020975287564245625290271996204966725794169391177245510403082138150174061705466) 4227203755352733705303030422669173250381963670045044217707907256865160036629
    ; MDbl 0 18170600270050482600166387755055466443792447721989299965436395804341648224956 952513599761066540103599566886033476287622872839615577961526162942203611375 19973868634110305029747856124939393503925359293257601128929955901979736008777 532091050793919667053289008382272853338468797550264160604264340708778272113906049 (-2544735993989194892825803912323009512080956358155239138411216436704425417860351553) 3167460705565364439692480209953546733814694574238170536246045329892643167944
    ; MAdd 0 2 false 9083963759450153091411655677541099776687916443263152974771196677883965633800 14096470058389261661716836040430725762044857362858136062007507945465316864880 18650955108856281523999824474017900866627419756873780362405497502941139261768 3465974778121729536130096382695085971395143164512479416686473964143216881969 (-635996857023313943703627773687546278760436285815522538497576385948696203445892949) (-5454947883440410193734728813078924611316856258085265721781911341461670431385)
    ; MAdd 0 3 false 773789868715820686619446001440014614260393595509485636258741446042898230602 19261265808884394829883191833420480270746499095271564720022719674318302624832 6650740174306554711631643154316688806639012800476769031919022377718235352573 (-169424634311508714045526442678469581509557575433469455675770658772057225408) (-4614772138625247955597233687587823074628960132260967876961838463174062514958870) (-182585082280011883448963313459892356785353021831825934752380441814763914085)
    ; MDbl 2 7779863595688154397006948316750741045193208923146070823700666532882817416762 9490992476883246395649361805843443888046441433790675411352221766439234365719 13049053532507620124120587661474039030925583776284257577065909773936637067419 2395346655800390713191712059494286236658480795684269315144866195835677845592540128 (-466496241175048979081937804760474191167800707028505248593768681749048910172595551) (-3034880477506924553943766920459879941979317163026953053323265626496362422772) ]
  ; [ MDbl 0 9618050294714695148629219394953169812807591754014368122862461342579277447214 15427832301610345588224370403614774300123841653878799365713399899392704560405 13229677250424803487016644907368907199885411438293435687807908335620034617321 1934652671102774077466359710744573165396038834211484606161488501620387489991596624 (-712981516270881670532061220522625003611524253520867370492432212503465524808912173) (-2608744080565486576733527733467944368478167986165135387090493315415421499432)
    ; MDbl 0 14676486488404600723493155371488863872401990143839407140686169091614342988944 2260395398448517943421192219671393349824439466675455384611006529636031208251 15380109504157652539885311930879416945536744549928482303958841816499915662606 2993024427367815067941202002534674292743229093271375031216435115881987598299624368 (-1660154021497467859301206275710523867104820766805841134635630166380695804600312927) 8829018890539005003364832163792977984166625283233816492842271187037856361897
    ; MAdd 0 2 false 3538610247688461512321285140428292780035320318193702789922326869925344190273 9388659532447120704070412801929470297280787404291634189822716345383133536714 16118049450592654915516502234312789870470115785418042417527886761133444310773 1168950155956733477319543210902750574158689704821636886661395064162589396303 (-96509406606822717745509541893555888169087966225205155550799413936965073123004946) (-1152406278589414244939040009409497890669338676047832947137400592461751748434)
    ; MAdd 0 3 false 10183491339026711297437688465822898722797951665619184000965514089409166336152 14301996513987298960706478639881774154880581383691238232098102550428165479615 17710852570332713447318176088349296529750356288264281891763586150603747100913 47610338548606352731451834820048246349053584471792483077370995457398938642 (-799277486670528437727715204218799786625650376007281338118078922254060349747581338) (-2285926965001261471104247799322234764243878943362113462377354784129359090014)
    ; MDbl 2 20206333433258815510600107012936595595641571280352132588135942644863702973358 7025885604631661995229882876381239707939519656141799734294689872624121507674 21588930630646166093365520427698466887785558774668236609068294316176468166102 4790503761648672516898526983845987537201463662119729035357675934022798656784909800 (-3146872983727852796372224567816477782094535257672608038295257657598284785637563322) (-4399306268798468186076730115551294171585691297187583381642079211959436590326) ]
  ; [ MDbl 0 15011510356273784135743713649637049366509085137607958905914584374683099832161 17558589651991690553624028454591816738758580012033941900829675923150586675485 4699086546007095911412554550873729345320640156172965560655871813729573057943 4995630270418556238827505309521957364395065737845505422385973252769058850276370949 (-1736812611522508042226166562426371625107505079309018301632558109341478709483027143) (-7223594731303604711628633539031065211843129143138911731669234590427567412048)
    ; MDbl 0 28296786771140338739274485466325784220398165119614572607182726171037137880 9618281644099431020452576788076541286094860767935946756856563526506048303114 1415480471921292172965492280643208514573654570092145577489779395191224248195 2091929898333250204726151994709237159153172779851174940103456612165641732441408 (-6171325138980492588420511896957235993994772551157591083516371468357734493246) 10265109168976660985792054333440774014842745593075327191569354792284498926
    ; MAdd 0 2 false 7006754670858060644907938681950799521360789065350208072710448466580027176613 1042722415769078094586071023174883460346968578900036892732977710895411156044 21636882579343666666183322618096267447230360152965096034640917180643753812310 (-829864834953212401041852645720731604272095707803908243776465318391797870531) (-378388568107645596369515893009666813042438566951710208638920043934484722736465990) 2745165065562639768986850492857340562593013213664521890668329140806076279965
    ; MAdd 0 3 false 13489630830233949424234830960004702716858903676794373138679674876128539026028 18134673434392100036518375199302907459097150822329633941811025935309481099808 1503184803925606159695810055222810284493950622108767950598019065221502245262 3687397982897995971396958375684461223456451512274228232231128708816714359144 (-1402504659097074262119796544894650048904407306340574364669756604128338751164895872) (-10533696595001794490306893040171311913989062296681163692766977621150899140692)
    ; MDbl 2 2857104370447196415517219924870773517803438834723965390905666352292507287175 4503668677563550671635947583081447697365562635794265665378747705253818425782 1987416284025737296388812206774648236915582162260148280399084153125061737231 62352301934547375714282818183251506213224661754435941410328886382784511870900749 (-62915317793273572142551388065821893447443527419635336419624034838501502739860224) 667617914576238937885376370881944169881780648028105028506040459890139579322 ]
  ; [ MDbl 0 3492826509454264307460173485946351140886665561411375518390592376426060582426 21797657488820827595002865962973577524712895917519831745428204083078242122263 13882358844210158471590296298763829250563323616214666232462885697249662689711 107006786155088302681448878443405532041677069152679197167995583469073131424845685 (-94028219542013150765484568350022054928453430525357839945346019632664204088594925) (-2759696286625177387148784231243926788589636045139022730715204342039220053144)
    ; MDbl 0 17164872762259646953094331410334973402260646832634754481391506325894770552249 119409562892195603252719484764519651809800564006824652786520664480295124920 9714399238165428117517569129008755110716696158403712222295773183256316451432 3673209794516625469237870662240221592305386724038101781426088982682085141086916968 (-2270833856220415298922709470457743188156592436380250293843084957743304199717186332) 17000193644416374520516224288165218097803728833813624827965810837991950984592
    ; MAdd 0 2 false 14182873794504347676942103954301424685662538919829081266429372420334193789760 13429795945642698255904569202292953243830616248430781450147921059964033079519 12165171318136182664075300980298420619915571998264313231615487495099671030825 2840858175317024594476348110743679086310072151698438037667411761429007517913 (-1550360376524772042693224064785645628520917500259372164046881375780350179698068807) (-8624700087987301421643262088915745859536054325711169887793455335376909794641)
    ; MAdd 0 3 false 18477575745226508790830798447458677827627552426895940995686895257258222053862 5176396815374249803533350135741086585136156415616935840963918699048243102790 11646679656999427523277347495532663521362958562536352042410177025029757086266 (-7535241347292526352250306748814821281273732041970232021405044319041081831100) (-2631444205535370925848243723735160787156757363954274739859187618943982568247317317) 6967338971796916651434271891977602833957416129675048330437399015701449239571
    ; MDbl 2 9523053843420142635783870465462387691593367957457092092080762199929332825051 2680116668738938543762431016968130738028216752830342757106999662444639273227 7621872295576538625021080503164223761949785424517835030790446586633834203688 1426022466209457002088708389334710148587562132868899821835267992427004369951778913 (-698966985816060621812336867211819755791179143331309660959507245377050249556048145) (-1114102753199117521148897345620000738017608868486490350184395614985188206481) ]
  ; [ MDbl 0 5185365988884642261942019915212752829479616984785467148377298479936488957064 20493976829607565916674542255648882592386136698267967575409158882421591737298 7952772589017041030323153615748251705745141897984177955837648286010272283141 609222541107570909364430619693744574324343691042940535358945990542473031752068840 (-207234955979105711770148867986642157978105627412372831420785528389786200899860450) (-4220137045708561664900696823018846037427490495884097868705394793796326570469)
    ; MDbl 0 19093645083818286507853257049244252576863583986166124969179909822780849854555 17524892235267666893122262784301669424975015947005242715459340078823200611906 21637572916295340217046179781769109933444836343788481501699465957577949155147 2340735110094966378475691382645254634998859726494373085981394468372222117479617213 (-2809841837579544430869194887176817476153432866795859574296104254441869488705983100) 2590004496939086339243546327151640476968355002374513231399314426300947157216
    ; MAdd 0 2 false 11128117162207507735772201375395266867013379174784804133843536041803009110311 1275437788088171525018339553270932314546674968575424776304078196203754664252 4521639641986038718863765313564773909660569063141303254337955159133933245469 (-7547175107579829604799954308052213911592565045187815140677459840018561037630) (-954437649525445930805596067281764202519152726761204476166859519923597016464619199) 8261322481157776309779398187050562862695766320271306448584390363745220386434
    ; MAdd 0 3 false 2655733465790002068542842952611761773116925027729700354511552858304966976834 11770305703247114280141240079346464220893466614365659468782771821816227949707 19089556690485601899955128432062424183051179153525544302827775038530221691742 170431803679963972245442998650092841368640459848779851959325648788163676243 (-54359212462913991475972147928365327929196908497376469382049036584068816599493052) (-1273358126759094042310604438808830365922070012519015986844798697270769867993)
    ; MDbl 2 17606502588930786020029709796819336539153387368834482878936316092544422166572 4241069179791849810868219179848406781753932112276623622482165054066636071804 13728403965499992280304032905001300898263748473810467329202615353370846535401 5872444644109542395304318648007526981257245449752729864934349325490393621676936405 (-2389188267562013342321171027921683711454783374301249124566240672142576615609107642) 10685264522445437190245467896188991665629895577887546741734579398501716421588 ]
  ; [ MDbl 0 19697508967445471579737311837253164706770638310681160750569703272547355772747 13436808530584145381457564849935793738242712469814958548182545332251457320527 16668638542024180871914073887695163957491602808306156441497616848757665680030 4168365502528701871151723861370628491110708728255973730137080018948715075888984649 (-2990382877452126892617399999244062290234177244245084875138960959969970516033702749) (-8275363142902743691449905108152968927983895852372537089606410243402263310936)
    ; MDbl 0 14150660009878507206080957387679299650073940858095065236391629077956909362286 11483334660377843219967295596972928926872638645691400848412497987940749238895 17957247427818999462017486404029110916488255548717791605660135106517178110607 3635916999725893414968212927164106545459969326443534014260595784412542820201794640 (-1543325658758618619361709462637211686107835103035497143968348665664234549674963191) 1262912913445211283818457990773544601706875596761161957452411597906917944595
    ; MAdd 0 2 false 4883287793601197298842728472530939392015609853242438077902594836709285112889 2471197232812744974635571594749373990601800583366645383298292582482809436842 21338421226328435417776285323360789807424497829218403671487714081854146406298 (-1615756313854949015037158821124300893602873486298686492734389948520770573429) (-183792939376185561612470891740062114696011100191919056182340770134817917378257867) 2010616427822333537337550691921007443221752225139915730607724814492099706036
    ; MAdd 0 3 false 392787922238284042784272250932978247162409732487333093798581790283544677477 12252267093628411707621957087880794982162105838079525863548761773507735263305 20598246731393131049146421138145293958151561333986358174735915644543004541455 31760627326378550636769959366061605719592683504868784534321871497378298763 (-1189105626730710932750549099349782342096053607844163222862903635589424150619397) (-175522819734430928169267253603672486253652319906842542408591063511487712612)
    ; MDbl 2 17243895152639258847875505283623381205525574446795673524883693555005519482220 11847874125769761648613835315971306671001643047271040264100026601301593705486 12419892337750385455180387687599998705267211066917351356339365873798665012784 4773214639996167379552120633972711938802444153011026304348010611532305756882476688 (-2291790583815175827859264952330724251145136266967475298340255304854423840741965222) (-287189810393820248579420012780207313007400630297563150005755745797168937683) ]
  ; [ MDbl 0 9197967622580291415875536721035079571092761058331168181633082186041669316139 5839953311556951075613962506939041033322202293462216560591656639763233953700 5922166130133872651306856676524189729163108767031997670798174270410681963655 1760956515778990374036270523813266748663965004281961630841283329719165864427554085 (-652060565952813859236524033642472419756370277784709550176857248689597735321194710) 2524673243609348026326090335981614135737669436290762902159829180405643132695
    ; MDbl 0 21802161419692832637377951618317992264313995739768014640693018092475592360561 17223446502643226716197735159559682941761402466779556045569296115039818361114 17325377888509182832860006905771315270605567201327570568922679264675919508783 1990285303722236519540256655759211715643848242215301235222754286879812710067428553 (-3663559801996956753714886912077767576185302214394856423036428134200858988974098136) (-11338724516408941602116847861526825664399926870955926014879982466906499574476)
    ; MAdd 0 2 false 7280458468188682941748158877446738681670342100733193912730420332342041075404 1515496781633912530794399007128903366553940132234429263338549988164710137903 14886780421798111879168283732531928310805990885596148691381334929338903871265 (-1788020704161755435940744212792567474009006038322189747061859008436632313489) (-408527824293231178115365481566116278069274395162279828783561562631221336083099153) 5224771866513674502836679405082005558472031223982041151581649176358616428788
    ; MAdd 0 3 false 19543152009061573871632260035838049485387480261550380256613742332186817956321 19589969923501286542599380661184337161479984349943628455887956346028443804519 14541540546374727383864513771494547320250001920623768668896337828951648651448 9225373742139165472088830017060798606661731902923265980045795249816630738672 (-2943699022624218394396263552218894162382491601099838360908995923740101117625726618) (-16137986871009743521300436223202322171531609173113936030182597917372183802897)
    ; MDbl 2 17256260219401221938430481169401610893173893682634158574270414013553219588848 20521734777626923334515947987845848431384364634880827222948185550190557855539 7890352417921408389626039082016130516707111500597177541748337061140933425662 4608582940108517226652602037800188405698841167032275313914650021967535389446570549 (-2295078507283498154120181883463750604544283408558341068931678257216079123451240545) (-2600305610869529097248191325275381132243382068890570578891892088039758768285) ]
  ; [ MDbl 0 17926786146729821699105615064176280393724094686360394050750099033712606906879 16675400997926630587116176979633940422797741302164940527192403135590642916046 9587365222921125108481448024472840754892657085167326686737251995504652590006 2180441880575488842189071026579665197346314088816979196004044563599114142053385224 (-2476903341260661722354653922411820606362024039179443068081763435041013996047175466) 3150202760512227084411747265255259624281869145075090970412576063701985114087
    ; MDbl 0 14551997638192965533122038679569027028020575530978659335126295307541674440021 20703351233514158314826684037003569582032685520432521611439722087148555040285 488068371882028301628737054984766778634233974259838213192402899483484015598 2150620409694893595006964493139269910832207584710118323989602754371573468079854645 (-1632109958659877335479378873106886424555009008778114664484798681121280404652474575) (-2677908987863085190250105761554364087705313089738109845925305935428232778719)
    ; MAdd 0 2 false 13577302766749240793399092859203512399114021674172694452500304883190419907375 6642950399024375332524762148518474357638680310800809294045050339061215674138 1113107324342497044995819043906538730981643683176481716991214186781956771042 (-112656900941895474008448777364840715438299084009929184942715158696105492742) (-1420794243646695195299656769493169234967684826986012111433859229002721042843840480) 8721683155175986442144725693830567003665763218816731027355632382858664438205
    ; MAdd 0 3 false 17539368069850180265992373249096635533247838238407608352081008688752769958715 20601059189869735213028021711876832734767790192719963424332049418743355373564 10115594647038083476694635268204362523728522945206991164598688190071099321457 11121272228369692126562081440905650992563904867409098979281520578309514650535 (-2371002804160135659990934528498622392870840758199042623641104733911938070872614367) (-11184836036181840002729554699187414862236524560102240639887310303854436563817)
    ; MDbl 2 15520843432046436597362138668465946504388741708200536905535153356347116159705 7846783210550728702945672795317262640588995761383601402268076813403085079679 2262136695783995385921908020977309444162672178656806537886754538892809583452 116828447244031367958160837041787315814937577871948232369428461999350542022897808 (-1856670424666535825035475793801223374569567998646634541742631555345422954047370991) 9116528015805152789229508200468007255064039537144621964880522286023270597540 ]
  ; [ MDbl 0 11384935549557651275182651440006872662998194916339441689204275565519375145632 3207328459283851430175571091038701983117777443672411016246949003932412226010 6160954271031519853405422422579994808140754535709248623398975559489259648845 397002125881274116238571775515321644336911445569981913327306495171198119441841424 (-998999650762901877553639679530365523311002328523517512142039653130576594522617298) 2413162794178368470040533203975848049295850413546128384335066768366435300983
    ; MDbl 0 16859443280518644523483710148695798625813927066058797810467349516012913208479 4503169426593067276301414985945396345466015124320931367424219159231622919388 842968335846877414260885957571370395101702648034878012944960351547893540746 1601126983184314394041711009442398952648982798420591750162998233533886003416840733 (-2190739015399877631976267086676903669852915022546007431689705147783650537965962118) (-998122938275232908675744085877120370483550808693688335600451345549292588309)
    ; MAdd 0 2 false 5637407928215255843702030641612520350719029849479251113963333556478831722426 15069240876409844250993256133388430578331169795389170718824442615887946826221 8320569983949858375450782755820793503959867199203631780804264966312560253993 861161627497457446897299184815650124081664688052591157110195274292912186780 (-244941914165783690314010540001528431930061482626678020299884677362240854998478258) (-2721335618855031286205078612505816539784899995378227936354748404739184668941)
    ; MAdd 0 3 false 14105496701681410838208953613414656974065981579595803940411677789510708999207 1114929495464239424486223009257403770432204119891195017409394460753159577990 7263131826519282811628805178850312188762031538076903735246656090522086879438 (-4654386986672205038743360656556168348519003864093320591687858498300184728309) (-1533490009790478824485371096477866210484541038036610733037480213617067029077108264) 8992612806366567525091509354687786032096647225280966373938342959215685340858
    ; MDbl 2 7320357708054554598394486576035879423397279550223415653899826074067891008100 935559897873897329396528236148788044224529832736033058028463625457613593887 11421319209460367956994121971327444359759055428742956182505473682003508771727 95124072184332397851887958633916256321689553856201092177892259348160140514149793 (-413017820134085760001325474218788999022222706291911464688486781258529986218438033) 1193160093562764035475615188399841996794293909679385753731784359818224569531 ]
  ; [ MDbl 0 3136621199041713793917492576257897757190780128138619037116651107105924301558 1387466966115270235500735100185235229142785522060817914856501834510753050310 21340213238743058585639525792044593497994657066929451427537457273502587819993 552220616596427223709530968777103612904519832949689803956290345873862256870410880 (-75827778057618469896219973796356298180843387055203402633493542103150557008385646) (-64759026046185816670884346791029703818540370538246739004805139471903086562)
    ; MDbl 0 16670409654371185132093696149476552919247342372044058356662400203898577652664 2289440686218732242176250186669190234157169363202094654916784413582900052598 9370504092449028494794205560350225164275360564405873594568546124870804476041 5483769946213486584154347500864887579499407482161912491269207681698227800532946533 (-2141887853521263667528806634720592544495572053913244052447197973551773918435287548) (-686956531853319298514766125941156461118324129027378634980300414937045622498)
    ; MAdd 0 2 false 10532383250039883535638328791200732141249704466896208020796642555074569000305 19290794196662692257875544163467717503714687720476558961812646600730524721198 3514749675057986374034163898428165426889705727991488581495733658140760423811 (-651472638585341799523208936706953826058316354414172079412347971956782942573) (-854983022664008523872371939509103415742354955733615079295854924918800553630209593) (-8180865498883231069202230167916415127638435023923439090956337401543716389956)
    ; MAdd 0 3 false 19542246507186701545213596439051662656962595852328333385092343573985842499702 4776628344829740732133149097131383607450592399474994863795431741588720537205 18260622195919717598761466886914627550692485764178847633425950576411829571911 (-16387908132433702260711170476519370562002937577650303865744684618214993581814) (-2943426245414962590836412586515079529074745272273643872438279520394656280369393964) 12958527945047271596148466340514950802298128561183524215694667671762971552892
    ; MDbl 2 3681214754068682167402073469364674456414346874978852122390390551636470749709 588851968745020419637150947982808759590182450440603338308861347986857744676 14481961423525696678865770813506512864108504456919826921319679033288099007123 531727197398069052846124948481415468715352320975885977673639950942913577601263613 (-104444720384722858457730181902921613637181355443673365289579578001855377561086310) 286008900486990831861283552715198812683699350453414285546531738266671845902 ]
  ; [ MDbl 0 843076352254091270789035969639352455975235250533074174409653912426599355201 13575259250720192269967752088178112391672634326622374041874927513229392369400 15206641001508746333877992196666971808010673650467983018506238335268283017489 188203884521910874662725421110469685985347973253461176511530363424032345695445225 (-5478201458187035169923315443100681174455075686274120603690299662479835777520950) (-500201544010626544248626328736625249721331726628267082323047408600501887608)
    ; MDbl 0 592621437708599578344350128914525554235712330569955529263203239014306417571 4953716721147976307262871823928789020114375746354070651656099677128072755900 12902554744114276479434903050717960127805481493052189481151866414843093437707 138938878878989827287775193259833685738925436157403020104487995679109378899490953 (-2706817023246387050888237073412009607803325271395423534239066544917019054571394) 233427185501235539869268665686917875068455145920892597878082152180004722712
    ; MAdd 0 2 false 7059448992156618864798208054129941984563462114325736988704968378190228874644 19402460873371063400887881549422188934624888567837390317378588730738583331134 17893868116357286036093612320876430402131294302178344384747398473052368184967 (-1407766729274314115712378018251509931821493491812386894991176438658295341416) (-384101313911690886251645831062471128739218128526710460743752591828975430669566424) (-4660043884772967588935402172557833144808625429833402363211665713174641639610)
    ; MAdd 0 3 false 21389335818020470582725277059206694795219140272476658679756192529868443419689 10136642318734119478246138288772261487440701346674945014321529874473820458610 15310950459672991099747560705290555005993606977786200282548854325996829964182 (-18384783153501805805360560716367994807037352066467151694979332755082744371254) (-3526133751543423174071490917182294721957964551505612901710387205037560440101692554) 9054619224321532510009470590067044015526329884051394842335664463529071367311
    ; MDbl 2 15553765288947348570712798298740482269202865050704409335189636875548018309158 8429050026352311807343551084919713850399485120868857738320045336187149041888 8844434672349049299953873150356408345150444747067370054541728994480809504522 3093469958886944153066387537391362256511554650125216889072419566339790531904054353 (-1864555288093373793458616088880504001608321574112582591313205817043555395977240258) (-2469568655945183179940682393941352884732013798061329244374357150809463850349) ]
  ; [ MDbl 0 9745981531643344941714938447228229599088883962721111726036454251036245180300 19956627401945290864305850889541766341841292894314382871239838434264703006781 21274542347889064530378226075007539289802635652642106658360825319995401136380 1328718631100373976720389791635757005019066458784777238229720849789755448131769793 (-732074621685083547595118466762516521511121580051505421022349805461176084279225015) (-5132780957564285096073292488704659500045051563015333000491811290779669070306)
    ; MDbl 0 14075263335018104061583987962099558893757906881108681076749008859902154660781 20860044635227580801214307530714059399068978337364845667753200191858340555224 20517399386596311934565454215909385636576585072050428940501764982260035401092 4615896586488254883640514306274496735332972638027345193409373974685125000410512480 (-1526923366936044721500819738779526984423479383956442681506614246561645465129053352) (-580943638751446179231710973096067932419270567216475425610336659310775991615)
    ; MAdd 0 2 false 16460234229368387332384077758972339060853530017443403843149867726452358302918 5278369502260561221636057650717252345200817891486857905934795657020320647143 11807338660848955891648300855475759107307333111960372728396483786848460485751 (-9348264461619095678102533321967212510036620896923526260995065805127607355734) (-2088219781461691974385628466820742594704638519027758164232355535875928635587513609) 11717615885217470322537350454347246667964013290629656561794011035644979634795
    ; MAdd 0 3 false 10905021980117271463004824925539809359098773208364072710564498381520573571461 3596192280350068639078401051753108151543571673474037756735910325616127786085 2076121316210932874588315503658681056108599525828600947295124062302788594125 1569712131244311798852123988672619357028805641438729748358333440030211045322 (-916552347647367532332503972169391425780254896349899135798812716772759622320731842) 838083700313266124002500739362010725879037609496168092994486757849543548486
    ; MDbl 2 17251660038035086302930237901769671926521498048299292663243885389049363058506 14100197509475385272359640577451972377909924452040459679600920524887134487307 18537675256133843456933100715454543280878661799050805152802266967045348672233 5456223228788953519447586576337776408662239929731274847891071152823853782846020449 (-2293855024327126352087067321075839719167563272277857474536541817114530543750582309) 5327909837504740634734889980332364441885178841868883227499681565157641716181 ]
  ; [ MDbl 0 2320436525488150425062579398923404909062044857520463847987016756443893045342 3658805670913744869257930135485959162281370549737426833805224788435984089945 21324690244179429636700240107500624187213364350669180418595807455591674463419 663096887858078399340214800181138385720668339632509596428106973240365009843031160 (-41499567400109164649923052779161889249964613172541741562449967631109221627551321) 1106922430502817639840047281218406646317307735062668619754406987847401212856
    ; MDbl 0 3909283649805159350404537077269121496800323623095271186000388510418645091191 17103438880523314697631107393500614016026363472689694237296238485753104206529 15604589012770963395847842121016865707161992495988326253429630492254364663354 1285034282133715297913965342261645035623315264922694492988238361990110963578157888 (-117787322542629648950057347500347096132163034451358793308028978888091491577602601) (-2401238194024919243436637015146378022203319237304201667166391548257755393101)
    ; MAdd 0 2 false 21248921907864370380854239204483047640452678144273537806805302336306719208117 18556865527032710607406003236199529360939447265012801947350808181175650606564 17202121736932562526730770072283105008570538814871548658978403855978312702851 (-2915521439410203769175160546135828104761102758129101842680693512949339554909) (-3479989907869063857487881940866803536918270106735254169558352156426582567571876294) (-1410974352364364851686701901743432759405318143596408284034216072012267435900)
    ; MAdd 0 3 false 19817362053462678040165152151157182091818336025446887662787078676347682653376 7081546048110241420278198552491873220665164895495126618328203537360795042180 6796413636826693584294815989800815178141473794008082630119098375706212593571 (-4035015701038763869977911408034196398941180529757185933205050952478873890342) (-3026884651564135369030458367617756035976538544130049168724639659937584561302828397) 10389621593862087795753629986701143693571518058468813573831132147844192877786
    ; MDbl 2 6749701169992934018709306899164068492597527361892279701690457187824015236321 13106397431491175725289460617179183217412625072723181897127119473618372774809 16357697976931423794276925085940546042506768303717360311879244700099769970577 1623610250561554482091160543107385444364608113137836637321881760641900497223936424 (-351134316247623908936190675456123578678561355265923009161134843586898735876886545) 1232572002376335182976457612125465208126425191590547352141329030312238593117 ]
  ; [ MDbl 0 717094180263480289851387074344272375967852799377652982976379983375052565992 6036867261678248564150868980370143625088798725212467542014638927630379919105 21879941570704591536692544355100211213778082187811015859594008667894216396690 180837755569544013691440834388394897680028471852408488807675314579847998478670824 (-3963296642772051721072867839122535895578637415955195550995884322437803295213613) 231609223803534600842368957962041215943488285933566432741439823444000580253
    ; MDbl 0 8191384664998594971309363942002585320358472411765609911806680046479885137446 591404269718640296185685966334824973819418115704727406361927424121980313416 13613044682397944298351917098442069347235745820375379886449180277709678061649 2762729996605376990572977651356185742447150529373588682271632691019162189912598168 (-517152734133356766647040329694575740452642941760070148260814439384669686521640372) 2037892319969814807896134525846285321068700602230042707008015416187269428115
    ; MAdd 0 2 false 4791950052924683207436380680788999783007838727498527697300831479536309747732 10025175115881137005757859888800732114872976560639006438235688705321296543272 13951979616400876804580233844364507212863152774385836829123614837209571659818 2739882890328535123180480927087183938299303713860882563923196054979278253844 (-176981857540265310979693973592381504245169347460247475402826969883978814725367235) (-2065316936139653832587706323523887055700338249885910694862025826517174559227)
    ; MAdd 0 3 false 5964613101815197202628313344495670585578218831516049590179030960498455327793 19865202056863107481073852350691741168672698160508283043401168914621750134432 20793394451246714469357168548259418447688089302196760435172196077228489985208 839642501268931868255889157792072448309984544943084106766125865600488761146 (-274200814112391856949562368216725909225883392517551054253264758766326465819168983) (-2681437425473142875505006791327960025470519778333576627338055854947707411418)
    ; MDbl 2 11413287840319882081378986757436523937757183857561198773676018568256842310366 2418524912628527938677629007686233554447468183632435656947601339770306116962 12727572582090749893235101900816200619434703019634905688174117057058964777708 2394970829767486987389261940613286382065862118142044045226321964209508195410065265 (-1003981531681923225447887301708317621544126509208396549593416716125940431839328476) (-952723977827853131544920754353822812949916087725569287730885155859546857929) ]
  ; [ MDbl 0 7505092511221681218659398872550137273594305349281822431572951199847987899773 19821067756183813970061998377548217356397430828678776902500315014827849846484 19856634677539620313010942148404352497670785467836347265518769549784322294162 1472434714827899365124918138163163053741419096258518057904578090484677412205008405 (-434126486547807883918502427001578086729166147900249958200149993672499193927895918) (-5967025070770618571391334962148345951625287965849352503130953967441343724328)
    ; MDbl 0 16684403628349576196244391907595136712700590204678333023254187114706024359004 11568402217656886840312144410191166724801128591536798084263099448337917249185 15191527753125612227599022358983317523687692350058663584774120310970422864345 5106873402466337818669852052333720053392083549887770665871841368976656268148437249 (-2145485378014559538608563754263724260926386832625459479143624240093311590188409603) 6290628428273830424956473541317068590875793538343660569193551560625992528617
    ; MAdd 0 2 false 6666328351197631213190855987429049815207793221456358541850436672524357360542 18907516503925447044004470233678659773890632479476338051879487640080429629900 2590648938572485355484221537821503272288280055653522807058165400264668028920 (-2786705485937657032463582237575962547257086199435621796689666606207704341237) (-342513414928818982454821525657815791977579183613410665764685360373749448366067385) (-2235215769749017499105093316543574358891265683750123567486454668404378572635)
    ; MAdd 0 3 false 4221704008106466302195002480312681407744543321171360871854991354957050433876 19543526761721758233587874022215616903239865735496012184655626867630194380566 11782730240710970613687213901745980980997421554534294407496378273076801291284 (-3180321156805701021726702926092157677362311349802170984761798438057231517628) (-137366155972584901858808549573884065074608842698348364404903490592790857265447678) (-122670744758137298375884296447384598545953036636310450570658143282398603860)
    ; MDbl 2 12242676767310486622228116300631202177115051158642796708155718112912870724802 5214544287331098507193189558314517851210284947399934210629126644312044292068 17488518074285045840672339584135244445818111384615055350645693936987930025263 2866914839413473200874842249771373534135712374834287414173252856513198302660068008 (-1155199388374716268279129347906570322972172737293641633240501160159486441566677008) 3553881840669399271948255491885709793140025906169264746434437208912272099378 ]
  ; [ MDbl 0 11529723986983621938520549909065940517758566858127950094224273620004557554458 4992366613070880247816756610311543014604823014637303770681987855219447692795 16703228807751424073422593137140148104369737096776417949633241810924117418174 3108183287400656894817662350479014197177517137608281482883607561785599116223875153 (-1024570872237358138886564038333583318018867597779220611491600023666591838870753837) 117033024317635240291331067807888463217939665070785412545771497978412170941
    ; MDbl 0 15766845405732646423616308678238838043741491715746002414202108159298149942195 4202096804616048637719038952908566043436133591803961636837397375929196630102 4962958320129237873859824778555748707166750996359966412532304698986756270268 4059567662644068256451054160509432060349472061030925124990161515610331781640616888 (-1915992489461058332998607872656081271173108332877692132115844174301021229122891170) 569258207325358399350600308644272952220210786841776811801034663678608019429
    ; MAdd 0 2 false 13588108517678363423868835624843231522682517687840600924099208081901449136068 12478949331411976032257457486006369220534782607599040290307974196242758325908 7054812507258214101813094692356337834103052467039317789779692072323376888398 628522186277548439524007091737532072500298895938948431253971777580681295429 (-1423056675054268634249421412716557305356555280972932570613456873504397791820609928) (-5138227448290042266771940439715426063587427556660426130049977635066670062722)
    ; MAdd 0 3 false 10553853632418576684060370086734375588229538280476727934211196763354830100931 2359624232835057338640278037755708140031451940926767733677796327034806900141 2698879849627080249981666867102499073338496100956420308130342948015204272596 (-3502678036365849728022279254033800466911377129049918326690007835506007540465) (-858472360693687669155415842766781167309973258174616826229053454408310799006156795) 4879234782552749940846186638648250392942539595193285608141496041162816486099
    ; MDbl 2 17063473308119777475537921486264699255565959817671223717107950844636067732484 170442385594672286714626630517579253773280842765807675320219897735328881995 18410139833381933207135467836946026188697147059654648479448381745914540101161 1305398321046289632941505989815472555060076828669018406164198850410087634471132965 (-2244083737426578493378568790591313910771387493030828264097107164599069210543243441) 3142967115694912000723108319202242343419589580038928673469124695585415629127 ]
  ; [ MDbl 0 2054285278223736104771716008439294668683049430942128947286278977094380215658 4303158493310913740346335851450298452913120112132245077409376865628368877958 7623473968545943790972863190326956901424137372167220250738984478693192568869 582977808405482980305123426791853303757942053664057140423901263697827081887976088 (-32525628050567359184195911628542970489481603732396040426652495174485540046812038) (-387869319107485597616302245576403682110036173266639791709911134027987729852)
    ; MDbl 0 16927717639889336042271324334221418625223968430593313646083409888164730868375 9371234888621610607488732755799047716543984520256621893299557413471589855015 16221415222758730141394233931246473806264144710710092001318366161565532999259 1989234859618850655819862003015215951451809835947296029969512354882297866558593933 (-2208518268711208846953840637801086424677513477779682275072898152861232780399272937) (-3919499920552489929456533666089433464402469459735101206802407127426784842359)
    ; MAdd 0 2 false 20382526841060027903258168159327880375459329523789994692625860418633277859542 12836425171550571301850566992653745983437039087834514007959254980747031734803 21367446269016733882844305491610365694295181770606339480653583852574112856484 (-8567859980814065034225928743576750682287477380555294187323193804716836083126) (-3201991903248041993382017291719479621313207272187109579204617571720920666007718383) (-3226816074946308867539705840445120616445840040344191353099592821455341834567)
    ; MAdd 0 3 false 14223807885622348894935072734281632568259478307661643270750866922265535597915 16522967552690744676174981398348860572143066472012146025023788001925841847791 7164456001703922037664149705169683225528684283501412345701753794268450267082 (-8230834557388008094778939432466683020240441930213579269410275022318091274141) (-1559322477653981009670334521094206112038783866469019985718424038869309759654167011) (-2395654639733825316837527221168505068878972291413908986841120625633592503458)
    ; MDbl 2 11823175164755918096427891182540015187146568157269979138900349697644351195442 4590375298643955339759928118832388776926993265410647568700348154927631438220 20909722467585690640292378893359525698138543930513919085440214225536573825756 2956370176230880938474802165296953379042128584487284890965117232135633327194077648 (-1077388737497781903684553484305678599762233228790203859893043081632522919354619844) 2582433898480365713995103551528220053307044570380218564968944133018758351375 ]
  ; [ MDbl 0 5722577150560752800967377096166062675109369880206259701707489236592846538431 13150871527029226546887193875264100516719325270010288712967868133729278078591 12062297680452904937912392790612038908367191340972195425707402421228826930009 1844483541093522901774453937049205486554620638258560602137897783950210216489626113 (-252398922464022216182197397913336732394762327232108885552725652919709765633469837) (-2238101084717293836122067575433108335412486830100785293395668017223720589698)
    ; MDbl 0 8973327396818104558552522476294024779706581027289942069349205688189881582687 9214983755032287184093895143632580907727617691767690320419402544271702045348 13373493900895076447496883766979678900046817460761806724182606301967078313841 1668491139879216290918821139413792797258985954201516002205861726839176571918913240 (-620599198874824972670287466458007629768000750911173251756669347611967154262444184) 1613560749579425835118894694911261949290726245402716284069199482576666617723
    ; MAdd 0 2 false 13674142492339673499494818900519661854203231736374015964743917074729874903020 8868110555714534676979951100108287520115711216126619827193340221716052315092 11250367340491865051446942152944246249688643090613716229888713775796799284947 (-2889110623187232784950427398125203446215054072311044681003050132772614241675) (-1441134071522476364469038755067700871736334614795032395651817700964804285817130174) 216700517351583860086563167986787635821097940163428898310691319323078230396
    ; MAdd 0 3 false 2359868451146217134899990375956612328780638055693229784645831317475799531230 17342300133249567008262927453849628308755001791291234546514944995978305792023 11932737824330625529327177742513480934344593253318902101415356734095868286206 (-461201592774013128871031065640455019718061069693482528506906651823349249657) (-42921982399582019492880963022907632931414862591103334284354742050847710697636449) (-913639927615467727381265075678054957723977835966607672653147643693015070699)
    ; MDbl 2 1870712883731807455326066544465313547475563511864939240121639245726602667353 8941230474863691928669749527237730609848812381975367748074948373648791217952 10789449888428856104641490629514580595883397974057661479747632242097584781225 385655302621904474754831434436154097387447197193548495756113722475155759474777913 (-26972329603004445189531522284201426709708140272517520777723699308301577166036638) 23396751908034780574256009068147059846883661790261580756558519016374341066 ]
  ; [ MDbl 0 16047956909813502521063319244162886919153568196167588260844593535734223532736 5430216542251745067522281944017185480555028169431832050840852881219729616840 19287822389013006271477538050340762226198129145359463984190662368057195589938 2669039579448768729897454297634296933553795934950535416312315234322930146335502465 (-1984923085127730032039743820326481100316150124669514507015879044213854144157421826) 2574194768863907396708858126782523131790109446500748800324765481968115288357
    ; MDbl 0 1618218258419111965340581755801979399669059148978291182049105996543153374991 16457033742720255238506889716609948269059560722018456897164402415613412554935 7660481398911360392289168293119278410323847947594939213808437173328238951576 481125219946109477356763013033148946931183742210807773153218599693234855094053873 (-20182658771421084311371246431119508360928899309234425798797845809457936790131389) (-815222904393359422387806618017448337661849375718938360014709709855614926027)
    ; MAdd 0 2 false 9882574308587380221334399507680919722522514415570480182237292165427362588433 7171527217034042487666060748121180501163731810240873563801810810480578596730 4651762558927823505495205590637337287404299304550467777417442520250021295845 (-3393396387193640413389913343530482661386277748746678675012110454790107293464) (-752738901108924711638876319136715700440522304457072313087335037752907506578897095) 4192420048071954565436221747420479330313614918814182700041882520889181426832
    ; MAdd 0 3 false 7368354165988759258780584099547665303993121397095620088074952837877705431545 19139393921478011993692935342149239974198699381800885441364642414392136010073 8154466511127175656065201172440294864336282040072699594891766405488604906877 595744503053261245968956094070073411358072491925579390680759577864932177330 (-418451537987970939603049270923225315890516556792874523819273353670498790072231209) (-4028805829961891454124119557721963380665159072573637678893837524352462114121)
    ; MDbl 2 21105434578471739636523966486902891909989623872658224599492629419981922448250 10009781497818631821563223738474400536143162270558771932665003046797248690130 8204522716573149044151886022012278957870704672722257754521413346611865851376 2492246583307105430525077374008890916682646773441982737868045729438261931420391008 (-3433150022478761666103790556982811949974454263959463986571065954232744966188257194) 6216673547639692188864917839942928912432334782381841975742657438053498435994 ]
  ; [ MDbl 0 12901225662361642731669880830752266845166243944233745299711337698109260585729 6494463639768645223111328366069016999203359905658428799590526389650046266066 5188922596352975623558842691516099182531113155922753165926029041048575296112 1631631676655089186476607589443027155542851656649277626205927063295278131176978293 (-1282821196029262160612226364067676353235690812642624568872761305680626642138916972) 2071975773805991025798619116039453992517607991499524513316193226743447123104
    ; MDbl 0 5406272609000151976500381938967593564393659544277422756985700210132066070210 9260469270910372610473487183740869283535839514082920040830742145908501619533 15443228972617660072230808295618527833924906641261671545425281410497187451794 432429305829059551650689769656826820570901898188490276805563538807103499726053365 (-225268291711270628470817237284263545553091558251682975225190073016112883371518939) (-683187799383419768658207390321176545258885967394513795006159611919495331128)
    ; MAdd 0 2 false 18129295228716886767019063315105131184298658736495318192205822210238415928369 1811695849167705975168406786775743456510802656779806911324511437829602318596 2825740859266620556904464186629878690407206675603346978857638011970010547559 620630109947497094170621672064889590551326556470136280896981446935788066583 (-2533179858648922419351770040482910601678646725700075091404580937823931112772564121) 6169568441162173124508046426325218047255464878497380681849121356200273427200
    ; MAdd 0 3 false 3015550783956877640036414318734593553405439432739735294726442858728529616497 936356287419656703563915713582703013944337119096098025998236324988648646023 11159631060366981999192900243917980147334951398502379486556736962382207009693 1129453092671095351841223588821573386643933508278234568286769136840682990693 (-70087000984889043289037509704360532533586816496642442528110859467887876737991891) 120595833896464378668216738682717452919325061904354050379194795321418340137
    ; MDbl 2 2079027699334326317532806501623050241383694753530314905156461434692391457553 4364800134036162204806847551164143958175650322433464250435871837762882230725 21402531491180007980802986766996460896579751406660550535376699874348868492512 494928974547675240108260396452484014027864433313467934158152340119270458362006608 (-33313843003499275821135682417612900975875149858257877616927705068165539976808917) 465009082818276360910004641708196833637691901641073585022935785873208117654 ]
  ; [ MDbl 0 15200185501358569513787824431818818096794622573967049212369905944898777233429 1414117330896708060532921740149389566500528216426639007357090291198502758311 16372809249977845464246473862070878311393265360059363858852616425983696173486 5014740198381886927258564530732770210162028137197357423564572672571842990773635728 (-1780745927118690131943766245628822387482830841626353598604379897946329726333395527) 2049087550151966908602864758734531522988745872025605101599881169177905960424
    ; MDbl 0 7433017014264724149443355618602043117109838790260590370358266401741918399825 8962266461686258700185413196836964889955371786489793714583606367808158823255 5362708643868618155907094255093810294225149644462173245373801912710505657665 1875955671055615886721740827362764642532369612831822481992469777902735807585762960 (-425828218322462346746947282037133651136803099933156450562139638704754089206184475) (-2563272038046956108588473792986748888053875825484070492433494025186370982303)
    ; MAdd 0 2 false 7055315275430242276584762231666107340454478797275922951220560623086518344559 12429251149815117231955579371656858140944502989673977520492065921526420524821 13819082887460592185773440586341017370154050870094886118428913325692109030081 (-1481917694337985502341693705965710892317313687718028953862277631796922475501) (-383651618428894360969854866629696337709084016452691042949214784477415751797684647) (-1117525521489375412376982490082391513565515371692958459979383364408628824420)
    ; MAdd 0 3 false 8832823351529259739409016135811780446699477032959780303682293209734313893071 14981938662131653050399321689018843497352830574515525970497561140786774585557 2443539313373829285649483507885954371682538559679460932038325798654311129503 (-3254343972081966323171961090467859355335584435009536598153455056902852605391) (-601316711409068704421601570156710071994180921258529948727092453406467910858236453) (-1030116396275712781527602121207626484817878537973051263948466669608756047520)
    ; MDbl 2 5056439635450760238401802411307320213463971112981756090993703868117526859954 17643686783969700663083912809971281179131577865851220944414822511477308001711 2296230567383768146347063823244835219107727554697825257405209953445562914127 417998426429455288143725301014577389973133183238804252912191093052917321359428368 (-197057894172446769911732950363040684459170530474220308163646421851534471629710407) (-2005509444802365029210532230036993799422406164262864509714145530989485939648) ]
  ; [ MDbl 0 5147784665163186639717105202557033148652269439126766526132335133315027964077 3493580180081985282292331087961946841476600581160270588114336558048555476768 17307316750594865735879223876208912781996022521733426708173665829835468339839 182251759172106413399705026833950038296576927058715173662163588343441247715659160 (-204241940120109846445752818805826936159053529989701457089348933778388466207870164) 3327891700234803280072040736123545778245383211372484739553633410250035113685
    ; MDbl 0 15701802550754364988663942518643018619663553148094010484411719257042966509684 17844348379777350033224303381902567638636888134270378606281357284085139380679 7535126364263339839202036818542918559636167055363575675334827662469953260813 4189031311092581236369671421795775546899702155198837950656807740274504140610449953 (-1900217035578251822552313895437729328422481072373677016622350187774160017699690689) (-10294701591289795250812924345736208611188805218759849117920084336149782217528)
    ; MAdd 0 2 false 14682348844053619427655381198901025768735225728847245990784137333365830208757 5742089533921034426712274682405640238331632721931075095085422553442980795882 17902120546142462216122072728559220130256081173289524824312748168775231713303 (-134601190534250806278777291052293860604372399924247454482331985351381203770) (-1661480545671325687112102955531474935661440175849677897862029203628840819547816310) 8118037944676957058231082586016934109108863327831685551157318904624457584989
    ; MAdd 0 3 false 15294232626479934503066237998755194910847405887946486316341087743000272886893 14893126176883405208532316694313212138934806667979225351745327975972163158266 10422548248978221354494177719612003874230600884871843784645842395534212118099 8316144792193750879240901632999059473139045717940181757022009581511158457769 (-1802849885736464246486635913030969305749192842796445674981123462860742109345343721) (-6394212820572005354340894259794462412243991468693080475499282709668536925242)
    ; MDbl 2 1826322632390771589876649533864038625830003950923299427206090370397191971595 14970358572665846163860273580024687084143316985206230232520012910625421991863 14782266409733368617284106532204196969084272508725498476714119635372034620602 212173705333415176647683941119549681759070889341899382702030374690011130298647624 (-25707461006299044273365107222300158518661452700606477111881239939694091120105307) 239801461484197554685804087165631443511218790979825234995767357408448505065 ]
  ; [ MDbl 0 4111484993156087578495083665527988825221858656280683997966665493952818565806 7103404278360275244099962179316599879529672335714633172841935327413851932980 2130069000844040297484415853032686212992182893873697615500770168766131008391 936889027361956827507719934987280713814613543158316242739599823050641491466608768 (-130287155506962141739535425768314759414156327467929126438983467010600174213033612) 1477727778893393005825942338723113884500029894416563424862260475721841201865
    ; MDbl 0 20240860735882386276415123755832379503596413815463010866648250561292709384337 6713498277181046979654118932033933699290378229738071068863134632729745193801 16855625499134661970315822276231049480924111689242002975304788040781740256700 664601546298173529372256915438626719990940887186791330482688869758556332409229193 (-3157636526346691163713362886291490514080167751722645773414264448459975180459756327) 360560375547878915466705194066442121395859406754702235286169288518810235096
    ; MAdd 0 2 false 5438569969801498433875200757655005055391993285323976789189674618729561677718 10276920425754769588704437763397409016435679054931044763266261904534011560364 20551348452902731700146074678465802259366176926897913325509243254114337200166 2051581422538214592548566406869511341342018161252129789416065116381080673142 (-227967860951548545139505318899674362578128976113796134164585084263890002409696278) (-885403218542141525217535788265285007833301925783364356565738888545982595300)
    ; MAdd 0 3 false 5229874948265722789770949856241847017341647140713109339954879793017737051949 1392999780931519842791439144558483758048284557696227472756886515271640144722 19256829922961925622261670091195440633336959463837706140969837076242938810040 1121428281360363084764111389559562865744979393633673113413310866533196437595 (-210807856670587881845004105765839384481516396340789768680191900132341736008999691) 2122682679225844237690159360279793828706535724290677682661727774897362189556
    ; MDbl 2 17357581424857702907336104329414511801171881227879330753872199756003051729914 10015596037670066897159231171973812594944929366341520622090430877869614784798 21170152566564437681509121548727954721659782895480129799235531123770717623630 4509920214928244427941378636072490192609491356914648771508738868626222988988605000 (-2322109023154691702163646182353052180728139434842983190471369171443630796535059994) (-2618594424693173933293508070458683361355756624619579665682982037608913380364) ]
  ; [ MDbl 0 13016053399949451186774088954345136161016088641081411044550055221601856232164 746142849211535425911589335810482696712931889934343806317621554173714732523 3675057262661587557562950101436044615332821811568740410970297542819311144318 4247553860106852080356660085928436889688623386888101089726625080994375637543930213 (-1305758395781724899618131077159808173100216233099950162018788448258420093911871201) 5512169176655775716452328253204806052662066795725917898525615208010312221856
    ; MDbl 0 17261304327565343206312919867234049062726956179232933347749963018065364830771 18500503444998580283816882920131282472415249432903200877152954801088711375990 16000124401113062386444707088082994403401544823209575966996658620398139436101 977849308673910369480165136786989186234384277579611523068498138467642464962348888 (-2296420433755046533843079815076184018567795025498774721419205420165848077320285602) (-14001280193189957727406105679287480026418445851663022578507480900862118368628)
    ; MAdd 0 2 false 10066627470427463596564010325153151017652733573683796890916373698015421115469 20102901876740036715348017309363620835481511541428809957488817212922375095042 8875335162270044390605171994295765722193000160247028270890101429688015751637 (-3902295971895403448539162475001871983755689828203612011023605246240982794881) (-781038024920663889169343693538241151092201323371832838905580808009381346020770284) (-736959479387527507729227523934463512915446895566543599147740353190481985078)
    ; MAdd 0 3 false 8811718604633524282961344321757139723747754054181304906073369397078616957297 10805170795209718998696634952420606245898285859234920473534530476242528804913 17322065215998756661273171209660567667660441712350148591397393324515609320459 (-4060924444836081928606609174606208113911340023306377007233330480321577346333) (-598446626663068149175239687466003117313904994891732271579555107635129595907029703) 3743059250197161381193767639460940187406762133131579566644825009877848680801
    ; MDbl 2 128520008751539953183323850334182202207987360823436951443075184571439836063 8844309227809581040337291091061035772873034262629779103107596158664549271358 5099785547313494481824104034306047482439277082305572503245288986814224242464 31744650292758982340441879968026883390902103020374760630069102029231414369850573 (-127305063101020421025564323878114698091016369627759920403049144431599147922208) 56697751965113173100166215270251796921116884246509033204295299236911215203 ]
  ; [ MDbl 0 21302522603460933202651982430226568244513826899866695985975442361979774742180 15578921845384517281338285447386557261139079172922889506626269090563947647530 17534274132878327113398791917165678732644985535236771890559831299492516117422 1674634014809986696951749602868782605599907986098231189176183789404439966118621733 (-3497568695407053075836934034071015499190188917238054091642305400569231126748577632) (-6554397187177590036468264250728430905631493716251827904962102284153450314238)
    ; MDbl 0 55477952417103017872180647628370554007165629922901911269602454612160639395 10970141638159650459805675872887392127474705660219610997722043570287771294443 21558110862406744931382898610107285609698393856287440408109954417313652694569 15028124119425528438469720689375807908773057409995058664925480476616669437934693 (-23721657495373707524515884859127624384742491370684552239752568021721865324053) 11681416847135980600839147943892572887269019572563470057083361621339300422
    ; MAdd 0 2 false 1387917535451862122929029947158373349659131316760244724509877405719120390418 19680826712570341063359639668009142137056615485813696710345458264504053647964 14434445554510387923912497079845204163562433842253680739573184807978195975362 (-134797484523198289437424300053901069462449342713930764640580085645880021025) (-14846753884197219399425874548476946491269178882756778353587157649558118231766639) (-552338195046604212573422891300060770132483586725175122893565472224055347677)
    ; MAdd 0 3 false 17303397575769032720070359541975076028208744504136681722330655554007095313365 12394254924884702604459896222513114834719150247643309161135260079512000199579 7304149944754872987430101797946011346787466059522842631939954928420741416975 (-8566634218813000264292411117930353943189756097809725621603536262856967048276) (-2307634146827382845799419858535065042073057611052715668212971046225398521223798347) 5760281871183018345917243506320551911793733647024558377057475714937361876164
    ; MDbl 2 2681709129942785382349412190566295431839100441259086090327849344327198797859 99658873469648597344457642301464050093793041610253680561733088607525892501 13391705905884491968512833086849219862657799109227262449124374673899024768986 891178271244800833656188902305062956508559582374391642012308531184621018573102928 (-55427785130305093131539729681979959812799673748579709218476940704688035775255105) 1331832484116860615362917370267504935772652695796905036909743737030983190719 ]
  ; [ MDbl 0 6391767806479284199250169239453530769086584245572619205888486232319743814110 16935768152613369044277838699400493244724148197148371707963726855261013764311 10850670894240704553510954033740172334553804324731056779936955670166799999136 1319444335343168893796585795810531802763364224022384895781476153032329145345109200 (-314880787991364658751842455823466744705757151692942587610025796667893464928565483) (-4916452266492749854936078788398839501975433098037044873411495497751638064566)
    ; MDbl 0 13396631122255662328090506799594639371437183701079532115761832689677378886420 3185381715551671694614658092704258547662902239722648723481954927509322548172 8659191631499841067945440476046631301485574035244530304409628671865340433077 2240753013002216994709680995660862258184479977524855332020977605293357229036652960 (-1383233129155536412730210234685925333369964011010799562156296994366998230556045876) 8415881346180611103749612230603906963284400295063042812252969811808436886151
    ; MAdd 0 2 false 16493351370947725406077509056217197237801508053208330256967418363153858393792 3759048125512878482977429936740211178288578141271291361151896869148912809071 4968816611094850083058014890218782654311770891077106323792870011273628057186 (-2325171159960800340630088250610406630270128576042977896608491980484083535973) (-2096631015251835908649775617921591592081672007633968370310646285576415473779047626) (-432272326499695042977939922352829186832124357011365276824401736547208146263)
    ; MAdd 0 3 false 12693017093501213211008114296471234877420913240937455005886761886819208922591 9902458829222008156862114245915603258699892875200352491447516641945565399535 8507151417976938224145661910721907651335380541638800144831628535404971024426 (-2122084015602675912796547130606852132794020207021055515360308620161408540510) (-1241749270164452028204415660969249335535185156533169028069852893888264475614508265) (-3562570898502907176258272832084780799975311758035912755524167032206281021708)
    ; MDbl 2 9126658523257269034454924672914817999826149868997936506765153007200711187598 465271563674701070220101597821610493537884940967052389205369633019414878915 8204677979499423155916222383767292392650311347004447066287825704332430113392 1218214676782680623051677986653743860555288849405269631070682342588820765148322545 (-641989295520988130710135074986699417870234025299347099869407920390672506114852421) 1134194126371208496878473506168000344871650172473472068669237112895927267801 ]
  ; [ MDbl 0 11153964304299214214627125614319413720115256919743140664046233691578223219480 6204210812616981678976651356609210170599997622329721009736576616344003720827 21702157142742103628508185832703437678183131124356234295303702836578201561189 1410668533530131835707959651266455141601053010886728799240209855561877753197424248 (-958876519990527953419500069115585973587603032889371515761933347016767845397624315) (-2924488909504913579095360145688264886091661884928500715606827686837748605973)
    ; MDbl 0 14356530053904733525885250626260258595890328825569203058883716936569230728451 9020865604708547014136741668626952926996982411927689603406161147602217364233 10820023013408550554017787300469291823487511709170777652359742781620873528314 4802717530750622419254628524921360397731702405899212762490250287577432221632346640 (-1588558279617024734117123306011166790605182500766424786070475462939591970544475605) (-1847447938644852092019470957237692799182938487965832173841095340273417658377)
    ; MAdd 0 2 false 2759718789019497905256254414530256864543010326588087899653093429745844309157 14804117088567426334454676743939978615161054774391225913490979390568173147998 6686810266549199128371814762514985274580968346582717586256298341700810598415 (-1078708499558983374123891407908586531001491727415737382373039180950412753812) (-58699424638587248284972036880224992689746070819492003579027974716863199250039232) (-729165327481086427405544390370415576542916559521700105707486347422108334802)
    ; MAdd 0 3 false 7433139747691979402540873839656835204484548406918858961780741239535142226120 13496861146153633409398908388867099065458310343567850614539992420755501646243 3856946769033541395920851230450167696034596475691341601154707493059849480110 (-4869401497011953171531608083669374106485252289747517530597504549227475075961) (-425842280926662163445177163155542630416885596963489060812186403442964163856700862) 443937695814957753807366889163029743832323534777552085365770461857514832475
    ; MDbl 2 21334533508062753257391236522876474291315452995005912298807521371836652785533 1017315290035537311923593517789548921100350052509448683005242576953203038385 9248606765117786335126749792966364000604885020289977334743628070746840096704 3558335359017412524057858449179628624548916525321518566318086743013216549651798008 (-3508088055981531694371694768165838414928652701396377038862614174784528989176275097) 7801083594130878658632959369573030022515633175647175388771078906377213409598 ]
  ; [ MDbl 0 19901320979068891961652163899117390790797975252459495893112814539064678506160 2206808658337416095438210654272826358874412816251557890772985573123965083080 18919206644592742672769891492352909792980120295011671967200745910060656293289 2837216126293609237355256611937758550417852981146713162793226442495904702923963608 (-3052586591007962409723973807825733752370143187292584243765793342918224190983454244) (-1081516203180739579212310794874770394961362789788526117750136302823137199929)
    ; MDbl 0 6656976595280069759898366338617210047426350622786489775366498016697537146292 18917553441882569338363944573543497382397141772684335133490364138203939174876 4987494042170894185193942824033562207272942828459457582651369107464210672732 1941396665841296442811478969039467701445887321362640845946023361168236195484928193 (-341553109652733776452184351066688275143165410753491535960134310131485026716900902) (-5082319195977142260866520455280652804561629490804830451646022245298276082709)
    ; MAdd 0 2 false 17755090273152820016349742073121872623414859106979448082688656500904544820175 8882033271974996750227163380143922888133691517376297743968291106597483313803 17196518987541626335828608970960987142667680066319484800910621703909478246622 (-14520139700472526638633950351760168668371122097014357231486130847430961548841) (-2429684891333079076413020913165223944622338283384223904018697272061335406465420686) 8140514869012061105214240128172099826473497225853402212845377859769838086213
    ; MAdd 0 3 false 10493566570725036492716000032385570336252442832332312877836026066619669278777 15401240632991667312244187382119247756311800446055902591365207526705480049477 17838992005029136067884128352260180445402531670413762362036257869627968493798 (-3770469022419297224213216182572898226365328252158509747397136761764221444204) (-848692623761670261226571954577452484683591930899306132388679626790063806585190839) (-3125410149720283564034981172982419935043881310034398693103639554005216113454)
    ; MDbl 2 16430463215299420317975099193296292715395736616957883661706029840389900516119 16035259829338895472199369251935941245006401207806180209983792052372669197024 6473241005941313299919651836103164721745147468209885752671264328734522739394 1263232353594187566690886979956145257987153990287262805749779503091028606817183425 (-2080672841512801731687422124826221797648374040775037903118797622738303259622687822) 2163600772061967531432665510703189645865730399712272109713003981279095223686 ]
  ; [ MDbl 0 8066898629971282495848708539174229381120071399535035817000559567367144873448 11629217951387657941860115501694158797044576539528582565140553445211678321804 690806971487193863524658745549211649387751653187612631720784254546844020165 804973473988571418662864295192417360817095506724049096188045073036679191945288449 (-501553635473660877352930766171872392652171060885694593741876429071114931864980550) 1623844060802594638267154907891063189821346234785057567662808889570416428953
    ; MDbl 0 19666411151215498418649425666312735165696778470346280117983622442938518087378 7548444738778394910887531358478365952285505088716393079639554685397860429652 2635464388029701640478220264532136269439517369015313788499521669168108575767 209437499121085015202794485741921582585654339077974894090181047669146764281415249 (-2980948083538376268984593776968118383980320784883821153863660782173423816485836374) 3666542092206624187137246419771679346903463319729584500733613080391779876372
    ; MAdd 0 2 false 15552433755790870491882353238366233294582901620101192813068529175200678859843 10750474424168824484767292044588971384725427032304160182687291225144695163635 19143033501269152572977246864080390542634290752109601794344981155422775966936 6030206730911391454212240961630870801710944282315812134279472388801033246457 (-1864236058521456784828023695090476127077242704610869360040396836074376250758708477) (-2275164564725331204287397953753127514785326307658331840815021586933411397516)
    ; MAdd 0 3 false 12817432058434644685638148891707587216681878848698163591122131723689573634448 16679445869251849449455797657506195697484843634592647794950216480837952201423 20918165200416660050650843136918203617985820461757242640494260984139767500845 3094692354740049525912176932998692755291282755017076621746938224702890992742 (-1266211436234246857743278467401538265728163114808919246310912213259435553077667740) (-3471918194562912097063751314172576225924694746694281128045095802013102036165)
    ; MDbl 2 2246573147669445822463510082854934377647438492555799992293505941327668720543 12599543020253927231122272665259137715050745689390380004911140863505487335584 19844912778832452576591776976169498645687175828038128766162467673730845140119 91274414412893840259607920574430885573667681950990166028955519986703615083001465 (-38899615704020783964078637688182014945361147072269340599639781784976081975927358) (-518436396737983923545778139602158651232936991330626488276762622904747266786) ]
  ; [ MDbl 0 12374598662871490205483100438995005977608506747561127896275107515303379737995 68997788123606276514247122922510816831172619668883364119641830394457324746 20239694021009308522804828795924851104333740195635281414161450169323470789793 3785445453820681022616486837115421998937300599372433410560710213663358844949162649 (-1180229400001896937776655158738793735828005820199472717504017021329605199308424736) 7084189863137278942698885544759031438816569655873015599806450523622199820794
    ; MDbl 0 9846153897873449555658398901658653022513626831622373147541139570744221438372 14555500000448164395381394302066080433579819905019189130835203114699681209540 16816709572648671705831627465202150420210677970684240084935953409651157901947 3071883502865191486829942545669058238169171483060393351547752033053217635827197845 (-747200962814168088546923846236278833880416873533463785624389842723479222935459090) (-6516572895302766128846099990461471427366038483641230245049252237200324121924)
    ; MAdd 0 2 false 5927045632928872533316052844600806818584530289574416509089564272402316476746 4841453657881751873619749867667913107751472915462850508881866589283341266985 7717746978943696930418830181049088202133382572660967105785082895449762097668 (-529647187558040453278117910672965344586269530180419476300549130207996864644) (-270757643393525715916146139964865652931864257342481307155568195285687983370663671) 2630434808764475678284160874294365576997170272933662395409580408316396188495
    ; MAdd 0 3 false 7883015930752349343359174479483566442330455770677998717745282874212196003815 19188324490455904726548649703428618718210419080872638562983059336964342816479 15012098615830407067910960368094559402447352832718546931704785626897841920561 2794063570742951212255052402774893078352784170316628671475653541279796439502 (-478948692553019148534586023878392042337765477159929834839730620246515172861545438) (-5167002759967306984946337124162720689937881819724342703077934084851436819567)
    ; MDbl 2 10619286186024942823099686085075219653970570960325174260293214604066775079359 18990528617049425290074633107554763252194780530587185689547139571747195565694 13577442690135245140476070264862673633076079849493013430552575046265728481793 2752802850843867092053850628428941184006194523037402544235759569871908575567968473 (-869150198473172979711615058020893934843406619144170139710863325373430599595729916) (-2151695702513078046450672654741532216133082996437073136798369338928267507778) ]
  ; [ MDbl 0 1053542028978668210842774743991996019100844630020790813470938970486733185981 2906362943882796092445733468734565664740581178811340382687465390454764840767 20437052114329783077390111914030962493064396674676024983781800822035559367266 220547108723205137761229088789288222300258973721516541389627568777016113140185149 (-8554761668521120889584490274963026407829376715712663224486187331711226999893009) 774175644749372029788545865666454358609774431317203911386301437293703127584
    ; MDbl 0 3700153245524341775205208799659962854846530887084246626342168630589346815946 7006183816370963813013847437498627958318214453634215022259366863293928971770 136203864416239471053362478100988909474367404538179619423619090515296449661 1165661826182715422023427490633566763516850635686760905823165929956611706342262000 (-105522143834626433723451388755209289084230380590356449855123683745001199014657506) (-693064564215098911194160173265716960512965235280474299221491192512912264045)
    ; MAdd 0 2 false 714834465694919479355357131567730517875968764780919157799966376418928685788 6331717329699664890582869617348225950782178316858502409838922867159959753309 18442605186203193479942160891647619048438600447556482967451351070450388801471 391389238618074679990806559791366430949019019894933632015305658646782120940 (-3938357636385058324219412246703971726011934419364432089514341664988090887845263) 22026980121328204956691774930310304392387818220548708421908748420446738608
    ; MAdd 0 3 false 2961223278337515242116639022631982896046571628681685213739197599064336786573 1593798064744931747517188787913363097036220601482613730164002408389372118637 14925868826632869179436640266881039290405626293518961676189493440093051930868 1712589122830391749931530290044382269498799245274464029805174655186941470699 (-67584404745269171931004908000229502861429532397402882562023894901451849396410014) 640985066750987555003287189229831068535987266371927121936411752170807538301
    ; MDbl 2 13654578081687970080638931746083855222561732313473433625649194245037592235780 3171160616931632348061667783105261426173407637035029377166991262992512394959 672228318366085725331010193132265736144257590247057585111263411881501470813 28675024747455645999533983324023582705575158380677021974764405296638378897345813 (-1437013188811836722058562178568014176547163752281480223647073439380193335850255741) 2392408747858017074304297651231998809168656062047979911718862527120034168018 ]
  ; [ MDbl 0 3285838225353513422147429809780328119569050257269168425500712924395174104172 15680395684108705961099738310071742770431833244721119092343349235242109818611 8747129175897254304192345997528857624327929247429615462215441402247822213937 34049813756752530177001719023519661715478340517895641319078414086503830568110224 (-83214026877883842458607241170556597113869956610162794565708165995919662818406731) (-1877872198071472240290684341351310655893584907088579852474939400104683745982)
    ; MDbl 0 4442166988762067632101449124161997766348800121588541847993854047032783351665 5691406391433895218149941306858627989487649933119173787843162619914919562003 18284777802693776601313343456894107592189234349720712100681313288062303870048 598989258275046538025551736654108078078834024649154559003590827269531575744079760 (-152087648250107099615395444221773733770698072170690297973481240409590329674891119) 2027241690748342126173439515706219199839903310029192819432351990617657458255
    ; MAdd 0 2 false 14197485076536985244497648292791647609836529527520024900961682124801846226798 19542553722939576561746641391089734779973208307586540695921305115823706259367 14447777844426375689597469822328962091155567362492745118676934858633325335430 (-1634720154660572484041906537050763476716043341052992729600751885240042857781) (-1553556403161288279967096646064299561559905657593696478379755398003456280841782131) (-8984341899137667955620284805263905884369521825157116676047615415413540500350)
    ; MAdd 0 3 false 14626038041708629809504902093458613652181317909853502934298439103486428724557 5082393316836707247618443015583526259650848860842039172444691483658620939875 7920479864999269362716508870827987251387646142581756144731034831974275283187 (-10939599846651265705567633842365443341946356751742388023278247520898321173967) (-1648760525065714287642120512427750658666863098315444037105370864536969235160665647) 9662486725280817547990949865481624795835023865065769170942624270136361031931
    ; MDbl 2 9400277444659131373634664753138714246297884065428574760745139592243966084642 5077167919656720649460033775632560436142315042365893775148677719200267124369 3936492188878104922934329962697826344466161897259533567084693988014948961687 2649508187509589671211043310233843701341688257056141421674316299830330233061577048 (-681060240086610062549104203708845668051378992997304867004765206136964939310743969) 263795138134067893702463001738901610513205257139249685821986662171219217229 ]
  ; [ MDbl 0 6679542547039303576272453991692902691729989534017165003197811385205506568132 2973498790477858992939668422694965007234187675087845944101637355571478291417 6107072190494066654113826478372105123009897372688420298155625442849731354205 405316309375091850191879267389532542600896621129988821221263698466470177040983224 (-343872641456527979705299527218589442002747338518524339833312443585512299762576309) 641967815119668938139669865807217965000568498349043431781705985355055124716
    ; MDbl 0 10340560058404105910515092325061817262346792501543907617047944484008961971043 17181385253753553348954581151277096313109457846929660391519883996836547714883 5831824094614155738791384196565724708244748867991186394771315418176647571062 973445933004561128408343707843281847340117909683068131228568031643883255385404400 (-824123515224632760798438179581011067122143723486729511143576591399515386295272395) (-6712165254046429564145733947538185540262222146310870407809467404839246355665)
    ; MAdd 0 2 false 8441291913362404717828244181859817169389393537242110266778638199375897072577 10805405549437252977052783896463664737238744633962172515308438693150268342571 6781134989101062575571208786417633001586498449266386649746994592294183710196 (-4668041765533773288988306602835252459646862599721283027462580009922085061459) (-549189242681081998574942923211494324231313898376939797098093469486823426492999413) 2458923095515038312714256360538446955639486013344441227167661772040898093998
    ; MAdd 0 3 false 16693889614406206553596722485773743566899010294110965280560843563531532777418 5599085708557444225760553244382894465622629653656842001774470424293993557702 17018832641246403937022453821481866565809546960010351943762672737822357402146 (-4368855336472631437811479762005757592681127634991198868350129954455615259431) (-2147925720558787771344228991926600080450484169402473958681647394238218456017469420) 3970795153811130387734444229049172933911853784329947295138948825070815532700
    ; MDbl 2 19044158750221927314271849348898232214665787595034895783363801951275179137771 813971847232847124910106448973209592494760452644765025002702311609713886622 1385359600231419693760745107536843827192366698679103752182731558339661622898 1712027167012978411904810677854058628809077373846231372656306171609625477976536808 (-2795295785349862535075601503701526053100870107646787584273805730697416838461408058) 14240687161111459631227466710467427192313265492223836190055481497400456165263 ]
  ; [ MDbl 0 7757223517251377459431091391470753609987739050013499210280780926810221558358 20029842431401636581600642085460736389677614897506458885889884773387387789543 10178102056374055065604040358262450838911509822634262617517718888109768067107 165654501293551153723675651404293804794872295417733998075410897345043868456693445 (-463785102630443616690662386622245333615735174280274360743325965702623746974750605) (-6810131086024786640732805080035169218360651584170914626125306493212801461019)
    ; MDbl 0 13557849636343983126152758764661845035428927326221541323389302375449264188299 590544679353362359243334949770481198790500229353247313898716660028333192175 14219881237666263138801068421512301331894323343461210516844898300427745838199 2127174020552963747959518331273942624858465133006503746715357837889832819202897528 (-1416725822089490532753896683623556027487341910131767205330131955055250427829571027) 12040942596514760618640657508144017083038542021094630890869196221044469220878
    ; MAdd 0 2 false 17511162086709042783073213116230647003605391939245135316306510278116832283487 15907175648328290969277303790571675919955868677173070116005919436110804169606 17773540900237969425079908165506357231858409078418839958872013789552834714267 178747530088204113734645423079355105966086384392212052650040606581571316470 (-2363383066542487913268668484275221215847441315702833721335805845697720301668294153) (-12253702094337617707877105317869623010423512713748022333489340962091514950939)
    ; MAdd 0 3 false 15188194560386145741575397934448802588489031404024058278771212063898509452223 14701558137677629725987026507006428473982495143075261286587505947674739364807 14549807798083866217479450044379180330902442348836771005862023452519357159990 (-10473134696688165058973429618142354406291358563811541846421780565328353709039) (-1777937488100837191871651618782659353255686282944708039290425005989466460951220449) 836574841771753780134531949653697139379607834722569810262433510818285475760
    ; MDbl 2 5175148682466512264059729421631700242609997889284390992131548946155100135637 5187036969086902679399116677031890931296821277389856456760468947285845974666 716195248862135503361338263084304806851366935851478280873298957590383522587 1134365470731219506881959874834329242175050120941216699419676828906595973360226328 (-206419084161365684571725614230574572056012209377384905277526718158113046130921342) (-1086772070122919848753405926733511419524481160710116988517500991861137296009) ]
  ; [ MDbl 0 2702185162317859356023415883787329976794555604377760896322089810346540787782 5284290178332394463485943860008376084754824343598668533646585464728624795589 349031225158707737984594000844914156238645754055507540379955714689633326273 29835574269624368825562794247360911787228556792058007925052025632250821686457765 (-56277447756419177362262462808224755848092998471938576715021485188723289146474307) (-12006271154322179712208124369868491811322276453085361156726411032568624638)
    ; MDbl 0 3943197946956960162899130539377554618802422700310426773016898139758679593283 15231704206500796617746944850355019875754969365307752499624709316919514032947 9174232178299037390623677741863235434240082954653323020155382511030152880145 21219022810555640423918956424258359285053242767298359130368746718899837326786424 (-119839873424548664253936030441698095583319707348206974473761580652718395885251219) (-1792040722641545340601109056492732099757868961183844017119743261072492605596)
    ; MAdd 0 2 false 16037163140003014204216091574233922783070700170095807691713563752402600537990 1376626057136250446718346908956977134137250816549562140600444068017999450237 17648390231805041538871609798235930156114362946733103203360664688953924887786 (-7359565960440831774850942108959626959310444432837014239428183896993414855296) (-1982253885816071643982619214250313896952331538560454921651683635544665527508398244) 10151392686012309003273785048041207899754039231322213309730749493385397264457
    ; MAdd 0 3 false 21407225084038082247364533639860085415736394286018874594136888952438050853176 14994725123294970705605857842895323848586846688125458617175218192534065292362 15997680609958282649849245698166383183137433666029463365100229026627651929769 3726673014933886719922511287408374635440190517533611441973712530490905665959 (-3532034479282033095368789893920898750377498882237547920704936217778454090031019339) (-13318826624546292411856089338089790592623252771319385280049866409138608151915)
    ; MDbl 2 16086175133935259232265602538097696932537078893736504894950089154693514010627 6638013807073154438496937236203568078207967698582810861855604764388452040821 16287589212953407414179577878944650212273807018546718897709322706299404839194 2274902402857115984418982115252877461950561478019649648220413784066433037451272320 (-1994388535012565940753427965595177999145910900325780490046936921285140682337293489) 6315701521654158711465721286888921304120559342806684866601898813856709293839 ]
  ; [ MDbl 0 3398650904126057249930683416304636562071518894014548227563189705295633816549 2619294610171293713772782313367834847177822636027557953680588847262812093256 16292736884513613169321141286650044125150082716946503249035825241948659187740 853297785259694161900894491547303078020738732332386292060620339090863089767133920 (-89026089925580758985367695753468806143359923558642174993383080232557359212134088) 623998176187614061200432566961269317916448202557622573774202004928083048203
    ; MDbl 0 2395808566313791011675212156750258205424341890126571650838542654127365483902 2258361918844524073648407315132948086871485158719514358229603551754034826908 19891724050530996915089798745946913999344793292810946365170404023248668218923 601701390912232805354241836299310964429423832571009451776748631036247222423164705 (-44239316699345207958931742212737996689083430853102260883004305595445828275960854) 39506397969290392124184133071427510077074483118002039974976252908734014049
    ; MAdd 0 2 false 14591165023231415899344729538134937814672416308224648785045302831576768256961 20015584931475684345083374562184458656393757278995299582545823918772515887012 14690586213211781251764282737410261919446643663557906510629644489442504363835 2919568455979999273763936494108271880204858163148488699721581678682291332266 (-1640907583560882231112145346160778682956928903986962639030066343034426137768439467) (-11837339929418082642844658405453576650247871658467546676695064970231413329006)
    ; MAdd 0 3 false 21231572602745740916045495860698340208802180469278516895818714846718159891033 12914870562946991197200211251673282229777934026097945079692820056898863233259 4053123220650324510122575205077337848860699064804772481676334761100547990959 (-12976229944047602369951376538026612118823093717701312982937306321120191192886) (-3474309548239731785147011607432985110736804075420710207890927294439374266013907770) 6887685481630827522073973782884566196967861458905548719254210112462420333415
    ; MDbl 2 963362530566544580885682261314342262793714496017147384439075592825665139183 19079317219141460374664836654393570136611596354547395195071818047763739152936 18952212012782489102493702247964106365698101573593840509315890966692739198955 295391084637813609473661691682613410029661656740158957493806167053162017963432633 (-7152925223041549908235547412863478346263794685436151989385001139570002733121750) (-740337091447811758883760080126613179198151696094782174460811216671030632906) ]
  ; [ MDbl 0 21408445580619620246149800221530733510536065684000417865397539355916618931510 7561093913759160362517162927571657615490091606345858855994482302787633776515 6017919661517151472555842114530050268948109073553876838390385219119372592042 6254357257300430003221079544718408248916379974790988080326297561477702892826517585 (-3532437236657490349730206821340669003872679611939208173018945018891376527521779005) 11265740162996501807498470434172135628969410969908297051726174077379212434489
    ; MDbl 0 21244647375211851275787416574477745842293708138534710353964858703313962505305 3046442691977633612756937769407935147907454678058721014834250507454308888134 13277537896683713188164703865453280276986599551052412938455562781474163334321 1970751285978795848610355036816877857688415404713812456172595602442613957200235048 (-3478589946557093255047256391848808517701946945013329616086807245778467721790297986) 4381903736650120729392563529355472430413166399608380712919139256363319806426
    ; MAdd 0 2 false 13652121467988865634580306301910807430260493313095886999842289816562434717784 8077613518416076635372718767528669742493511196964296346121594908931117289003 4257536735456913670677927619407474628116457275136577908377288021409323684829 10000014702298135334128147048061712535173372545808958995040234643681296003702 (-1436496165333849255288411510824020707521504392347340210503134345801902387894921363) (-3138038793287925266708937686105215885367166104728973497016909373337661620038)
    ; MAdd 0 3 false 21519189757907312797919229012720670140986396057433475725634451002572413490196 9098964377820182612877292841639394023520521328723640511315468904238132097375 11423391895186410243970191101448508571823336880988505449058144278280026797 10816206261160089074989078717525230387616805834084880927648388798151087667126 (-3569077792287285705300416767146573759340056213780061566404872783764783045786685036) (-1004130074835550178368639178887207758683006789839667674193402690390291586714)
    ; MDbl 2 7358488903254831104812318608460534196106434225435968174802659376210461899181 18221292099512736584438277556886295669585317687947153667303127605786838280032 3131122948768218878036126785736006293028227144385079303935836081357312282892 1506054662740175387311951262365836122197754301530509377133553902876430048449516349 (-417331784307657079980791914505108825999245655201975125383754986773180640595568194) (-5101549796743782627068189324853369022308854603255935155207942150838768602703) ]
  ; [ MDbl 0 18290182695725282113355155691211681636320322877838743356248794028698872865190 15687229578171378737226505179817517784372894240003815422686416725659957145929 10989791623610357912571386683382519764606334575238513564636187037722069478019 882825218787021459147389302211383506136267532091481609988844103768418494980977985 (-2578340501327471984763269570292743567716142588163288831255008289241977536809361523) 2117505125884461048778043004277328709134423312544756326322641017029710696027
    ; MDbl 0 17334046408567663679665089488874516157842393763165622310016581521502065889217 18737077315167527514773242277429721103695786566349466096670654138043215820417 8207366387468312608675679090877604061326300228096720544616008943733886060227 2936490367052599807221759593493554978043059595367600262890090805240285546132586224 (-2315816231320082393751598228996254298029562125367586202940191118805788664474108169) (-2415278490909487397007970892678060973850023073503847334213849985992332339326)
    ; MAdd 0 2 false 13050254222126167134812772770058582487637964854083935626988790115424237239678 14480249202006040284949366050929681616080841268893766407308094267041443175916 10491311276921815732424870073828316842288530914649981306816985404418645261723 (-307522546589121083511883014668346705097535876239055943964510132929203411335) (-1312629400493565961665375526265019809406135391326721869282994733088392133714080439) 2538015014815255298964851447724254753502346750315972335813032423814160225784
    ; MAdd 0 3 false 8650529254383139427577902288147500381575549439289380290727320382575470225588 3120277844011212655782217633362404622515605705389433313119029665694974913556 10194863016283961756596082275999849423678701707253819307404906886421728341488 1478510687964810258874713600308871194116112982294257694083622609960310043167 (-576752574675882176941896720806046627536801309529983476763223593740130374497466906) 4489614133792329401198292420626949765463935298237723802033322599298466127957
    ; MDbl 2 20246029250568877175134278469804270919150485171475756900026156133021921293611 7412372525575343391072383166091475425122305869598991920632238775873793947390 15189322445727037823198443425208030835053523412124641053012921080750974876120 2561450804337413390688052283350695611381698884777960603748364524696414706226050800 (-3159249340611017726058061521028218623400268777273908139850271460947247292188351766) 10475043874770123690561798691897215859577251178742780140661006754619217774950 ]
  ; [ MDbl 0 21611966061205920201044623858909235005506108532761019865841817804158840023566 933226450228502402690540626357934178429253426072639487978674246173455791780 7035946198409675454757913344533428638019185785302309251092530797962128402936 5060197923046864491345630643644380168924626417672709834000673908452856450300747173 (-3599919068718769098921646519366411041725248176165872832344556668064323188173070474) 6397365284453504780192085044461310947243724514999863150758875838335957296412
    ; MDbl 0 4025605461481917339528246375174176116806557853889825769726299686636272965041 920273761649856738683628130264984146671370119008162467513800900860227084960 6633397926708704089019589989574210880517808772117767208476312136732826773751 436604307909147040698209686164621775710898767488544346300505674143733319026835393 (-124901197105390227413541418714255821939469413860223779706739457077712681616245854) 2382211043087210430064313171471146635800988090969728068500594589960968149
    ; MAdd 0 2 false 19531712702872165089306227132630917059737089220412133069149824155305273946414 16619564891204679293265157430876061819879809917298312675236228802392568990957 5959511251571867017654979320974570624338789317115230963184190478729574484688 5793146971098503588810166183569318659724227048802506330988635332475154470403 (-2940253926442004386490183533717450308074780293676080115255990126356462977052341365) (-14009075364186494141400123447605221880537276948312985414351343253648547203741)
    ; MAdd 0 3 false 3047137728697362959987969295266636272708758328765938202559856468856088218959 109987588944852906717438713508010473413221888260537406808198855806133087055 4407621533081523373689180793198485306328785663813679678118300458630931682307 (-1281764982093601752881251617871787910909840861874402121135034626812858095305) (-71562969386499998885652657169181296842009901577353803648667048437537329378196400) 2298355157018332035924065261226786499830286768174201621633795952200290567919
    ; MDbl 2 9963230413333381890122371342631252713931186714844646697838088059839749659933 3094345111523716915218372213340183803906411338853767834367376586793436434003 2963818751977421583946298660820622043997772614323925913444671211067808825936 1018756642686420640115435747448018726019780623920258157362626037601697150391883433 (-765075917489671402061830731952320671184559084270847159927616361970097481297476713) (-989607704951413603762753168758596935604388473363267995814765574888442783118) ]
  ; [ MDbl 0 2561705192410883913679428066733790532143720507081279651483622742947621117052 1285028982160921163919930354679561767963035556192422493409082960001581632780 1551619405093743441708774312315643713852593636673472093097523414282249534286 117036099405230899503099661073906660137490196631270835924703504401312484334124248 (-50578096502386390644565118820739622052593428001185812165561232809805919319276652) 211754527325014169341828994930696927857909934648928908424278000063092532422
    ; MDbl 0 2292757739178873573818036866797747637420443744629077729611053715306644412100 6725428976821432575033747769485673005727748081299097545007248904735618657306 6510570390604981314406486038980883700726198538300615045653379187514201738320 54837713993148617396383889797753735408556140065848201168939266572057109108836193 (-40515436269724299664354991198132410758048028325654808025553665216413301781344492) (-569873025670536004502547035899582514350279451462514834529816764920902943318)
    ; MAdd 0 2 false 14826791127046771132827267385647785359197818911208637108943968972667454515426 15224090508883088054140526817314432707010033441312997982764347820762188555982 5101368959538468187593912010159591329616458290876033978601875332483330369043 (-2459645680596146378024197181250755001611393694152539225008192600918247102382) (-1694332036278408164743733460539164929077519885559283484898337309862773428170990117) (-5756875055396212069487271344368979783102141618766237065577379413403105781067)
    ; MAdd 0 3 false 4708908445589734853871897261938565413260263555108171155649188186868627651569 16319276923502731797760068443383199507380459697323353361703578481449813443943 21486841053258742951968687402600162618628674711445599063688789702073844022536 (-2609522421645128938271257663944940204634740621215795277544333781738809786632) (-170901028686955186891572789663142092745014365610295245899778454049368478330215678) (-235611994416079237520637218297791226124870790926166763745881410094615753764)
    ; MDbl 2 8630253339181672117333847143012544891135956801966742517071082865155073534687 13957627198015908436710920512258965171222684679317153060943216151736782919092 20168060366310073988635728120231586220442708302079174739098660397282124342545 866123597428872332427014203213563716168285294046209407905461544465013892067358005 (-574052050582612858977527501442383517720373192197229768641628765610173944267447006) (-2851562969834799056317501688036482994465699529499191725662908646205617517191) ]
  ; [ MDbl 0 10235891952430832920797534676066420105943806709240896476535814367108639089440 12395639300917774192609154535984493102767367703396872741634482515250522390646 3675192099317834069020165508283283311849574535508165651283477170435348163424 3182201300493008167715057199811903905756966707954542130822252774090703105754652225 (-807524243253559072985909584681802036855296663055291379391612643340932905700372184) 730453304969091272082381233940563668257417914328505596877753260401060221263
    ; MDbl 0 7222745991392926975514376858142004366529847592021344666309319924196441389239 14158106624199770885250740805447965754818812732185079948762881408955402650485 2060671612359925065883258646334966894920897071404871716102004521447438906802 409203101576452067570496019341641554537139641178713819385770455566180025938990245 (-402076663509649471719750762644287489148471520967336622172421312001137642105130775) (-581584089172086673038886455470707548173813331519379508648597222670366444891)
    ; MAdd 0 2 false 9549207618936635771235994882836410546301871296413257514543744450163913973504 5980480224263437591004763807005181072149548779990419526012567711305842445709 1459267830917352939085664747398124029517182882475656862214965909028046609441 (-87463378178155007829744953143040424593406165748031474600820811147466329695) (-702811493800721212044580549512793819176043722881853762815530605706901515133778352) 3567661999198544789443345540055479423381143598477548806239857370368414975533
    ; MAdd 0 3 false 17012941272961030767736935995173450322806305708858908207307666072810265815022 20522741545339749222945376198942661435519416701046175578572586257212422565727 17930712841674690733601860712615081849379203026196890019040940566069859638547 6200348460352470876571865245895351446967563236682098272698472952667595766866 (-2230812089058297629043272195295954201304027327475847891733934297698714468618480778) (-11303174918157984447973013968642165565311792518587162453921209264822452643952)
    ; MDbl 2 10590826603721032240065455752513249733266749063061376143085778338572290968847 2956282600306124704050509087627097175227710436488732057456589238804667536680 11356713196113368684793151121929235483557004449876405780476092049126477692425 336440516839253891481677706076998750283064534675914468323876374082146242407950208 (-864497813082303372925809197466560245908832555135208632029871835275812492129617544) 5420105057180642794724574942516058895243066300695831841992210700656157076424 ]
  ; [ MDbl 0 15371004798136533732949721735770138472811119287198466623968839862952500293815 18881713364729094707558202012841769838723154321999178545749889380732438967220 7657727826285672820086030430305987976874335273013853636368871768706663907413 2690848760748128731499161027297950369737617295331164327606558817364297022616300393 (-1820994775782667946375072772359043868820246721475994647916596609136812567439157434) (-11183623743835353197972939155578571967997032361992509154570786975085398348914)
    ; MDbl 0 2073251541713667076731913305283885345747304033018892700348505086509630093024 2980547292945669908030932157366130512620366079548893388907104368292778734248 14320379746492002802643582554430571435729861492856352840959758718298799043305 244778240375383244571831354106267266763316813982343781099749069810367715391925313 (-33128988612339886101014914043543276083793697867922184508697640343728355040648458) 1506156399414979839571016825718127758909158040613198820256780552275448299330
    ; MAdd 0 2 false 5538087232756455056988492861726428641354898880589732076887918366109412916101 569764486310879933427064758234522334552914587907977191875365033717705737000 15094752064484005577510338957547229542015420775233274742752666482068806939983 (-6139368303826429257032413232455870999896984307926399538313408330057916064) (-236387097430983572849734157480228192694827074177827217519446608819411050435521678) 609967897402584205274617835798787720186638978727702299489190351498360702280
    ; MAdd 0 3 false 11087344920592780005769110951648584990989049827689364058028028201745872717783 21613090124363703840506551213620463804157749096353154036869458679226246067480 2307915445204238121816577763450994124355121597256312571548143486905069569827 1208874994856285803277829858451844880293282595005706980382762377574890657094 (-947456545270222599480142558457174088480850290507640946483154364830323929380620574) (-10659357673960207938617479233657911748314490380865447635257104834969874824450)
    ; MDbl 2 17506008500340163746734687091726051581350019814874813448262820313262958849225 9677595140048127897938849515282458409170204033788203651155872421646195972883 17892351321447115221366064625209863305782394455541770689872858290573027812590 3864345832017002500430628675230376221463800020086209304322960225576660215011105113 (-2361992170106728231266270513139865692777738724131963859992734430168938884850777881) (-5356235181828866109227819082846431991350516264732955425678054230646452942810) ]
  ; [ MDbl 0 19644079735789149980433816613471320317060849293659277422528037651970329639999 20850552065666149176763952373307733040306826365015442572473275676134463310346 14086426794215540868576721452792756265654151296639219668228604326125366885464 5417941526453655998284244784068740452248213705205470361053218695985012938622750408 (-2974182131710371161807874957759088262102868214730032640163260586183998757907925030) (-10027413256354041915278199276835172282829494749307795711414809757560356574223)
    ; MDbl 0 9340250819216198189734511886474565856359676368377634604098675207197354638838 2296238377668414662132080371174173668939166312100135281104625119654710098370 17225666643713477293501109803196843053378734884765003389401384535719896379829 2028179179095178279128161263323955157842029733547332657001543157983942377042286645 (-672390023602902694209321568732121945357053097692818589496776506534861850382543680) 7917581353562189713487001372471060791617008639845408260759525488488925536035
    ; MAdd 0 2 false 21098065658347362653280951231726931470120738860371640681192704855410448730835 13642256412826563571679225182507342884772389677418082039799947081057240542532 11113332375544176835511386292128466054226795868063424184566778351360585933028 7114885855946611605836149433551747410577604359560622330146679051530275155082 (-3430753086114580391093741060867525636075623178418973623519625127907794558163826799) (-10936420747347312001731977940178902663606742477188313787301435349796046052031)
    ; MAdd 0 3 false 21356500759739472429264519915218124614543161631280511023995519999870661333220 9374681495730248514178870839630714945581965417862325071664814113882508635446 12705279801187823886702973130914157230037696239017291740362028928854484053113 (-3868345758952526311315463470910639197258523393473780480998301182947464234926) (-3515316030050581241031139457676782591414752697179975427150609567592618764421958727) 4163900569491168545648551914452976094926250563558020450213836422957605871387
    ; MDbl 2 10014046544919671470587796466014847473514321172672772106268886897636654519813 16865387585070544842312784853040441781836600807499540271039806196142654837971 13294190282863928121702074888531608643058143072826857698618087245699845174357 2659009820479294584521456351460651576775763453456069465589999755336558617892036013 (-772900155898281782018815365125842565696679617448048302501462371424718226855773677) (-6665502531978473892681753653527534523209179785498494005114441701953257284447) ]
  ; [ MDbl 0 21306114810370118687721405798385197278416139080903733978364938243553618589733 6657121725498012031372277587797368305957544785608931522606618198178004472106 6769452793389304333997470599844531678048237426473109873368165062329758920810 4366205884602772508245138206587325591733957401448483293538921881256458187508178320 (-3498748372573808167846566600870702496611380830004036108626559584874899091234132838) 9936772252224078714438411480272731967905672797533428622299322730668141058734
    ; MDbl 0 1706956316450536709485151919396531890178714729965427524578997961124480567154 15514615233503772230701566096251499365489707795536533171843620821500496291729 3980978805703552317230002273632365032031742710740387410108861646128633347838 178125033958466644428236119150336748725758329343993446921776701457591532167318805 (-22456858246589328720002270036522940490974568877159335866925157804320047501487567) (-690752317576946335006607156721037149072327172580251921450108683339098995270)
    ; MAdd 0 2 false 4701436601318278412053479782636609944570534318356048741742417232342930222900 12419973866500989014033482722531610422934817482204894610564004700209006565211 1534063801054826603951824877948010501148042364419462550665523999540188262987 290136152586063930779396945289504663274895018755934780458574604377942923793 (-170359105737214483480040679417107068429652088402234039807312920868965643777248377) 664706631590749421647328461070381660453278770739974770897314730256540435375
    ; MAdd 0 3 false 13301713872363200060929996916206105917448552730142038653667353237679906509878 2756966429357988188489763506491653724864246117273906489145893937105662250618 884947582775838457704366811239012029195978133738240520341640605536827604934 2701524360585710755713319968144142933365508535070630809239003634178971260230 (-1363701715821843106604412313737276820270943139699440569944001097918977955000830994) 5872310574585333613927015740414081594789905946389819086674791337925753864549
    ; MDbl 2 13435996296750420846876714046113039003021235532465418295202916456187637542358 10495686398781271796657850402321790374833424099709089690874851896827687260189 401146863912002711858883109893395847552304440572233449962153819779521896226 824539180214338888175920190265320129965671976283155213853438515493447283809202424 (-1391374163086402904405091370302848875185260922285762908745921529291627088408470185) 3080846170788075544629268313828483621016136120635588089744639890218878410968 ]
  ; [ MDbl 0 9853757820366029355571328722749446869842293828467358799258190614692637209248 1715829250288759420404155244772381653912394264281759350060241731270102749702 9349474612000315130637240975421284004660151448072206334037314253009140534231 60946261045194066894201007288306631957848660698151084572982146564904105351556224 (-748355495266788954194272252657702659469666603923861721694936251952208000780907834) 3952559670742763255266277701806794569045767532326144104812931248484356252007
    ; MDbl 0 15777510343205288323107687800160939904037924403467156760426944072712477661256 12125133658633434288153307340162824899485424192567940791281125426152323452693 19957646518186527183059073768644782337811950135619475736838098756417476822455 2273840180478970690031406797214648480191749479066752720699336298160044249188696165 (-1918585379857114769668800889573269725278350256738210030815471863861556675620222235) (-7503247699226117656013883347223783897563621451484645170057194724808052975046)
    ; MAdd 0 2 false 5805874093737681016006213630345012189505317559299777502973154300684907717521 8190771510512351151093746403767661417087805134485989054084237679684441666089 641938765779817411940303452074264479233588601292900951979848133334967543506 (-432212201247955374915307165232949257189550308852463855697276846471299001315) (-259800157820021437418032038035795967428549561808448517355855563040367170111272657) 1043592736287966600826777025732789033415499058764348194041170363941171018019
    ; MAdd 0 3 false 16193717132777746868778852882773016427766690927337214170217794478229913602856 1805269338846776680226337616926975347311558871797751584802868578861404118020 13133774447691596359990314911198830542893572285757269719127140953996576076742 1705259756769981618915209138413040533068150680044953279270557428581059506640 (-2021144114677147430193724318462304424650789186876871775595058438926902244418590788) 4724226449978219286333002047970993664421872271047911057305890356440245465648
    ; MDbl 2 4842410134654188009934108636326184872112941941691759811505130165585663246336 20657423842282960357396748786988001133380678996764359773478306124623494236486 7918353928038152007812642553075445377380175507454153413893390342180946443860 1489741615246785084552340230317965016453185951133171334843790799572073089319751728 (-180728782641472877293182855590321175872215288447581131415184809365226969040648810) (-1887627467359285640450222683105613214926649070474532029217333514720159024139) ]
  ; [ MDbl 0 2350384959233351460291237567036042575454606301403185593569907332423831937152 2962656361069741819292661987222387258995975644328239140191445406961654358212 2196757588574370498364638209239495119116780870672837053649729439868334061614 286943650415387418421871470853380724654029582771913639149891319799378039197966885 (-42577698483317412449602344599051687299212481704098698724601600885305743076623946) 1900084697912536688247865119671019938495239674450164168325580379578192349822
    ; MDbl 0 15937313257232384311754317703919614451352476278150250645423540793935132344762 2024834705687976984761138098015178276734638500635044558933461186234615572057 17832258912791572055086071274208379195860091177665451232600461948899432859317 539675113737873680354065907544230344146393030779979974236062361069578683216780705 (-1957647083273560893389747280643720628661677353693418302247943947356127845919078987) 682848668518062477841129318329759035368293493871762278392306373356373466587
    ; MAdd 0 2 false 11572170107467944349977777111009279167483660837964162296766717131645456044411 13171196891174102263185494070078570364129083616227451313645864403799449767630 8007100621028336989593634857784860253220795669526825069889246641985008125866 9850927381139656301457328516316204946466344870013947321775346020901089758528 (-1032128574428427645296138878351461783839008618769884063198594623678322331387996163) (-5893008408447669105546435295031699500810087404292304763663766681550401700758)
    ; MAdd 0 3 false 10508924311603483686672271043467763096186632323716565237201786939894680982014 17646267839800443994073367637338776571152208465386213520491214015352116018067 5485014141421948775944747695814570252091778449173891537967899534044408677820 3594267153801837203175388641682335602793923432451794166821965643151604794470 (-851178630629986350720800663043930176619777582458229961133005506740292020810306193) (-2148559030687420163674438855649304556343027306251453363406681721848564469212)
    ; MDbl 2 17564394209239335590077899669319689675859620068426174928440901002712811946696 13913593412323382819406386514594344172426952017395461527044845064703626905890 20560698438533835340862344091378181370341048123289650751290859451564946686874 4828072318834420865925576713600304843921128624138518454439793811123530330346176360 (-2377773786913990096854527528532560105373987170712368315349652026855758012133062606) (-9540228779649115287242035350062900276247963640589757123318891421489860675927) ]
  ; [ MDbl 0 21884659066995961591548062989074320425078459202402313360699643506554478945474 20208539877747380885465460820786781960593389343610558256024026018015351179146 1003537884131395439899343121247923049099264389510676951983668273600089631968 6936070348319571767693515422193786689059754244969818682051970944328498080051788373 (-3691337495715508073912664325107481379161765309204893546954495909688331749603929272) (-6293915781519251589102352838311061649871159458735446434189549014493316029258)
    ; MDbl 0 21108263548372957116710286403765597919992121330710952914961402451148841910392 4046288087959627020499688407842238770772092259590026742419106613228208674022 16246772916569212760220002901911347367680359119530806397736324985766027361686 326583996477618408208690309356124419813236793945846591698788886335466680994520245 (-3434070442189631236516048950756992988283857702015691909563908306928893132904846836) 15586316010451637753944197100524004078691333215634205021030669981473198445162
    ; MAdd 0 2 false 11423366204285197095168231997166375374227561865520903771396750135518328052675 21245549051746994475171420628426150967609171195377588518561689784584748322602 2054668327435801345166128426872686212967043544960670556890668924614618979825 5149698074426958354608335726954238285498137945932233679297012673350772463536 (-1005755421719087254949542423578952666456874772864752462678172510270484932341174536) (-8976209629197180985458752761828158498283493456231644016688884890225140230483)
    ; MAdd 0 3 false 19480703315866202432314576280199372474011401186736086733833074967698706975755 7383211284276102222763230141651451186184266006654082756880122096207532164774 8863393767392486667375844196919941726768073483499531002920728204167083136924 (-6525496513037424553711596812919062421569806364356068497909878677861662181377) (-2924916336062717971648476963993947870758706252654341492794243387299866671034813192) 12337586479354305677322142760673490007781628711149347590539055247490503022623
    ; MDbl 2 3263525496417891051468585931740567946164151124867310019053356386232779007360 17558259502150087259060297779194157598867434331024503985387178898018004533245 13813748911451846122676594354189095385158146384855672764118105961739328985451 817315042255125116804328072115406773347815407731868673651645255779160248004222245 (-82087721953551072287252434424850792761597518023599582620100103544186905526844611) (-2014627828979988839200748305902973575074958064718115506064677243998099158401) ]
  ; [ MDbl 0 10433546239424769619557782564870089345744687333440718123728023242080632045974 6127464782959534760990726576145956914542235417506474824841123411245886719479 13232824943356576699768477928746019936478287400317009724205895194490411165018 2221702695637758971013808062689992427620659783551142728631219102306869543561690288 (-839011809508675057897204256052218517037011844241198883636297201815005167153788251) 5448757397035650673602015669434953227423948774125014429361645217077670332095
    ; MDbl 0 12965878087655974428860821819796180527812636107955202458306892550979096706783 15599263271198378640957700160553635809072091298045380958466686524121292296217 7553305645424515273828186626610059244883326615759392859234827258732731154339 2644779837266846456769132911555430086742582654185396260000315078015159927304165424 (-1295710717958167286899520439905298311252512694667071450489596217743530195157231869) (-5610783158265880309500113148545292837570912986995267133412555166875500541083)
    ; MAdd 0 2 false 3872237280823292231175112850150512754163845868872958819970525921500866352544 3669106704984402839701440117680097895353030788549067333487106419746329686863 5203900381711772884835347679044181231609179525814847760069960748225270594649 346564970194251778511135407363514349409247433302984499682541363297692338360 (-115565474662076704944856518447644288012077819682201581625761665099727730992039519) 2110557585286454494671253024717872386771467400295419173525941894534794679364
    ; MAdd 0 3 false 8208734947091719756350370563621017335237298352351466385731708756289668835759 19083244927305203741100042372263478557809453315643236568509041034562643976936 10967656288584244781180867585856784784940887417880385953546247451673039595701 5208840865809077803408273789791051613275281134253607658117269799629922544608 (-519345830621100311655927884778527192418118579794151384176447658030347616673613226) (-5780755259603650171466798184527443952201264694185078598134885936561023168421)
    ; MDbl 2 4536750410229813911290687006282916746825543189496539629511567228456417187563 12042747632764883616349062726463310455457066512855615139099517561472854278141 14165160000287447840863907398366405864493231537719455401290555115541835787620 528254913897986521324243640224679812678131751056215710952534151013390874226548000 (-158633153568464533813887865182207869623505197586378169657539536581155761143136069) 737154822163030781497225506308235429069737413862447567743027520551667877037 ]
  ; [ MDbl 0 7339236117308491236970670768303069119876371915621402484872827798693374466134 21571015237830486614874476164343732800437766108444331554197688094490491951421 9373248584908206733305850540518541162700107097573737745490141049436468221035 1602551188249106301874318837685970580792349092254914706479990791671963061704237440 (-415150823386676783100722239212586470920331045640746569091355692654963633230062753) (-3194875264859563294310766797286893136145440061631980110842891403813189565775)
    ; MDbl 0 12518201377902289598725742581444909600512804861256479327576907132489982716973 11127251953091433991217892487589336719813414427282487417314754103721434874218 9867879773554303316471760193933201226869840951654753760905457899685936945691 1808762564566793638641341508787687217329878310633949930353881333068629315805621320 (-1207780604169211814464114063381954878455639233262771183221221310546453789864137274) 5972938655103650745911941562399347739474031354871333819175685767388123235729
    ; MAdd 0 2 false 15199624727675283805842011744681745387994034072093992656651486696591600756108 19078095972072648816607033902085938981998715453385986814005772185586851981704 6131598144894234038260336473102086206716304622962047970586758163578499144762 635738138155772309784656907942963469336037507768306490785087006407709631515 (-1780614537007419691059481819678944315303390294890478534510043955773186040282782633) (-5521221875341926879187464561355107374630758813570466979368745999077873859773)
    ; MAdd 0 3 false 17466412040488558265663226529134796950036258320547402570069115145731862670222 6197632744391596309050586749264009187739558086125183173663066090376260534146 16570021628298265310019838114161678078017792622522742143885727195730676892927 (-5614077551232439299341349982317042843657649674331128110579304571427141547332) (-2351319176851665753445842707436084901406275180218563195425336126679207639536844017) 10278370873547132780902688934212119271172989277027011382873226910017657565211
    ; MDbl 2 350958722905581083570092554430181001910408536971360225166183858056754861585 14545475045094021455861228712220959288739999837299922367657292330097834691169 18358536142578153747293272563869639205406754782421714127318993695297414325065 53401333777872040662589618826021015188188346381969508404378341579021735197826653 (-949327946063362956015294772826286375533209137949053160985137878942017721753259) (-54808200822690675995563857935205112330138980001674154973564803952312651723) ]
  ; [ MDbl 0 8177404654902135053804728831580513250679797116430222560373087367727845253997 6373100938168980878359036459409155195908490273036315506914021374504313346675 18284141338336195349402703390968251964034852531466173561326108351414188940899 2314158809968667849012067472056753195206341180041610886304240471968642797785393424 (-515389019867797465238689468957688775587821904857567326130017433360345043041049483) 3053182955565170126564499446112239579019452899957170761710993424907930529962
    ; MDbl 0 3208405378700243647184556712105272534876832017055635093662525966673526767562 1100084528973286218117127592976508903536033582761980634487640382785306203055 15537917139338324555932258173849058043575960006801691579438178910634899281131 904275279148903902340645035823993198961346245624816060147540546865296353636892328 (-79338256988653919048164569185355636356634660088352125284196065638869764270594559) 772925186745083366291011163856912481260255665078213085636527235864166096730
    ; MAdd 0 2 false 12819604493041945365571577581059959487982989500420012495483075194711571860484 13613103040667116266560753221936482806412126797031048382699978552865260097237 12069291603045142355474665944615137978194029778223372302831591710113761845078 7874756766927316774700626308210025772248201539246879274959690709513365611626 (-1266640694551489192670734915538562336193473805868480740542089380966312533919412127) (-7328680939501462987993091247041302612544205604423761681158107897787562830041)
    ; MAdd 0 3 false 17959282525566509581190797536918908034992765547102892099232993914673202082074 8718558544282747007779151441680592165837111217675916373285749837850276516471 8542959311817366373032391891154729179464330408375634006310614517158976941714 765010345712802030241089118814786067949821395107957662944277622007414477893 (-2485891382087669021761540804951433971751113109709104627844069815338513540675735575) 4015969119093435131053750753566925333713653070400127621811146278741069255076
    ; MDbl 2 20593964872458599261317330906532023668936943617105229458390517718973012363354 18553127965091538380835631449958062729512641518506503859126837051632203256913 238532263104476510360938485731666778642469910638909209399596812802253845946 4932498508413756850526451907462902129123177162009750508367144998641406505153413568 (-3268768158850356522942599254179880517019696774331838618356218693440709261030898713) (-16421024087929020278445347254577557384681506287964218360803205692680225837977) ]
  ; [ MDbl 0 2374969792330413162482929631129704141354570749566480741402388310140600876303 7949119376945918838298047447982726060431809798304364611974186977569194404627 17248316890241621398141708968792368570156088045721124601231290076298377340359 8779694715208307549572684339461159778748044687062871402413945353768263749614568 (-43473075342988858389731418805170838891317230541912541397120117605861711969205803) 1150581169165448148539648027316509721645500337632381175121085610517862405409
    ; MDbl 0 9740723208834899995568019268974954012868970135681382968984506649411145841896 7497911987882270531430715378141264094997532837030503247320466824726347882107 7423175130817767440212722834809557997762781431191933139971883259383438277270 2589843712325938968870287940876036417746359603649679909859996006165498796475122840 (-731284871325416655440359907703171799301557870353129235508466052819247601063132827) 200796670266513593315736300829465002047041407837320209546356371978773588323
    ; MAdd 0 2 false 15674126793176458630418479933185239609031290962688658871854935070018441241381 3862863654250064772456045029136024461812072237774566716694685965986782463499 18472282853964782757730926481828632384342622412580799985497529652292980703042 7916617974650946092678471790897015317924128285321133449791888460160626134730 (-1893524351889988266927688158636688526179249273793508713729612277022142205097793901) 2603050816563251524069845770182773909798905435473557376125381157426723397208
    ; MAdd 0 3 false 20747433094187692683905957870313717345352395077253942280680223189927007649944 8043965483001174798449344104694201450042080811125938446451008245825327228579 11769017387743723538586419233395243274452692547419579068816091295546457923476 13924611386565154417225840719378417105970398777800134791813751188405470266136 (-3317668039907209807604325816219068272719630149583173060241223270401826114169236217) (-3963183840746101755355720234259043531976375144387421145703765410974581160214)
    ; MDbl 2 3312187463612938667261207643965754170129014305752859273099629205333181243120 1341434695156685510726233465671788112491795598377184706898562926470904567594 11418868002660295743452144682993416199660447148286515965430672961675762907195 379007343245120069477862221350262060167797542653392591762909180399836010578689160 (-84553969649535137744628371321870474662049367525696598821602038593141976850408218) 931614612848542059221498705218655909546053989160504170174884320220742133535 ]
  ; [ MDbl 0 19991932577871290684760417231362681416261709355322516041125748381182384621102 21193188863350790314978685161718930395246389898241574255742258818939060812600 21834189636835082177250003480936985637487188086521921007041461373468565604853 3518941450155571212293349272411304340825315711993000204053163271502353373947352549 (-3080446996582615881626767242005554894483820449282706209105053000285932811244701558) (-18131877154635318481142735205981087470280878621255842766150855483022919372980)
    ; MDbl 0 3377403060757691724019456711735515459595974954296612220632182942871854118585 16518301124137755252083380553155339067989603137558979202941735813459091399327 17366296575026156357457630446904810274862292945170117283723166178285604178629 1136783258264210732258453772415451274068097100659779255970489596205624544707021753 (-87916414685308158562852923114460477327069121143444720812449770095799986435065925) 721345256061203322524777838678042402117552516699144141028720151981449410519
    ; MAdd 0 2 false 16147564526550828066778452957430095342042710679212846229443081223911166496796 19832577076677383380698111686055954257786426936497747780979319771881595966202 6821187050537384887791859048380804011211849054384042733878703111876602276197 (-11196395773189883777628631894876172339521063219389238166266542755716757454402) (-2009639882425779812279116983526908587326087821297575148314989189166649188115334013) (-2445033396046754741242732656359689335559949760244167690348254315273160027678)
    ; MAdd 0 3 false 15796106286656345642761268391255092408334639989387214625890112954783214612074 1415149594487004227032238745248763837626198521158845983727701707112201526312 359890787877794834802710338558160923080029853787298703246031017967461695691 (-13344517973893097857998847494044910462331321387206336934474068104925297652470) (-1923110673149535646287757725802299478907766532374376652838631463543795618237281718) 13291320081693629516070285758478692125588387741701046448199264584498695685316
    ; MDbl 2 13211354095830833469140163474349634041269694975766813923050462687819928105119 10576483700153342162904115965709918182546522592685627299270816899491528022245 2646277963328845068102436178866242533970162056263636773776347757906588940925 3536660060127920109967182415292351957763430102785843876309179253501395302898882040 (-1345237140777811936110939975916360227698372187052579342778098220750294171622390041) 3586375316678819207913104534888296840379936284630547659030019722082164057412 ]
  ; [ MDbl 0 4064685603798837416533323159118538400616862602805550882944076000117055419443 13318461967514414924920134522050129331806024949732156156091577153311538109345 779265172265394026331885403573437927458717544983165005717568023695600577224 165819940807147246020686533652038130484463718815758018327996315516134805709454488 (-127338022807892951242946334114657046498482152762121266481623418344639395366150849) (-509190237632596732338971821177819263968010196367302319384207303116845555897)
    ; MDbl 0 13747428357057723754295089513310860845403891568945283630606861632952832692412 16312816539886747706248887847624588798220616789391555458287200330318758838728 20113461420937821442585046446863090510559977086154778644719708220438289115697 165159988815003582686538056507367297962452269005139088615722295868008421021848888 (-1456622834360601410187894875839513163314774786238904870811752668922713494688682948) (-1880675173441082279999547432498513661373427279080299624268546090208311462301)
    ; MAdd 0 2 false 21513099122518876198419644245792828506267070237157458204456493669913770366654 15538048909627819935489118074384492055437400434743813830921805262946052067876 9501482749573633394074289569289145439831445197607939423017950288675567447822 (-5638017528566242290716512423471425945777403960871977218472208840411796613830) (-3567057746414346821334597180822223806807395045270298333741688924599865086420776891) 761488846970144231234564973173109655276639341619698933410006375486044330617
    ; MAdd 0 3 false 3023178249412653144772865930245165145245809537603215392265239345835541996445 1722528107606959529661897580054171835831051825726625222637855197109884371766 12377435695548185323716632403628169077777644514773814871017644266170173140498 (-685285525757022391889662044017786986853188809434456231317314816196909515794) (-70442002311220593399539783425294497614920775405363607178661882305854935062410005) 1908183413238407841977680098201726203832116509830297823580972662166796850390
    ; MDbl 2 1802055161942989053503441261550024780403215679187025355211121624625363888338 19693175037204985228156739722837303428056647290799595687789534770796987793536 1347878532781146044820023998158601426283946223380828180641714853140123274605 558749859181723567080799634764765705355277573276686524469525605864676526915217873 (-25028818288225959179629507705786559159734355162256965691502063773428406025662970) (-278304316841596586846323363243954530167423012249647645980438755531664779918) ]
  ; [ MDbl 0 16447207126053714877979868784928563228219503873046647126247050340204515592403 4079867664379795620402105833346575551790746206511764716494705355542024534665 18466020948923802618947924751514178084381415794848045097313088183596798393368 341778426398483342426435513227154586308192358348261480267467611082686219141242185 (-2084915734914212293927290004562977771215044100383222260160739979946766742953599455) 11732111242880177464683288035590209664540168132214490164174230733540095695120
    ; MDbl 0 12213639788655253819448873560246693522630835589947398918548895876432354730050 10774341555119003721165257296987751605386017740792642514248084638818810652909 10747954334143563550826639232021596789258160890532010990998496446496103191100 3476585348407098668572730396872249356290022048169250121013798723644339786173898248 (-1149726121104853936384100319973323586589458982839576130211262003324483339630409961) (-3735516512439698336259265127652016328230522246595582933862909782613245592604)
    ; MAdd 0 2 false 1349610374746929025147800960758137952266072240333206113573326079240652967453 13121856295134881959833146547240015489290529157232996424870424347870500492661 17437999851003493659284408307682686339031694786755433755238339192974165286534 549927660641498130443216798558078400418485662937382355621007179756038044278 (-14038509486697789964453811478893280839719771406809865715420536597781059507421112) (-144745755360422945204071505984809726172446540254397045330393517000327523370)
    ; MAdd 0 3 false 5009818277208389758639631914929831464887758665590180376787358329925428991993 9322536107525722645375076476668237243292437822253598428861523161676807279458 19353695777509072586961886759512777914103753895808394826240066486728466015018 1504054616542112469095506897055186351006384086832924497159504340768671755212 (-193440822129047995266293265148783692396095394736728274540289398463233607667015309) 869594870099856050487077607677606581011685802864662776000014533424349558731
    ; MDbl 2 9318985888734073768712148686519490622764577835795973845129201587072147693405 1453378367430202992103924412772361454470639781708119263250304474595089358962 10202811651141314519853463185037757220447523354747952682900422595277565897615 1543949607534555570354975759756823975855955121941439801684609605801645858906681024 (-669331850776762574450596733033593518931844484965769613008842022144043603492000034) 3968428389801701423480190167120865974762925593759304645970015298588275391460 ]
  ; [ MDbl 0 16621682934505961235579805762399848144645154412133787758565849047695229210660 4612023933469908888847046839305379279232609203645139979732433684565263349625 14800695764006235957788903243831347110760774428421725222455237470557447271119 2614141492997759768221360823360338612101073133501739831364136045200306353741571605 (-2129384904674515514131611017918431149208056186940279264224926984971054572970010391) (-2398639553143049686309984127924536254210328876423362900568552205619361041242)
    ; MDbl 0 12386598164334513180668858230445966103772834073706157849575138779838054681711 3530489812437549953490957163678323546705421335165852274953710579566162713282 18123665738245668328031832068570526500192587241993356653428210995117672797781 2825978202250806196838814083365321229763900977510293565895700829790446694302108128 (-1182519418650488047766648532410344159368056730850234087539857022262892509409685290) 612042210819951684809184465014882839200449704295194575370344561671730249269
    ; MAdd 0 2 false 20690979854089428773062458418323227410584621567749305746643960171914188324071 2894630276129507899814421840722587526166437265468771837722838950829677262829 4042155573992734553311794804039854485790834164385317092962970809822242782604 (-1963495713885698005897136929429590627925504798581460356828642129464302809962) (-3299638021478555735236471709620511279282280942129201909313062941451458064249259863) 601078713024842940510177160348714297186602742410530783627916355429403428434
    ; MAdd 0 3 false 20462881878713280449220932962769718637228601763255196456350106023857667522771 7323526191446039197989379955956380097747684170850146257780089066366129862313 6999048453600781084188207223545850555871212057015566360516207462680442190577 (-1347397675449207887791361812392745903815638725955900154496656834991898364004) (-3227288409186799402535730861826221522649811396353928015918731795835687711281837406) (-4140486493086067515317860572198648244347509448214152812571534049018796092785)
    ; MDbl 2 5205158562017914874748161482782306487657522478706513093247836528509874866322 11580979897804219150652088519388792470228410431348125277940982377173781254115 4779188011696202792455846963185237667000130983215122363699717661062040518393 1454168379928839952693896299302982849969108120952042889996853647885787213645902885 (-208820009440103533275391861294763102314529847191019946992772019018251300101625681) (-1914455977194913186726233308239623186003406488055534054489364555352235207200) ]
  ; [ MDbl 0 10577333428369623940056719565119288420409611356862741907307853635268040265083 2146295360548059498106132048843585835666970466283526907378510466463341031 19953301754336843687414563450766660517004455640438809979339025655568905315936 779246275157317593748493334482064263595013543634770802574687568288329062038575648 (-862296400430819866349301264781249199989874132518591280670056058927424300454101827) 5595386730756129564279206706126735099759834049377179454181129250303276078779
    ; MDbl 0 6923277119741184315047139625116889915282353167118598121188825284362766628466 10355321978204890114396495749402886593048957065403425353031346011051432989782 12977892067163344050482278936233240982246396937997884616033293191653239457985 2129416746931904106520991863455346675741162308690257228292421721017218957756311680 (-369426133677818445498480126423069936872432432199659182049476372884536356755930126) (-3274721718933207866810970774729608659072618430515077819104292754335798599311)
    ; MAdd 0 2 false 21165595939103802702370586067394833346379068158247969300422829153351658191689 14096452161835406144125094816217911290738443724505586579603558687085707328128 13427200083635484682150148217023569417611468472869745519284364671392294229502 1185192454126952888962683766000932217201035873240474121117827726286800880637 (-3452750410499902652711734091081403513038542316069296977355843069978129000146635119) (-3617615643518986728126687479612986471402958715250300651323279458212597329593)
    ; MAdd 0 3 false 8748864985622699701876883044846200541345903194859804852432887812424755265668 9285528023779788344636986389573011974195036762720497630024892088117125325913 14687758022399756702630097594255104046414392825064055321673806320215289335358 (-1005449699272192512225571481097836689389874131211808870155867561944615444975) (-589939685736346046671704915428379127444842205479357035070540614148034225579942262) 1922955898578487238673252737347289749117748831996414282648462440271119501280
    ; MDbl 2 134668898033906383804367170715722567218587945084638800620508749122236202734 17898404056100961109994844737924163771885911904872337154360226715281559984680 14791266557498762994675065154393148555394631605013051005004507952769980444132 26955196797624157708192892297892137025044034103507208331640733155967036751986485 (-139777991718678230411771653204356533228513214306534915669653307930727526747326) (-46409323816325744019460533867500156983515576895775896109102910643817315297) ]
  ; [ MDbl 0 18912864875404450327709805096886246407625143149637590762095898459376961023075 10911706516776702456976220181144645783613514108888729890653469179711510588959 18966596402509633813732917291618940422767445646074780154717926166331444369890 4312223725553640451497244184191730772078595743770084132629005263513724927141099393 (-2756886095580758929701562144501542672292048918800390292651672180456730690589861701) 6036960904548700405299964985140205855389668735546179302269673087157883587509
    ; MDbl 0 4007329698453455489140757092221131438002249429301863322880414958322728483382 12139439821908856816244295956091448744602037158491784744777102904308322419670 20565098263509303294906478940084799405925824302600622456849521342284943736196 1171614414526722799745404910436793115468686579812135860576272080059793640733287024 (-123769698655797805660126485195154437504090989545168170949898237175707474411032958) (-224775107085746490530768905148486592911558962860921666584121095564637233664)
    ; MAdd 0 2 false 7381603392719923441967631594455354131899953652409530285058096843787211259065 9721168627692797838832826631981137198537104393604123835850293138262056697101 12879942796917428726304024267983731057771980085693505809916854108349022200535 1942156352091545150690501053347719351187891513860344793657331107826805385442 (-419957747848508402564698268427519566042970209361619785114491695479964632532818497) 815539143834532977760989606839905942880447714646544121163647502183453369062
    ; MAdd 0 3 false 3437273413827961363336386412868818388466154832808947515765440385456465538324 11873653103833985176693657456413662960074540991034807607249256285218809506656 5847159513400594478927151915253732512620287892036182117881996585669739593395 1284132038430621054113766170185284077030879243054328404757676643138653420047 (-91060984530921938542866963178579640172101448663739059170051480035582737135378255) (-338020630839966418976211659702854229703168378575138241612960489661943551750)
    ; MDbl 2 11553626065202761829706842624843666430159690537291219481149876542566664881374 15459646481953025615436193573270686235341124610178815083504887268221006153354 21717689474396583318508405555830850786550963535834700258750704207390471978487 3662567781067928671838812372838840809782167190522068943987939434673723106513667813 (-1028823317033459493816900859234766923308679039437729396598597362371371567303142176) (-1752558505219230347146259127001785810956809754353422586907481077260227142547) ] ].
