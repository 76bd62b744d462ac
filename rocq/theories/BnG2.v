(** Generated by tools/geng2.py: a point of the BN256 twist and the steps of its multiplication by r. *)

From Verif Require Export G2Cert.
Open Scope Z_scope.

Definition bn_x : Z * Z := (1, 0).
Definition bn_y : Z * Z := (18278151005453108793778860132295291098363647455926340152056652516292830556603, 5912654199736721486680175016176231956195085055698687135131307249486702594212).
Definition bn_steps : list wstep :=
  [ W 9784480158814476813271801648392063151906817515198730720921342291163442666383 21801283298717124217868907863154964005791219633363061108467005713432123729563 13321637471998731299056864186337617424672065238838158194705569615189249744189 1169888843150030227395928582936164703016526975648676781971310646093106918045 11919353297967228622791308931284738813615380934425202497451882655313632372721 21708611567463683866315006974659879551097494073481698671608886957233687482069 4563066746770304409530474990374547781602140115923386824888070260608208150201 41697216046243842159777872214423650574874389352305921397260053412120939664390 (-17340811855711719736140658669140885595970867248324119744836248684453612040337) 19491214998115220942098313634309553784519400350871851041406849329845260553611 (-4789796058278068041950016962283783462833756507294650086418545951145343837271) (-13791675671328264879515776425506648709919675644048829695926576944599321377920)
  ; W 626902907507696656133310215509455995904504297165424923751818463423745269405 7100216564061065055466416672923676371199440045000098410816632450676706310693 21147775019789731550440696165035821633944325486397670806883873714264617831818 13043468870672663241635698565711315304735248238310332251616834029277281942736 15548374608464248373207044034487609697940549437404670930530752614980047992418 7302397566599412286743029996942576970497054486102222683157168036660068743349 (-2051746317799832578619981403799998357081681904124047153579847616558938739) (-4354845581459128553309961555556639473976624084650280882163064874922436950044) (-2285248217228060766739645865930454453735441042521081513166486107050641491304) 406715736297946014891683185851777658073604700536398978794980228123379173603 3627461631696688222431613739606712447192575674902541774652429281854786689813 (-2878753386471827871534273112216866363442659394852356907671586025142905028990)
  ; W 16691143704939799185149167349282597023736098066263706207070890705587968225294 11228688370339233084582884890415522371619695724860295513617126108700443053562 16770836478401844795557583857757034404525253703306352032458181681624066386685 10177630116654108632071480959329247797967529378123878893505361531646665918541 9060861343045562849025162620395611334300500173066023040469603173561472116657 2758056234314305787042530669587068855568279507186814537305320237385336076474 (-21757859250645166631074543409273698512192319179482625482063501318420035449672) (-48523567492813649190233853094192718538299515513778095270995291230624170293268) 6967705747498607479623313479070363214616441645753187909445275996162968482937 17125143603778871690739957756256796703354400267513933319705454787340253919421 1867509426536453936042695758980987714436197447074783108998005614952640571939 4430753347526779822060241834446098902339121048738421227228235379264527096491
  ; W 2015209293817882083035383498264306412251169504187206180169219637732184850656 8090069174138556902002113759213725830300400559155896191594537192081538767662 3552245839488612939772057637272514574332815789270983498949609597316064340335 15871072913975149496585251358434209363297196896726415523937604767991820253029 13297172673431983213849319544821719671539222392556839133015033802572143161260 765526262271949326276333310963426311926930529183083601765864294967098878532 (-24722727850591890637828051956701290643848072587867517392376270597595328520328) (-39582990577170135887516883864884284820705887963152653347099166563839998477238) (-2804617579579081191874405113826925941492698513381586404312255277563339394411) 1489674861779676217137240554063707437825062006518384753924490787635545640951 3321352618467690979290489545811775125912448091311348011504678520384431460533 4361511994060972607137548672277647209431872602686187449708485087029925737802
  ; W 4714481022181577726982121793013593334787520877975252219596119041658533372670 18930041701095870928206136181996934613508866182899404519699182013993858685883 15430931568440850580730778831898127298865061990085403968305544218941662825347 20506776171198602405494641788976855651149995016155929683549680752767337866742 14404552069705497624800246352678376402118506719785965747428933466931695293486 21729064489110030896588067559318535109823554873687737761243647597899606312518 37198653536330433310112675506275275263705072246122449323946668397251812877792 7875573619518597181503020960351626773871835764802959233807111699012742604250 (-15356195993656485316577884457158359128875845123729077451706155736258611861082) 8154635607021939484549337349181673673016348787983705804512515924252963817740 1450651736708973631863449250854209254235263658050218153414849281733763967871 (-11271756836696306849740575718789503745902518587394848800879781359442980147932)
  ; W 10215828351350571772338550454087901268984150312217664253752665893598193141994 6894241820695327476347570219904987343658150072157957800133789869042289684577 11598232808965473481905591028979188205295932432942554853628559432945726579867 7809404059474865396954773783647669710622061825178316817363147158437742828178 7150478958597381513527249547364904312652516739276313228125514432176343904654 637069590830317601264585583178333392921257165425687863838611756908443060364 24759441649290027728591680853578951280168720739651905297655312542962004460667 (-57384882349398179582101293859831013248954438538069758547735733739338714321352) 2596488852705153657626233995206860497799769596209653947437323036614577706862 6435454089696677960387672420076058507432312681656326451634193512073783419258 (-2210527426054453319635818293233720748382910163696314662027500409496226876656) 7133406139292230080484087491641236917470427374153135230661361256800308726418
  ; W 11054267087013260728962859406853487039447904343005407647741907121691447536227 1916992572677815662605704296321991632225340451675205577152405475421647031307 19242790793517055626066959022528729008036305891728669592225755562173745392294 4577453751376735960845706835557005468177224085620844243866502473076421630135 8312879431845967758296600930230962967194491435481463847382370775165984190860 21512654524836893199604404161408594935717491003287971816506989858612376135371 (-2967462710084473611264506113500811430437401694675331477900856782917444414965) (-22932503823898428667804272996357243890970736957932214833698423481229115620568) 5414868658087185082876827552309209889378249935098479895066848949315677787244 1936285888847191188339955614322207713810296392257820772625066672192192349089 (-4143805009399517668891468540795811023365514735923282596765289537110961239068) 962721455681222310592547362333573301132171655584398107163818501362888236439
  ; W 20387805353269480128394231491979991069280760723944701442482608769146133200759 14406122295865071858785469625893182478410563352209970562439255510808269783795 21408186377316946649892432479607634186751354987408108264716905010121474926699 6585398601201882448059534182165404531491509653755676562564017862505373518616 18759528780252941404415278726914928940007955142457646650875962917206500664615 13598100401498170980973119105777007346310453682967807085786858465141732861751 (-60711171757168814818412761144884829878076853892171313165697311563541751661621) 26873168195206545093275185327616354874100788925428974906785197372533180762186 9508586355606992363659717884918977946496021858109484337941363471542312743943 26837167239346541216894149327032162678731773834694630127396567889482083855228 (-695394541011368135585554777239206017441159398549613473050070347736192358325) (-3295492597548149359592062240648174365879716966109194785047943942696402290472)
  ; W 2490577329289645069334530250259740863553183549601190644613243143182046750052 7033842846315713290360962870325996961878566559297684720722323088709339642661 17384307228077231313633930076403780517892493021377745143002881616487138338371 18725194162562563374370766751217082672406576413184996967501607159450325143154 17145045109233815957126543043085563731870115773240800708904415606781310439126 21030074754779116031420000179493365042529001752858534568286922037116212146767 (-319718894400388478557393046475851956066403950939862403216629787690177347676) (-7628902148102937645606709620537708218249600401511119233637638923089910636137) (-1976950365859086344411662086073825015063887042949347920084951303772899832136) 1600706793450158242392449027324431468985321474162940458671808813580581158578 4359015792567929596334604441395703177657262287493024764581710650144104598451 (-88255875555117833256431146832083915017672978944358577466924298906492510442)
  ; W 4067122490162894449444395098569121609840514904735957094334890350504736683436 12942295792997666643947644607500886445309042792951670507454482109846427676908 16050002926054583847198157069204892991964797402224790060087966147622995644045 6460878322019539746865448377639109424231281155894010198604884935243106703448 3811927156250470550857426003212925281590201750664128023092191078187674719855 4275425494994107182212443842031457354518678681369419287411311271020340333915 (-11861921698188839939584773484640520061702534186592600067742586445210778963425) (-61141997866818102345264820092599008748443005004386006310745168318224305735508) (-6896923427219397308042351609356560264836250814821208428291543334302389603285) 4809696475157783635852662679582541261856500545892980673462370755559102898940 (-7003834212238674096095826303126813828850008628701433223610248619983802201571) 3067831261255435185528012007531718911941703361279884179411068917635987046074
  ; W 13042988100232804116639841619211522900494370084110966533180153371699559831881 13405181451264023434427393709016982695392153942078506177923521687518946730587 776149248351322912483455022989886694594675641436732361459641836564746964726 11396610408393987238588164270166075327624126781053325151066649328407886182350 7304024919689988307418023598203469891470151237552352949817715785514371622623 20070167958866041468695377521509522278067126673545470441290954827981890761146 (-5607154107830326804421111621411160977273409365464466509845951587563825525392) (-13679597870940135791681072595513535758836537535122009605359703566176376853811) (-437648248632282343957220204585789602777647017499959514993573307859934669460) 15976030892388029332425779981777361962123601861733464226258574027336294376512 12124366379225764655558585535465957050958746566329162765689509058524530702645 6413127173481234569055493115121707112585236361771666820023142540419069750910
  ; W 2165309810654881857025191346321714685600679571267155510908297731937118304648 11571045731127465605275957123035255473387682536151224886302572815993450622371 6046667769901475334701160861521968831156566423454026313228375291143458680181 18950136293952020685320347590155584870459528564380599589543008640313896109828 380713878233152463590897478756339880031621578720462634396118942633641927686 12964809841065769667377658903107389802337895301822385907139531394790795090899 (-2055612493136458097853602282988317029486025167487909391244527895524502617044) 9268622130803689413748791796081757520634336391663419357364157062061917155854 (-5902736619482151585321266409549598868031553109852057781387617470570114440390) 2289347663752528650111960710680254215878234926019054733301177806950875793136 3471721710876229513003602341855857403343657773750204170001802814692054361683 (-3533455608908206041672818153873785787266948779983357410162277296703919197718)
  ; W 13983846613497964049020247640772350658070826290231316527246273723268545591444 18323521653289257955160024610170469261560686696056714284480182252107741761918 5108551211632439929383367312835114615193239096890932287194853474429697595134 3408280133910609034685910567719332276405683356772938304665633715504347243324 12626642117405213481489151203288231863659371553558743448919136622746175834585 8858468684527142007613535521416226076302014770913280930284667955003144784456 22987782414152656826992685886315851947689832385216475660270810355430771271031 (-14206860260083446152930913997075975687697083004421493400661761347263452789800) (-6405424158058078316028857630398529267136198963896695151996164840978712343748) 23412872172427082299287933843732834023703556194015315891243148401776826702388 (-12411369035653482107614185778726706256463610638223192718503799561110233111525) 10714634933147206413986810014899251747870391325518214908759542024267202992049
  ; W 18901132060922815274904558381538377020992449486074422030734399931641140355668 14364765969892797756244012036788364575118558700889774013777965696884489427409 7331339499479849336086815274753544002478283776223572328286685696889406507116 12972055436304139465517945663004510178566513278483511968824898185192567254264 12801274844725191678675683154278060372934082352416948981659072253062068384037 2859670422579917443663516624517040127894267240540056378867198777565059110302 8194958192978128001798253992722760709940353286164046195606122466374274064164 27099454842441369877093753519677443943716595624619214261698010879217373028750 6894399550399976052415874230238241287674949046311833911302246217615894203073 24808783437843742233241633340473153145018799716424982779751420255430922595464 4357050476543509361028244913395392303323216599893712257646889768704073719914 (-9717363554144718241291602542258551479511810657586603581290380158631248637052)
  ; W 20394112747675348649455455335491770575536448557042019242581000237915350934507 2269512687566086508646217913634768938010182818626504268780702308074598706392 19485809411386344591404018501564341966932347339632368864090582295289027858308 8126862320705217811859621376885341362177666077021428942169599267514023488809 16502345326364725161499633258166850679579453082246593626180915415768055773312 7692963853341718147400462201514702558899962132606930012106390838884045152006 (-5485863833403495195386190704553662756290635250042877350610477259095201172601) (-12846720076821626741561249554652971970584596836095086711067508075395173136986) 18766657028205465573682853640171652147138502356919702510018610857058963160120 4229183484805982455035474457204773390033984341555141775537564252632607620505 (-11827164863666140609955268745621725958882585861056914842557352730868727209091) 3254198677579247615998116579421834478076132683506507820235658032553339085911
  ; W 7644824928038531983654636703300275666517772769297775421257316227513428794417 14875104068500586210164338108944740689816163493271156027415516701321359123141 3590122359326192387403802959453104420425976613666246762732530094364957126253 7812063097300021398643401462113230814826362864723169075758176208118583041264 17196852975209222054522641653010892469040199220554342207564246869458284313584 19673208332642397209918049671575841227810505027716752265356028409199117162895 (-41917701254818970598030972028521727635823715532583629456740277100968637348351) (-15605638692972816985697630801849101133267225778276323885121688561405364878868) (-7438942167342694733001000131340791671905107190710755997030646313434554338667) 10390744205086111522148713098553860101018467374800639518759885602967438131864 5337891858161543842361346750911995538637487678052152726227393803809784304918 10912551797267959036521726594105517675140025807376635034128858766059765091393
  ; W 8876627201041006933010055767675051107530104681234250339310266982067983671685 5497352382190799757764303586547555215826851172633441022568234287202898329309 7971296060223813562403874320496382082649296436396655833017572967470772823801 2149827418565849836107614987501487841613981883185886251745325171391314573112 6905007905011694321327363633683530285433255184611093293274921659752979146308 1206257487119566225211492366376947822571923458900033164917711166235338453600 10664037474776515187338469468771460659914215584589985056356669651921471011657 16906803417329937503641216771874582856961091187364668517406961643922230376570 2219165217449937057773089656031465263029347001321577587623162772680410342939 4458827323434384512058361928959098286008437796311529554071343717647308795430 (-3198856612330927640519534984990693562985040779787716895966545669123259244280) 1195925123656843808878658892070958884134233434631511865577615431917660727371
  ; W 21213992295436131705330354516684683586269488605247331548159467264726545773171 15105295232288152311264673227365254579589823196440835057883258856996693877246 14570645711360436649267496705693775190812109116262534346925578531975781640729 20766905515644752317577501326237876455528305504615202145829746178242309422273 4979556338487602698576463773618369331911018677045473259553464645831182410334 18108583289024897281167962386534170202608935864268434022140616773068027589185 3644166855793847909592092621077051229776320274922632148618156294090845246355 7171063295372848340365150109047657221361043857179883177467407897528679912608 10136196238103653517192104578029861353346279649930054931942143901204572551318 29279976337463038121652851488247408930171249714114953598543899592175407711845 6451769984082514267989146268331442033484702532323373250002309238336451893172 (-22597870419870638436419352709598985215543925137491829540485996090063397323188)
  ; W 905949497902621793696631345683860849323989727643049153638040992608198589338 13943389668489063790432772829497181346151984016863864314220498029432466100236 15003056264135373663787760351119664005452411531336873217864775373959490442160 4328842587976581451603489374971425317712797156356232839251475594128397210380 17323440474969589298007995021436063642986255169480691475505878422752065272319 11246361676208288287396351482188392683958595956514748005046312477503388565837 7351633136305891784806704202919594546199313028235427825859948404351234868816 (-75101899850040918964323393550636335993089851561482998798710393240919952052318) (-8844810983144464259717849806995589307979862454103087576258703251081167364290) 1154227586306639001905649328653660941297053225730937227375876004485084614670 (-10489378259512288669594691323496678686063526796808515013782705385788869063513) 404910804106050947378818767551183922230855898166151175252702545507392171712
  ; W 1731901885455354313824706094889946580840292514382098361743912640378830278770 5296553739479462829598806799348418650998147257269683660865717570970487260927 8873743123228419214062265125237628767590121814899483517339314385466607291536 12600306846558308877034779718800179780419837396841586089243226658550226103537 1355917594825766932917105812522370285321539560193448603360752511803155752669 13020868635969893473549977488552749578902951487770617796660966610806348340409 (-139612578879736906392760402488394386019051384468425112757147379587786474138) (-3972983345833811093029563486686411381048812916210813486274542247165059024896) (-1144632646898475123085210562879800310256544659339871338121073648126292831122) 838177048887000955331525122744959845513680271467066121890156020368410918761 2486523210370033899427437640090435789186462037968851713927747561497061755657 828703884464566828707932699900232282469511606899728183192598242963485292064
  ; W 9312710152085046465075776139731244613661407601959417290461705176711636367351 1405167838025681190064904460928062063625531515118434403354915648967479703992 18458637462685359069225797578457034283523961789527602820917464816132278609833 5688808448072627390504134175669432973014053927723341180825894177179897826340 4678296946275807560641785995335118534118798056775983289295892457522669485953 2419658509125711665870762792984177682133508773557298359479570180012071156747 10450120259129134945916746755247698047264034387079233904146472246655053388047 (-19395873172927947165629883570793001073502590785062417655239736865844354840766) 3872036427043007385675774767790888458531439160532664920758621489223342493304 1195703178842289938268780635110299881109348433678254900451975884169308551590 (-4521749811684380308609565529782838997888884606333759344645051425908646362371) 2325284690188610358490045098418490143745742209572145420421314035132567942649
  ; W 11002244722186944122512200469274526768068136119561319586366537702635050327915 10190659956729006866697119562119216498505059822003404241733988231749024141487 12500868422764933719627715144763041103743582741125975462185870716418451642106 6159213010900290348177684431379891151262136846157565689399110075009665839316 14506586265797121312321664986720081892352059216537708418645141351461645500895 5569897396469615719712741930239323118272013030623611936818422835715724521668 (-39813546009441643709651886633719819119068034710839506585713909293033779674385) (-21995950173322543571845929164892704942973158575704131590361210628739955927736) 785802618963955047850105766190491444349874573593244349068312846969688168148 10244781673980215810874098840474463553403131159365880935939912078241431861858 3213714610588695945949960834703023153319539744695972003364291316296442114243 2537348136763739476858658595290214518316569383228789794797442543479094028718
  ; W 5500190990685593204627688716771641785465259326633700928616029369974260042945 9256072438384078415898609877516492389042562798647283581714069341984001856735 11220245929400489044523234501096215866448037536316375074136209535792785451058 11982609782047339865445897916276324049390421647781153644447451760337928183121 18465444281218598518676280223165742634269917683112759621913695409450038945762 1691375387021825431109796259657188289047010430094540012354035373179207258242 (-13639293860161994975069483531916504428626414478014975604713549562117765941850) (-6037672544940614254445171542709379098660115728485938416564455881397114311082) (-2532079727692514423604939576921199537853221495879744718104502115814985850090) 4651827607435109111581068986162167604168927110258633691627524987257553847059 2784392105319334651004517560291530642129006880796203533122078309908328615366 (-921785271169637038095956057317329052787434621944112382903274602044210206685)
  ; W 20303593661896547338078507522209983183007209930401412543406296199183632130648 17572586195270823376402430719749018399693525193906965298816476066877351037094 5856034852646720320763932452079034633873448085258256269720219998594808226185 18792576222590457028598730267575212525795098940813060328770095620671576273157 15870507175540724547063408823982263625400763538060066053454163853521473423924 12569116074293807732393534057784270501947788770331077024213995529327362015427 (-787905680631956315830296867646387159945010092880874164766004065377360684541) (-20123076179722175482296797839066433245563721954176850067373544037057778633792) 4725830693804378142235665498075974789721324349545783033106692579227606122528 32600757565282860940016313029758265311043865964405307238985928963973379973862 10443117139223833582683800422059044922174629641349084100720378338785683570294 (-2010382021147577984271489701727205523818454650123600778557848404096150509945)
  ; W 13657390915351846315420048187282095192613600979133877555903147209955368255327 3783046064261051371993940489968573754862781667357116293364982857288093195248 13950080903052409287481909584430656396328949033376403375178631487679116499904 15808204053230854526106015770029335199995067091790378139342733010868963463883 8633286737347414411059565117755910410435293778800854853850693018330557782553 20220589540915328871960667915793256599861522191976096443829336135687942581005 59164350884273387623482794835574485779032694349955850754760247606594839258672 (-8995674360217597114890885189806314768089076119343265428259127562619850324876) 7867826124680743461511509835535611428773042539984290477576737249804846918297 4720939844547228031931750630597198805802935488407436471850992015631243212765 (-5566164863036285370838246080880930991003397422616122940545268936262767842874) 463197907583059426623653119674871482226117737236202024827981382345662496938
  ; W 15200685166426756948944988342083331632786622121138351766085555991933494907980 15223237662376150730443105228393843879680431979911812826028913164282156675299 20276393853664919348819389998412518195068607989400528892186087693685484417567 9558340293541232840567139774107208835519428845700716185936456049391229375988 18230545013026580234218638921411058539499785557570374385829939282208564382052 21543088953401782255821993723478848403359817599362818530706318578542027866613 1306695088850042400110414577296265331765687857325968253054953271457637548669 (-20680551312719333922171386621189754833292261488964834200710638030061785039368) (-31347212308394420834732454867702259392457723045940027173087760753489068831) 21144104099574565785582731221403192270724028043618706314694506177055672285743 (-8740192345174773190477201876364323776227679193543345839691380762436141574650) (-59609820545203206465982577668223254564389222522121286318570002898331383485)
  ; W 9031238942326030372406024364790480478614834257941076507160962681941701894208 1422365714474480210214305426301972904225546366784398685300789189548361062361 16802419975082572921400199112176920344555131222133961375413077600717676956244 17826908755903687943610304882135153357212085456372691928294310827202725471759 13708904283635028920765108100528823005253043186800198780402133287838987104939 874300272665991443878930296682421156013850922994133895544246433168275274456 (-31583454449615575000904581363800358515575104983663760001053517264526706186283) (-32979781261956868257886248848230052652939161946662873695849387720644531368128) 3633921328148617885587271854237780308991199383419113563516627430949750006555 1173755673857056694778464708218159555628148938548368706008401754591420010927 1970702569324193133912192715373323836134402621120283748445712556923638004428 (-3185918420451144653683404308284097573355537632468590676545902422703631682998)
  ; W 2206818151864261516645593165304705227280782584328013933142333485569036647610 656860231515665441839306930995646980781263552199638278764506143775039477426 3253281945307820137295154581501073769790636823244059437523954607210282790044 6264013333741520227686068855119238169271303857574138279061454024071768361794 3396574155986375276283436680736584870900676418114907545611701327723654801456 15501973891293492197720458901272575453808321295675079527667015919448439633561 (-1159074217706516076852268323861220166245978324068401180501031528166906834320) (-2301582068692530717657010603584165647261687781713414449058826076875710597208) 202783796654656088874943730239769564633985837605884580080988792783646542745 132452028299768577167135553863694191514321634418509500240228025647051451249 1019052909492597983019953313416452924370109421183116754600505711689178602205 1572401112795177868454632960106536062542599541728815089881177211269773007751
  ; W 4475113760120113010975358620654978491303256659393768173173233493958086706220 267150218432626870436920998931581565828779474123791404548216105120839013184 18720377533931312000411210032683222845964188559198260571992289561610710913970 3482198186541183805411513306672403800233373584636566824301576081353473581079 5371369757316149505600521187044708573507601469511757970172292853148075796595 19136878889381334659045716189453740936556995837882973729580667682034050475585 4937785987882238599072424443208536685468648025007885223850434707939899225924 835579886398617534656680523070827844435983044812396651160786461275094326904 911689167725820689876174878229939483897864264181122717033348744961213152042 109239250087550023147679492554875578965779011333165254762752193014692240371 (-3196244451031946816167506155658377380202271170691101173495239977456197749757) 379971171145398858715874538225566530859223582305087817363888906507490849190
  ; W 3599466316512427891656013616753862645619040571725517882712456624583357060773 14348214328401199023145094616783546888563790121334328513390113880681273070026 8005550311780243858110862988910243092666236175341995951805202938105314568002 11030883139667953881121357047566399776311141937006960453765891067047137054134 4044817319611731051354012003860021909206779614078125396047153780656659564710 15822908462705162715353467764571244375768296566519585556709957888063501522137 (-69693691360823972627589269202656093439741582823966361360568326132515175958169) (-4533217116603253465177311953437869738271477598436357264848299814515489514210) (-8813640171099728619611654503652411051647288145503398500824581403653357574983) 4719055291882484717675191543597921785498242433624293784003861806011089724288 6710351769140483191873723112742463180548558567719589217281190814551603283083 5782437676406853315012301685180372210135942786956260408052730037873252484957
  ; W 3442874911882929537276473488953759765508647456309885938732668683965015728187 16556028390788917814613255782551719601732621602497949903053395879014944217179 8739196438553997936055129083078572503405968361870792635551398226623007138258 10663643882559666439137384511657141150683937501066329413260794665551906979703 3475608532594985789877579298078969426644140594467793370185404920103140800004 20309256165573055400667520584065073936782568319620091555637982902321662292830 (-14770614711945357881324248420515981489564293124905407435066308861370113609550) (-13110459871607734010510747214625798358909879596506876497693542366352141654930) (-11981258155497566556843769989535022307797098095633217088618249452658652317498) 5208306132275561772172908898841153581641041936419938837335282806579219960825 (-393173424717364019785845085520465649364462298845686567774348944574578121545) (-497157644970317379838253255052959490266512945060508229774333917444811419918)
  ; W 15915545136551140809678245306634924764290184838766008063217655645363836213495 13303233123629328934893074850361087471733009285377236045888533407097029495849 3359670812730860626761820491338530234665807993753949584913096004313704120028 9829942993756083008930719999417804865295481598390625028127478578041944876557 3933011050464897304765467690321468092978459925100035656507869505895654787554 11791810302431588830328952794644572169194018095785557594473849404440788088722 126637170388312815186040949056078488393584511138933670666519686097347534151 (-13065337164921090880810120855080591028299247980100158128190280125870648974320) 3487194741893605838109128761283238032100607595301741097831887870394959326439 19346295495796755703482282383201513778698093915483644558309190313591470937750 3404894859229423532852091791075199861292514147675525861789809605084721858486 3875774228096856626537328459090318267715426640460043922359289728076029224036
  ; W 9056171576106561277953105455007812571896204471195515862035813567243661764840 8247784723354963735218716845213081193999604368350014035545641184142165745743 20467973287142343342328356507340588122604040310403726835897956357159784040223 11837210654777956556712866276362295298911890268331303075507807970287660072739 3913538359668941075248180145909572508160445680131634473767029886263800184813 1859770301489955638428617540516987851340050661255391264547557273941454986555 6064652821620394292448768656264483791843998179405983673260293748967139409081 3668742921470206373852631252157871691053052058160982219711086928402719639116 639077830732122286416460043990823411950516449214758737944667000125407168184 6824974852009821183871311082434639262000629150286057725670661530650405337589 (-6322125163001265302799809240953517943578624521913434099377452525085971006427) (-7277137642387028433823351560929653061377080412780150948781133610627055842374)
  ; W 8463795166339273483439819032020611060688923587609728636122766590097353063151 9912417024345963198889480039737188607794079176292349053426608203082741823899 15948783244268566664290948708094247739438698250873193768018242841718015476227 17251728527735161015599701944651721538918557769182096689785550007636196146733 10149309748214569898317835740260923239369794289339933392192657349585510325088 1944705158823678366563273524811442559243531534322369311100539604438715824884 (-2553944840826269847092962137022590382002835346388625384786431655027137521897) (-13846466112549587363729197542317384773566540511379625515527874318031479854528) (-1216186370128609964126944667794280998933096344662954547361943905362014933197) 7665911584464123526139805165400139857181644990725349961349250301939302950422 4199535728901843538356733233866357021198861366784151229799608690258400632947 (-47115425847307681047518852531341500961931698475263374796178796201105173863)
  ; W 20454020225842054252638326402066913215887732214400203207058175807705156034402 1005578675458857764112176182465619016217952862333798367718764999739975451889 14139087246827810505649958895674683540885691429715380187447514725736145682468 16678128528825370479767362420858033131565148903852746459056380683010618802475 16839043294481905147436183437053840963133880367553765070562738959715356478108 18485433829092777806042191565016826783252815650027406462256132053178915020276 24718869371795353733015532371496370009670363543372130997157493700432542081160 (-70855323843815361544586201002073751336935647152798258009158846252561649255062) 19067576934810744242219222030677805237275932417685702740268747497717549167167 1879376676048605466320766605965623430429586169634155243455271376430619079305 1664763993185249608419834280600330010530195050749301760646837006173948168320 619155121892829730032681682974514311295693489489354625870737180676497908829
  ; W 13964440557312153737702958736515585042371955620234754337314941921350878110388 5061147620183419614260671187701037865971626865080295205025562738647314861326 20680456989448194214129653172999366217654759805586140084627372412271384267347 20885958173295697015393125303610422424275014072360499868664216926650777265141 4895929124899147169907667068706546260668782419965754491954115261402428163617 14672226666380547949150557538855742776028771905183349210344736688135790096322 (-5164141020457404940548388460025512354486539731480861680281343517848949928727) (-13909784535996345915537861214783136424130571800341707697855194789874307283066) 7738875424456689664557446389400648716128905913816153806340301250421404485644 6457904867709858391354381353771001365316366153780131274623726445379919815920 (-3200353831649898968194716395166344393771417242526376708845640766579904546267) (-4197085411972367989763558563131743903520646105968468454230139614897772598320)
  ; W 20761843080485927687861276989570422850087068748451746205291868619572415943096 20833445407461344954584882648405973890025210521949304436938782947679746803212 21146023450432651960038893628985450680641334316852994866782649430664628513926 14442397047445921987215913426640483339413366102252440823906590724340451702723 14444869729590541952357104910914683996955352139835365332040593000832401394956 17789480432626057476052117162838630415210217742907617792070206984768927621780 (-17471626285291878113197576193745633367463351706841728839144660013984401587056) (-81246534446275455740750845700554201726972581360047938710638148935736204300110) (-136069371323662641215312949903852072150915415236918839649632163360018465956) 39522653957031511502008423276800778088885220432853376402921682869028611917653 (-6574652775654044023132130347189313229351799222372692213344443248740745981931) 5668835650831803564208864608862126337848446716070479826567713491365797040666
  ; W 9270790353719210557457797468116444252558678598577464079226477261363973381750 9578319632088698814541745195398086888807350030114901792214375250088076470315 19194292804507751939288523861642105990222625923633123955496779991670868760125 6621024466542733624734203040562312028768652707566234837455057035256242272944 16343217245016210351885485095167220569063093868197368139746849827010899273934 3101324416833543580222834184993839410418917461616747964355091405884380897994 (-36031689338138693881689124710716088448065447003038077253154232231702078955327) (-56004283269302143975034539575822876803811081710178955885042340710749282464876) (-264829535462639309128096931604033727286868018003437208019412110170237521394) 8113816515098406889638330868259229096328034321101414392730212137815568155170 (-2595983662505468547518908051348051215611992445584818169926580988092521938675) 4166830840297089712115937523415578207364441312368818848319321490840381065377
  ; W 11292292829276665014472736320053841774118646504013018934926752254213158805240 816144098942761288218898169062581424954937386928682372596724985709085628945 10457592151145533363489962965494865155621625876245314096990698030799384763769 2847793352528669576573593759744351531903922077466474859678055219693112426685 7842871255516339769680065104949819189940634738410050809327929520430232737546 12466879242785606210654343682568423422353419540177530966916935147802730825067 (-27855420046407085281426407923172566705481839237041174750511873252136228742329) (-30417988779945383369044823156218921169281531680481899163438206859520768710140) 5795338935821798697107417426217760252296606794513325411987129048328269417332 842108542938821439221740919277507468202709274081407196121754670707268763669 4366631090100733102808367096603310742870250494690583677644183911828752619635 2272399736501826885848237252505666951095010948330091112492540391329250274193
  ; W 934840654557346482613436281510676064938272931700419892455418189460942888302 20833557864986861497818641661864236930090617271295915200421460344568033112443 12260310393111594351648861550319075604549835012478634844193321060083241467889 7002625842965620349767164925849247632056525795953560882580753315063108779771 15318757785980269542887658760309903464077777942713385055727416617866907376550 1755869922694167106928254527345664559642755795650109407592140005793430366867 2263931627399578152978988474678033318299740230352378515630239925867447994114 (-10075321509465395048757352567902849799663484938198998534732717162080110330033) (-19789766076729569855973412483441228093500182755619325097216423798112940765888) 1779590713178713275869038112778695704942348722389741475732164140143925807652 3877638296710457662264392513150442474031407431243448743846714690876075218214 (-1893305980560019994339966398469050765867163034192589092351363299854125555302)
  ; W 15898630651583783953174811706201636286586518988334451945964966377949430916694 8507157057944253721713992000579507154050418950923580544970557107174430014717 2044787115652449969984125200322099743219433066205162001056745665719090591581 7377844164048404342221341977888518570784383302912901470925556923973707747195 14721009321187686229280632317602835082467474832819635836949999642624729109804 3549664901068515592360255907272358915284464856646736075638399823845470429758 7007611160515614327257685292297228422341291566867449484532784613320438111054 (-9075931219811347242112858085949926979182517518560642830129166454125178047246) 8241627089173013344483102145530479512241636048934806424513015493401115010436 12358429020657569202596791549621399562725672365630740155539571102741073161373 7565928140468096134841769347727220038184640638498355998557043703180891826282 3697857517560816511379522590516939297077934084332639826777075095360341632885
  ; W 15479224762164279164120615175997808164932454512945635507641574688956931682682 4204838372560241633852286569333755996263680873793856587253402515909087654181 11801678006473298262063953000145685608903195471899649954681707111678148775949 1137549451985670916772870909904019355500449559037741562950500676018496688468 4706342741200171197939128941102703842769508749991936529244997032955110462297 16564246693888314822299689743819241801683185935311957545011346476712903187314 26344845655449910365161685671226652986144726270335723550621018889181542760044 6541152167023928706494941409859552434746896638091275176850895532483041323930 10139038332024695842990635035089770803469454193876903552288687551249108513244 5947269375484932049948419685246217300436512939577971082459333637543626554422 (-8098801661615489362769882558751220883188664138323988067770206474544786382008) 2538749937166054111439141979838824083200877532644862770006292083115096955098
  ; W 12875536888860542458757672720218828622094551491470251188576810321937045788807 13693048646638924284501953804703517667038091512200214578681481334680340627216 20319563571217978851234397496971996545369442389930543752548099695745453446601 459399938478757800228336809115338238693208727091794580354842554337798943399 18025436421120899360278107907100956969957679288152343575345524806944753796548 19240127114577668909318766481425735367176813619780733493867188151606556008995 (-6230578732944409683334881050135371817385767460838507125309518549282927563738) (-8052154392589761452945378680845612464207563166421220449198913677813643499474) (-992319538392727561456087009743162346944552645273022939762447104502102019626) 16109593995559170077298239302917400158583492290374415664106996955269354276979 (-5434802819880782545674686812347304753564891779752316925682646242329888161511) (-4929782758672581378079532027437672097531690240756542753815645687131019439126)
  ; W 13311679029045963067228733190340923588153604080007299121398977490671574721731 1361557243588436873373352520420523582169812551565338229897656075817444662120 5071955768680506796120150158043504612582676687173968917279017348211757756933 18727631661012173892480680679739558284923692376967490760738629043009545443753 5036382024582897223400986424824752375194881244848720286079040031898351931985 8709225907829278718071696138882286717452616163260087373815446607065412007046 (-37029754827630606575636582700424234240573395124394493024458000848696847517128) 23086059750989331845137083590027061420986295953505139285634533627868394683752 8011011275389758020808632442921676981336036156959300718026913007437117241022 1656104888130639135055183084273114797955567256243253898634063480996700875583 10409447007309146727967521104156663935846038159790614017201022108650822801985 (-10161635521406738564778087270676946760461545325438382678721159036571566865785)
  ; W 13728591681199649678751807282222759211064035471728865015437335748721007592983 19283461236565299800942617051350050333847740638666378497610322964465493007830 7564306048848443482168767325397618787221134613416148480674609567422825745558 11395251137485622185097852439875929992000639740661330291833098385689655370888 1920364762044051046578946989720541761125824800774375331220619762622365794937 14275312662629068441876846435889710032269295933035245551878916959274762888032 13317777544835257746219201942274706073996274825072732513580642800447262804352 (-16214589392439619203419760051722053999173901279600465933540565904063353431475) (-8377906293654124746734301411070583036561309890716780171516321051079649036441) 24189677268031935693244692618384897202485933707609535645199919263293072727333 (-8023034829627839457123646519029938734010528028052772443852545067005746647009) 2403213384971715062254876959311001123017330931544682698137097413520085254349
  ; W 14391142177203933189806614574485386895206181175266890461099777002116514596570 4454171115859466431610667259780826985821332120101771196280362477942404437328 6364490149041559799068143924747103315799454339897893767316149985058033992733 5894049099781003568503458987522231640636174732371225553676190718148461841473 19222688907289540519826925708689134393666107199861459707421490693785059470232 317007147570925682826720437714223871064471100292423725610438984217926731865 6670347286161309890984712864353924143739287453673896398923900023236723921816 (-4075230175074856592232986246033924986687778517479873896387891933587323760384) 8555521515894310766845489249798287126545014283277233447249288648367455382349 5857081373342992513124861034686536053007521237851322439493809966295917587737 (-330614661973198767906939651917866977509157911346551378979061077825522975633) 3861103263987050424469864645335772327866664965471662256047702046366947428491
  ; W 17133131499533254092743053743395578452617495451518528835562550405243294026687 12622466308071047176134795533630784907071368257631632232046186408656778861432 7794096974209262792547700887781477720490211857603403534075242581168563389231 13170582039621004932761774483060100611213951758985123264204577824866098437030 5652720942855418781115313166059738453176326470458584994291072776729390965550 19796650747970476029805549584225714332972262427106768630370982333688602544664 (-1582868514104691546180613435312822140686926721981371020785989279659037551993) (-8283857312222175861473425645547806388949622619647707221656324909078330356934) 6131946729017245332999924072948737106212919456674667595842728484512282474860 19760597172726518612898242528649334527739352081298393472145476942939947287055 3077183972182929968033883151198909879525112765076758856692212212748261649852 (-6520165211024972926965372738381730782493978230332144049963686368334221357028)
  ; W 15621561109310202140372081523624648168328913142647700233482343564777221911912 20684039182163066201091758815581303220053829292861713120380632013705442145234 5112291691634968474097467304181921990448577574609647470744323074917796369125 7369335136020770157093588134983431614093840894216339620798359141611754367571 7740724399124127157896136946438663180375464092772926859238503863797679638163 17550134674991455942260380911092946181748109075792603234414001764281303819488 (-13897501920640084505243329158983415677878015903327911926325662014923153780945) 10801900427401361800175344709175245206872598153538619730736732552384121872132 (-8397033351352771966969865786087358299607047489682732389106545898569843389953) 29524250435583305783031213363394464461176564367524668822623940759489588856695 (-3568090577747754422699592756728694917577527349115208327736122734673245153409) 6674592355992523022955688350171994919176599195360788765852035693778153546220
  ; W 1644117253967795841767954821166301742590708325504884096598579705508382093536 18623425710065792117479338738091966046319816185858122603379875763854510258695 18363832536626282092785609778739221512953926041031992381708785515652748640221 4321611966617071451276520958816392611163344470091376127257453468678215844404 16809139447628092419000185223793456444429749926741006803477263232261415498836 10354309197597256262206035932406832481350981126290068417273532348691605305874 (-24840697479500657232951358269468999262732358394102157790047834068661445410992) 5481546691782926141217485947059992558552910227054986300536457738691511099632 (-15722087225022997113599807202341656568543865054450551499746845851131132055400) 2797766428048930664370288381262565283871208846672033075277041834307589479018 (-3588507923411258903939045012613391395837863536534664671488283565409944901440) (-11046033874812696133086721447088973999999849102453488320443453117142688272790)
  ; W 10321688267643744448685993157261634441460665096113405018563590809919983492816 13467544090136155667155018278978163467639274486598426346186142198130312805563 13412294436399780733757067999482280936871864369221876021784063553105006940471 14795251494375354790753202763320011333426653544869004521496427783547698766672 20973678392327763432116675071968610341010836994397254472890046507524863284941 20106822081087054237237438429859548700492435990973682774037047899935286808738 (-40549572113126979556121427107471167108578111111605827639060727025591264169809) 8695782810899372352331823547250529301713155952632790813265461341671997564000 (-3419072767217433330770310575512900643955914077739760413119927816314750992422) 12701594426108662889862767190626367481357621726086363862530781938043381347992 8779253591315295735233049626465916436993893880449386808774269155500520629429 (-1892366819800480030262417192214125888064361241258625628795972984512313516350)
  ; W 17630286591300206207782528986840707158284569322550252165928757736741648324915 9269210562400520821887331182870724715934753036315128360990984173261731135859 17810624575037795144646403974267193457017821958067980332495149022743795011363 9904050177777968891209512238091372829116588628427805995412156639620824704626 9708252478848683774271791498671669473260782996250904873794375927949884072154 7855855114509880854139555872383149361731959860611632635368691848051086744070 22104317083498663982961174481790774853426380963856132527842598498898322945625 (-4241211244302488121724166840010083883646199873657309687815853770496040467818) 10275321877510002236243816023417977865227009218133422546723494448722345508633 14932111238630094244846327182961193996235586473190273167795946283916042952000 (-5614036562618213829661983884432404409987569041763844602431689301635050320883) 2077107471603471146447869814369948620478886859292539541414412466892125582338
  ; W 14246586488505153215977701789764555720988472628291985354346303789922327807747 6870084285417434277896363053844425292473674413350221546337422651959965615536 15767342941680599164394620418043121466482977931457231211083779643299506603751 1344470660400234716715609217707427080910005807009053410727976089805749245230 1077146285153860718727522394106388942583657947824716054967313784491462192513 6940266911758992996681148142708041729784479419360705328354772005777726164055 (-22327341335966249246041712201431202746327067948345008930031952182321097712821) (-32033300105000746081009246118726910388644344530826902216178766098940338234720) 7116476612479622693125490359543648692129992936012574630748900914217301652292 8943180183864170996727398679348214388197895859364763297656645097736614014594 (-1356675563040526947983464101718094520212168928889887362996181354294541717473) 6212573011720323445265174487016181029254225660388713521115448863683722741593
  ; W 4401460519140813744489760258748551696732750356143863037561971938525893651050 13578574739613108276256223569501996828665741920345558596025261432417618892295 2737973152129758301071878816099634111404129720755648284002357896919437907185 8931669997519460675591494950697458188402419950882485599366606044483208651340 14937117789430771179103647201588460929712891741005920390713970972248628073501 2779555939989937059091483285933870400955562328338171382640414364201112153854 (-2336566822725572444514681450705618925256094045030157853248886781682487188780) (-10051774388554564347799238499279757908820281219412524082188693822200640313029) (-7538514545175935658628341801335143295597885875495429216019231743138166259114) 5460973818003668236009266871538400816707969805853629311258999214097688263710 7326838016209130672651731134525943974956007363830791385903120040235333991792 6557196665107686316489054797775952584566562897453782472470303491631363173567
  ; W 1646702033925465448120807494401709335544786497108230196361305424954626462229 3443739077119436834944088692195629939710590622333232153284410490280184306271 18940939230410466165477700264868363218298213610108171572402839186111338419848 5834819953954041925717812883802580506697030552500639906987000349612581707579 4063767068360537477240934726573900237555059022323730407815641097009618031050 13316770133566689624934785705882669024759265374854437967426290363510056546874 11279321552145505539162380312457083378062784501341875363174227666036454384605 (-1585086698960413600750792715938782323900574937852645748262428567064600971322) (-417928076561793057485994044886583698630294651158946749823814042627988350846) 518160564628700321461811704056711882572746699231515487447115825038058507173 (-1706221962466611427480445435658078790282899355767632198449398371314204635423) (-2316275384934740372438017398075466280901179822128285387371780672549173281604)
  ; W 14411252897050051408880214428887421705135307582319372710752173897322883457549 12465053688583681238662871382964366896692552949771716718557222113748506935700 15208079707351650201747147276376235432292990202818302756573860909522016011032 14176941333856072645127746712425805973765100519164711392474538490296754757938 4897237104003430587556170101744374885432132335440989582545738689846777914606 6171224033892676099436164479152469047325540894004246417016430242912762486061 (-54321524644083586078990733912632878026958026884479382723869128460866381563383) (-8130802840044267939375433291411336148718951654059193995837442685940267092100) 2389714282216593481464703045191878448731531018776887334282766139803720308231 16414021183271990470797995076203553925584025494355636306214184664605817539488 7208444022526716375619534799912225797745847600214321036443914754481857369116 (-3366653365839370163747007613847928893741629274932826224106879827328036681022)
  ; W 17266008700856054760631447696949913746935101015364984386317989319007917836827 9351568481838740244820414091441452760832552065593824576416567754654563885578 19562760721018888196069793319253571148578803167508718992474239956456344709314 6674913013568258029550423129631886445091422808052127664395041701988866874989 7314488751881083141123681840776932199678853141387412384863353457262297381841 2716918174909364509314722122082917910285604500322456849977702542497420133403 (-1699992094671155636279873069957613729520307710002515465150258244396625515804) (-45180685203136327446320635592004735404310352505920510275384170993447947854502) 9624492227219844293232713560080596504272416337194513639574426690186504229349 14753515274797482931929292137334641242878851181677964470302425171020828793309 (-6640263118072897972319983964677948525688962888560938831149786522025597564201) 4057291809866661313670682242085288908249176348464551491527173249158899571661
  ; W 20058005497439163443210790748388863268981158347726091360808453710288149464866 9473855958579336208965250903783756974337201215374762403838515448069802486585 16099891338186718628504857249638439033051408795047139333698291523158884990206 17424685330899990955059088337562808948542006649563644588473146086937446099832 13627183045912130422889042694205587177820478715816264877549776787803801750388 15848980200952086428554206988250833327830273585228987325563457592789782059625 (-15037881276626779079319213645310048979146749486380181366116341696441274665985) (-14584095261244821579896887812470269461509244966104394674810842295511530636836) 14280252628845450778901583133454845773102416781299001035584455569135610443870 17363354017202853504688109391677090526463968696790160651561945576852627028553 7826121477301182098820274350873823205574086141807132815678024580248437978138 (-8352075932789161796584511341676312260605411320849391116351523585964058702842)
  ; W 17413561886207700759851671216704144351339894665346943680758705898225558880939 8876372252738550357761957306840471153234378937601117221542506095630317283912 14767359265670051009745128938353426289646642757900942479983183592898537787940 12724411506882315264604026159718815083230810881951468572703216747612359086736 10676260813039141664401761566695770443070450696224969049253477269153842982233 15652328402249440114799135255495846103478480356388438360560610626585910945455 14915412337090273455792094696507984732783696562290754692020485182068854326916 (-40629983581419352878425863908608070232661377292878773539208026687142022079830) 10254005061519070777711230922559609070628770026602424455508984442871955217375 14123496203246497564596343200682855004386075633413166174818163037331828182992 (-845990724339135018164991456908973633307242330158087184727760259530721030553) 4279766099979929261047413310937444238985837892526099790713928262472746974032
  ; W 21813102645169908921888789938463276526469638086152927437221546919428491143590 19151437307672009438759190028002751730942128808428201097422058975451594411241 8403541316990254926981711377473691393795113996576032066295352283887300936811 5839045751310454357694973528520272166093123469138482438166847275697892108843 2794091047148471993613081031352843172227996148013076630256448922136757522376 12595834901050844601446058073066596225414086593931141288320039714885110200383 (-3583254931349095406275254827227032313211435947244151485802037192780003232988) (-25601646178566271018839871867936842066900460866341454869550454199200115404112) 4981391000522328495649613474731986716528699321140671302827306504264363726949 38171384541081907965324457588629491248392103851836160178836825254707584275847 317520394953328904363625127849775272014079703978766563232200683852681362136 12429844279891434105449021590462530167092527354568700572901943640516174586887
  ; W 12942126048969288826565732115026356009766385972570509596464984356561343861891 4325636445962424635855703287002901602796225335232842389548860748143439240541 2803136191296426677196407224093412276000136927523189106612497040052705627712 81914066566563582448755915669108139946454826274765050671445409283344664970 4844550143445836131534636370888429099111849794558962417043326140070946683065 7931592708891070073309149341824553521461681581177073452650376584667579111798 (-6680399289207433817372300015814197874742070541635615014157153653431634412730) 2549050514729029882030043663864629468248034569248750067374385163415068181100 6797598915360916917815511553220367532586680254762325456795285523792290560902 5115342739337666149253668511684353359625050528750780900130261027866782121282 2173673359751604649082805979885184440249884837992746098040465691984221012325 4510861883543676029462630210043823630704331298431540883646892774334545872587
  ; W 2785855584481046031279422694445182381136009688721300009089358211282597856802 15065885065223457403736399156699337489846311493699204205063119467760562945948 20925658080431931774589135696235706296739838205630303971253025713419188608889 13291799289551321958978435118419261030169726669610124848936734957131872278064 11164819838118998053972106791914774850854144663939062056195714035837450704699 2070947082030171939986533125762933400745378819105521635918587147123301133378 (-10761625923422966471012331103243360166402912317858283628185223642272168415360) 8625165500470444332945006146408558706017763032514094361827501787720396219824 (-10015417991499921646978783027408182953611086177171028422885055061442513785811) 3835061616398766716618364141129387060348921592432148058859416830541260421236 6785920850487748333494879101506824229926428125156102769779894956897157770318 (-14155209543619351051616749881410430686300518937589380806439319332596654945920)
  ; W 6709638102014364625636534249956323258102916625797091345269436563318525210304 14881208986290955167331339271947460083717757803245267882457276928996088337432 21237662200583058906269223195042616759676451942480142176105445242249825800179 8112272418768096635212457905262067716993340803375901290396831803154751827871 20609489908928593690102708471810244389076588406777265635457209638728528736364 6554831638483817556857235223270348280015303703267675486779504344743836216944 (-31772596310577746335907051028374333167699084581051047279383148506937313111925) (-59792613111795984426742923273204700202189312531589692553856293798456512887152) (-8060543665688875553499032000825955482076805068469768931514740246544589640755) 9123393540823419747040437471971514272401295746696063757798693213709438940279 (-3617058573881472463050686249213025080355646107187810181847628072681299786953) 1375613040405352293026493061434023269100026755844346396749790964816735954290
  ; W 13954959402202968198738360084951504776062092482728084949911479895372821227463 12948900173934932618722649174145219490148481248473498484768437759906201721971 2780856043607956980353726101285293225901966187539397648902773343889406912025 7970171442947385615637452017325871410363009432882263707523909684826789564527 2675285211629111129231731195847559182676233228786792694891911332392374326034 1459768899747045522480879849182337463927352315947855439862189366924453752163 (-34275685415729227836234408324760405375823196994955851289000207480278822008848) (-14483982838192819215674385678050174260664747880280239852237053163469569744234) 1236594292245554660295496486993890548997504761191764503122964950022787648815 16511272950367856605855275921467689835546593135593071415951974890593616362619 11683163914148749059479211395666817988464449682770241544734631058025384630360 11009488299993456781623865391492525830896658358108455588980922168666167678653
  ; W 8544720979742960720110912188236867826424187932632985440475749590426604286314 1565712243313078430130983943445116477635127448315180858185264844007057480081 13756554510169695135477334133159044490531025309019186141345690196833148316552 19415458010783120814555599158385465316631947457482255948181221560176081836644 7813852433477545863502762374989765583093326030525385645908678071612272689779 3152909537910553969245607888156663802634992805018912148474063190833458405277 (-515465952840409317360261346265788719417311343078929819549050831199345584246) (-3310311929528600083960111772888527175560024839436771728248898087996195969337) 3223685071750566972620413082248230781738960660094082706998150421639811649879 1222443878388258312919368636702316132362104557313808813199529893382094479159 (-3465981992765630304077072587922358855208940909651065801451003657116350620058) (-5253119969319066319446533243333214110882865485482999257816705644352347743655)
  ; W 5673163489778034256258502116968345615744588528143069008904115473953485825093 12315797579015666492303364670709746355898356947469764378836543216088403246876 7351640457560917674273161482948319500718332344418392468600289288715609330105 2141397766893367789468221029264993275366665440904770688157043927513633407552 21156862593705692719276572282351385615018204575035475609022892373466084523802 21259918851116052918390421340880206940715710926121551990185796954284830556435 26230930918755775037635006958622511821439609618584169782935175622834884496442 (-62787006454479259916773155181296485209432545690446691721031904167346862639706) (-5459281803715500621678213107355357110979745988879874159258986541907796352192) 6384206679528426443586656501330524350726228086631037811763513322472416569712 (-8059473106450331549931843637819679446422711348424401986573897161737148373694) 8081059494563297622404352706663933040123135027034475437044153694992101513752
  ; W 17097647026678042963596149850832105719427180005479078060378441304569715269252 19551357135789294030005971879772743449542236237115087449699361289574262897448 17685942437977835412268302505242111685016161135060728834115972564892955413142 10484422118693001005366907152644477358763550641582819362754183078966175698828 12411143942283309902321477914865978582556298541985887236384675040238104960125 12308925772914930183467347821874461437417480832184385753322407394794542713614 (-3829842422296933856618462943851420123590957542926609209485202975233584805111) (-8239465010404266648498526729386277562738796142700606671217634349635815537831) (-4108417131920736683878418526228948869853029101820677217003847660213765942656) 30544453034220058756867536927157080934650713349149152588962273956995153878764 (-620186778497036207760729800175781538119765964072108071079972677244678434941) (-15747984718944703724112202432757329398825449638360347602565760469003963498719)
  ; W 15530658861133135844096044128293670886023644737067354029743870226010249512248 18174824972656918369692636781725739163782873983680897262976935047858497412135 13566642706074168203513719714131478923010038403491207532542216378936548086826 7161294409114164444875988621308077289421461846928420534467091980287409423386 7512237055625011249883470848113109428189730635613055324258112160203126936026 4764141073901005613085635091685772543511659951018532525885689636440183648157 (-30634118049399251372012345614667398645766859496583777630561598409372415763440) (-12750640888760433576319297299957633456458893593400007968713335771782715721014) (-4071724653625946321686005033611240601620922160392966551862713116507358344257) 25791655197164668200962748985018121284364978351627322332017253090848278045746 163474721133279302712393986936618222377889722258283545404531165620731106109 5778349371727405578729274985365985600901388607504050105260745393308984436735
  ; W 2830225706212520170922629284072051013646499583653263169126611661003789446645 5524917813131468331024920296995422485455220376178010153161443774510763084940 18087761309824661972029289685041138249562036208215741496209606937397184167573 16711302290169930496001356950136157421920956605409223343831146903238829430081 8574935105902558554301904534870801137602523901660521236384169499594539853895 6016435370736032669404141263260294668280291532399043284651178988390319970697 (-18659756994071862076578855947212331532395264973768144556424580349906545784620) (-21607589262283946923579899115483630048204859856202811569580521558107079120682) (-1028613371369236126902213496462062079118117873063598348125825287346175033600) 1428782064507691638324030906150341817775767401291638237614530857166288929509 1825967611856188680084433361639105686158616603193324015721662334552419812308 (-2376046666384013884557569953448848531858407626369230207071546311057366695323)
  ; W 12859529591144755051346203321077416218519534980871718271367442508233126370572 16634993611135922890043179102044570815947581762648748774794412363133511440102 2449568061139159132614398712337609435449710966317878183132482591773184456979 17344674543431942643082747970164621079794203183480387400114264051993450989216 7551318782691875634054043932117998338775028823046209268278458563415091458723 12238663079919379526482452632208307868139435361491439566039552101176610449732 2073821333912772311362121356353690987079436424375918991405474361787364849390 (-23564672740327108796731554611938247292667665061712889076610963655056525891177) (-5087457763924571534737972324593359581569605667866374404695484242059265459931) 19546401585860212160689806521163773597639683973803613264044928962171653695577 9668932927104890996090224661558145303167078185046848413536364351875273853240 11512864555828279717647043542058978606341839079392474513018724323710696139933
  ; W 16590712481318617466081667803656321949298804316051906016128343934194665430082 18794648706598525179888516426346323310021844086425219892053918624668023424805 20868437315153254109406535038266262466326946146207527086447684202045699178795 60358724519046988744686046871324019222267854158854392798933021669342618542 1046674320175784648672504081866235510931232598641606498220419327910102157367 533179839126893876675932519962045350839378280539384487218480735366297733750 30839973270242942496697716325854073196607598010413193542152566097210602982159 19874746730758868442746888486384718184043536971354350614787122228885696083618 (-3562966649415242999463563937200398483259927866004915780894236449573563191338) 28491698918393893367358034410325282468416928494229294079813384631515730408362 (-28802440271978919542662585905626607690451496939699313533088646859746860152284) (-2714565228555485287221735795207632306845750847885718036931714769685633121218)
  ; W 21504852456092752670845789411999592431823480438985531630175136886208859680970 2477175411081244523034535902517109104983700248131571101567460931931384474516 16526980861931275349491099936374153562920402452681707169111410928777452828546 17069127632387039509178982925138743157133438621770306153379842085406265637983 5603617518117154973010623018647598974714802926093744407670385530391049053716 4542383683775917130522366946892305059320434175927872888638825333953566395165 (-57751940716690328786409344047099899012658440827235753688524326386252032410341) 939314585038494458699207185461126085906026373102118361482825034507743863788 20847826105225781157249949294062346010738862697614785544166561280237058045476 4867571329053575497284717939084396122137870459804976651956178865195248035331 6190359151978763261391919500923463965755833023301071380112567826533442932741 (-16219507373341084931244713470127700416424745820331252834912722440904707273647)
  ; W 12993883504015164709977715514911574979698558133375517700898717737372426775188 20341321283080099208977630859484992902641873777469167171854566085592268523052 931183791803229502366066815763701726923744146058595214954629519960363214430 6864151405164599845728302032225199296857890881730657422089379828828280917755 20393214088658076327870574820034657445061650321438438915623761151413186543565 14842329746732694798140113593346068805440573738114079089601883168121043953783 706836081285699743912011475922608552120449779973841694196356426151391706025 (-61521178504115440406986206067861207200885667591069044548032742855108518525588) (-11189949986377714241065376184980516599901924930614695808382183262715636147854) 24151117165292748779170771825017899747840549538180477599504757506250792596257 (-225359791167508911355123464194418897929125549611988622330135028363356254263) 20551736096903339255719715306062288374879329161760082300724324009030082799156
  ; W 17701181012131297494710342369140067406065203775105944974100274100608030596417 3869447261807712153150877456977416981519928930587891330006645566178398338606 3605756355000795861398311653560665528365947597061482710249883568848926957052 7985934910692694110074731102631546562884524235983553898538887353578582910176 19698051831357534573088898941748498182240224086313829643528828722189681284878 15403120055715342609415133509546135967278063978989576077830384247764263016041 34075514501284667455818069490683182607028564777002658495780059830971626540483 29464390923715868140048747088811993148006695931719286132007653174055524183794 13631025060316099172482968501687950480228600410992202221792308539823042659027 6258500218514668162738293141068223690756269548752309011405352524263658998346 (-1964635133538238682466905081106381304381884864706336799214511217443761606677) (-1380010745760179164668118078716491602244821641748230100349626844500719887311)
  ; W 11340035477995547331746518989049036222704850173191751682829139928713524978876 16539137129332506121887438344417485902123513635159257926224003375427677037381 6259712118811118334113691885678554304219023315739544983243445564155344006930 16062459935927855377829513115537203664906023788456739466838949108749617149645 19320520187738174773700724321808630218026618620005071994181046712354349547873 10587013450383892004714989257238806148817545908517307656190575056708332934420 4091950945120908652590406743370075051982672990370712221046506629702096224010 37835353352309070705003637188972053326249354565847007973921649135559903503132 (-6622123721367839592230257994140320055088658802897675010477305016827468734293) 17137456206077249297621175945715496430727403580973881299811809666528372506205 4727780252079891806398791361823986996411061543798883509812713575092900660070 (-6189725663736767482132478313570674536394430214420698058721414144219533395281)
  ; W 1021142341876429510921237961599157993178602036200931645654017373612591290568 3577448260123184721207675514306602627857648575814883358842511540697643075504 1552127647083442950322491030241925495780795180368658280253355740908440543759 7451362445009371954919971939734275392894487233079291581426851007045119404472 1815706388630025468049132265280868559403645593731449716147020120831902023316 3404000348995978461051929155014114971491128733312033331879037316552872090749 28333242213434003642802536088180568807684898959872916112120381498357160120521 (-20258375020434478379810460562896770669757783845402664359181439646737614963012) (-537064781321924026206641703378294533293164125629362433894790772895295465717) 333794166637641786505061143280850649130635798216645032469250565168993949154 (-1187790269727195513452997552905316159341050762618281118160331230481308916491) 1171144540284141282775640585226480903681186139164981314368052585441011810913
  ; W 6686100802931614985914597025891399116456962920158852737193870305644378047860 9863559205501822337012488901488335209289357168584789225365367796366339566517 16558607269199324085922230645092562978195886225548875633322861118605288043594 11323490817900385221976066049738455152740034822507876195254505677634620854069 18645251412329589811225371944051878523260391559592683177021168787962458764900 15107027376757384538178032101760431448888697977756583094709526563106675218684 5321120602242839206055863405839553953870272368882493923263810601000123017261 545719452001385892903508852975685395155541800041445605823054103642803823392 (-2402470429507718165285570747688170749225891188549138297185871686563166071847) 6025952061096402166525526536512998296722237880986472996070459751303785144069 (-2839052378811171585063071099752600582853381204391942250936370752085824793749) (-7945212498792237077573458911411192104359537498948520594216085471950838377356)
  ; W 16408964530104478102076537735465527357147353554834024549062917959442052868918 2985484442049271181074600822141987198015425240886660663351352699591853368390 15668078427377768874201794281903499780764137479354025256990544866188829241441 14230289102284220290803009340721665170007703966008465136687925176654039279780 13133199774480197354718989217663150319546079836322280283275384447548183034706 11298892617985842227968329141127695104706605646579480410881307652277067310620 3828395777353214272313338252240181609588783335566399660863080855239658407785 (-23660915061666206225019897647100332079320993557248886334958999693406520780724) 11894102286824273535767157375528567043986987203880495689446864678278387788765 4476257742716532100834195393998373132613967947629241181619879003942247102134 1064080719912590957927538799869486896860990388667557800708763158275189146086 (-2057674990444943800078035328080391680961537568351696792389027495321572994004)
  ; W 19864358260512138061741059801324000673855270552713359688425710931608557789161 4860211645560334742569318264311410555790569212082687026554997241031774883617 18939342344086071311071398947957547010093678891480762054723324122178582218726 15603665538085472359881968841509944463115333547198263176302891633457690181540 14353128649536983522519530037247002061704604827441704270879561890552416282869 8222832533788968514117710942722356907150108835111058203558837796775864624230 (-11059549537074374039187385759164977418409958378762445749298250384797543920819) (-16393537855721776751548732335540073518707613519309526184391009781359736573044) 16948417195224758339115704222898794851932641457527242984363883994439543242808 8821629576628598949173291147720522476826497313652259775828698563126964510438 (-2663834580078421004907761842439135840067969628890803263320222322363054106380) (-1972761211752758351174936094319736770234203310288208771959627847855994119585)
  ; W 19644964505954689879469551712645712778426931288785151810501711714562470646257 13694938219175223491874193631643649146300701115258344971302425947048126852841 2326822599276840021332826761663079838355539165746701142840577090247646225691 15262676647520117083987298429520853777339364716878061249922003029552521671154 11612434768566120843946073462356089462254648600153515149916421617701567643599 13914151432504021175128119174059693631936856881840488232178359545903284401646 (-318065364202467181920025730717341364458578648743378800993457082146556155634) (-48287752476758989137474932004402687711375594292049857600749745170879460213414) 9063006965644290966942276326346708348758942504117977155870361348535825879375 24582747624120489804417752494127159659778691278099700085475196117019094215880 14696590349214271804451759203870038112469821042607331528308033580287456924547 10700088974405273312211283002681858769721875488719127589297522683177591214967
  ; W 10012466377853777047393560834571874816827186070086515193454477589120484070029 2078791719810519195409549643980161498579262708796712694554446334721635128179 10406124751222529883327812321505562233637119788651811622843946458157225583495 19797343491428492358275958699755153511520869345070740110422342482688412268636 6394504929499522287598850773416244567792276480941885192977599358900005028591 16936177476113034755989958333362497569341414680363977832045679187119278887800 39166897495282209619357392947955409507355619062373201301106291007396902836213 5200434235363630497075752005625262371322169153754704539047287977778651466222 4382631740472765138755000218656248604374629663920275383406768416339524850981 1901827599687508467516599771745116341173410744698876147449569021086169489186 (-3265091386463424018438820361655258273219343461380277438362084600170873437316) (-2841634483357063123542653431066612562500505229038259564840365879941130288980)
  ; W 15882125323727182892684856530358022748865071846273688022869837448147937511096 1009651355780163681189207638118981898380383139444143032961804878080354807841 1470169614574486635475450259566733941122509757455680637658972966232061953660 14001855730589837070861414905125884207220486893834933514093885236073866966048 12577761013522214442452467368431940167509131134883704283475608991436563344216 15757463314556768519001000135181814388523229328694758183135369749754225446730 (-6637488609156730727486354554765083926662237191792135307056653338593662832320) (-14844976377216492847023566790514529790749419393729088968786984687715349696734) 11477509200227421135696345763106837532338644294759428531703019271182440426413 1465207550890462249672473288372695998812700393569622729103890718994650358636 6216603958985390578723296083188364490427610837428048183733016783398626809715 4617404089512521575774290703967156403554610170307803647069551856872257063791
  ; W 5752207771423587299535093039782088693869183061538466714545163290713960485529 4672095571568228317410409983348201279725668497863148734149057010699133019369 9538041441077140637552041925393389904897317730470058116695799125043605579996 1533546217952854946310085044252307209260996254563653791895327842466269742216 12260422687928560181487111041265985687163136693822405015196391816096701437881 13566254209396085923552652084597331224124683098166511240249084040348430547703 26458530232913062662117816572854845552436043575095749707115388624243286569300 8008810616031371284423616958432014247951628500340223740177879441307878599996 514404800864324962481906606802233364280892826044752854751088220955065637908 2455643846147636198081007648170618746242101629595418641772822866852221178230 (-4781617660723467954989326341712956707224944873379615344409897707680172974703) 1554553229409717079890822349661550530226697354150620329196300965756393545617
  ; W 11956821324275409360672259206036000998552243741793180914588181287008599673461 7310136188926148805468586275873193541323588106433775667788817023701249165430 12164685315323435102536140694659206993176504929550744979342998828284292794160 12484136825099113722281913883705083995306126953319058606427335232242710755758 8132930682086930808150936985100658127771624900431933184435485522273253003466 14152231186546749209267233853928845508675222051865315005989281484470714657538 (-7813252868122941648238607817684407377161256104702903112322228467079642963366) 19001393239804378233063138290945329926921967557149577041558807500422756869470 4090208867116632786361745834782890984419098878596642734351578970131982468843 7986570030211365107078736491867268188449856841402616887936734169855310568690 2222380183067732695295857980102178690761002471799186221308725548925849436923 (-6859179176901626368528374564272244023850836798442561627508148546428251941881)
  ; W 4401179017257627290022204614897983378294190188936840621639171177132369131227 14885252605187439826800999106228954681731263952525587530288361274967293581572 3829877535747970036029657957396327171219278810896448780130823858327712492972 15216256639442070839766871140900748684045781905363558082980767789235396312465 3591836354864544205118136207196359668530850457690671999409445670449489592953 9565374202843718413827597132647687797363503448658323199124645373391682261995 (-14898765337742386600430707061340183710874017028161496007882658998355014012952) (-24876328242284899176126583161752004202794215368614044280176876398804928408028) (-9237852922330064425285982973285890230122259474328130191585745645168648415909) 5986105126493906213603326926495086792958558917449352886233886964183646125629 3533918878248267965736816486559016152782656260114056483146774702544802511267 5118783242271623870435165022881962201588267238315824422414220124489347672958
  ; W 9471740633169098864474361512967095308523593253308693368171027221315832481619 13817208867445727420802229762126059653682568012868171317374213256124089106996 5443283215056938953742112691493907372978623314029422920103453907114664056933 13746574522833374939287326235670418748720636707427454746348589703828569222677 9303644556243993070611070862662117945487090033368734294147565146877095003457 19152661462729040406457761197174262030273379930748522263948303078350265671926 7948129528307108120173766936753824417458828821541505568198361466409327295927 (-9002214353085850843908298770475834101608222060339423878374698505792187607496) (-4623550225440745861130898976730542979873315697272734676273749904631324851967) 11958293722621946125304783860667800220871070465439123498737711643031767602782 (-1625926078799860573835343054664529970486590067526303944462014701674074390899) (-382502857183761877189184986972441510125723652848696490440633887905999681335)
  ; W 19378148254156103785098001682516688945223895668655328595090784277452486306382 6866043054996748719516390176249112897196224347473760167552421588536879017631 2784373043789142702119268173611876859004944022595710660473905226332961249655 13021939020296780997258681720950892763894259564766533202356817050897412439229 21602192297014580264195652729801115205745920197533238348578365680537011905258 3880862942534996325968261443007032067247479714445211947443023607625140299967 26296571671634333825420447871191393373751496530499887298089554887708525143832 19237984841154704059190784320743204704660960910580829119520695091036965868944 15002121661828542031439228354598892087312334650484031155200407957448756937774 12157321263126641978842864247214453250442657419389755240048322362909007662747 2126684047060006687632553183692135429322666677626272109187880529890197324871 1475599759322227534940548034905530016831962792425675750627462254247831540267
  ; W 13034958614883482080066791597006455824422857295485631694496115744328215147296 18722372308089025472587469229294028616696099857832718787130015842876734753122 19710660780649580251674362441383197807078934829048258782474953798727699562918 10839280931193809905485664120807901449934899733650670809032012453870697272564 2685983436885645708777652499006964890438932245305370801950259336131686021607 15532563152806665663270752815546358792181900907097227785030139594336183186330 9480313441880355588088834487592931722728265825690022743480969717670403034223 (-10136515127533782331342787620349555017199201768310290824303997862619158057799) (-8251785207635370740982563093137678111869678204451930400591339995943913136974) 22299217862057082104071774936856841606690008572767191223087328778245996454457 (-11946961619996855501730762893202047385942673506912103721146905828743172865221) (-13178280441713973956872731229189933616694739246658659996135499896331999999121)
  ; W 6763525111563056351595488055839409116539731484583590082307893300632242671498 21786011578492009730004968179135009672570856168726578249609774047435117867864 6974701014165250945021929862969261945632638859988379008518503929294472125323 11682065412904602787895276939596113365212678134826848219823270309068766647057 20822731796326311583708485197143920232067580752997232158148527169814683980335 1121258057445857469343901326028553752300978947044491954507876202997971007561 (-66406069640048726877164505580192267081947123946867759443244205243881363391344) (-43619437542917270661048383481315124413178269316058594476499948829474654581192) (-19594310565478686396069976479598119925674943895322674024932676680997966143797) 13463870741448175971542544969222161304913178551991540107652532599173759064673 4774293523197597901188055569388692531612000807029999449579396186996050305040 12416052513735327076731319763869753577316324328378448711677883361378443810725
  ; W 15595631953300688352099988502413147262000406347782457522595448579994427603685 16730064050440751852989345397441587800720093603458306988567510384503718056250 17806370533062432751431059077115664163088208757874154871841604003804157610059 16903794726157476719997947101955990870569258084977587022904402864741444707564 20735404260329376083154124492831781420504442828091751045476759068626679367044 19735701743930249693076228147489080649721188700682074437976394870498755489977 39996014473540914850133578531041760338972686317581344407999545321128490370870 11094140805035090258746470870067939351771162803189053558050785881183779044188 (-1675388349981108909765500051089487532999843657500040251279309780912393763060) 23840737058113252765285968796931494296079852934944451553220883110552790843034 (-3726515000281852887407556699356968589796848310653270594517980347078795994883) (-11999624405279608623017024142759948786977068369589546277724460433524041740751)
  ; W 9736576316885582297618441751450734015413881027899971034675630872906779728908 17270546146846718949503922449723131790757344341936161505190916686861269319980 2682532899807525175342755850749594413968452812075446415850656393018635214339 20933184354283522436131534623002326799852537658448931875642993506125619768971 9331050559674233190364087261476877418459395430457177543593644971526964458229 9482819293232199578560466841315570436866791161180739845697578544070235445222 5416820434022298951917236384532648081754767925312709360760606935405292996759 (-21569151720383621796452748202982753639365951382074738356446637704742977947189) (-9295896752754147735044309522845597561663288850727639353644951136930648226745) 15364960227978054816314944683839035407044149645438735131780460256991218524815 9906878323044099462007251980203971883107174508914603017631089799539726425709 10140808352570045634885114158482898746277965119417876269509852184400181920715
  ; W 5497333574801975802257561324630292787585506480398767178508011026244771692268 13028579810057378951135243961078196722406446628827260564141802673584229484696 14176541041214162558781541345688910770403934598737507958160033072722839449954 2129343245325992092435763527779189555301738242549774668049252989136236633374 9172383787758576661445785430123538762434414188580923938927661954417446999969 13318536434010841028484006667496588617339712703877962512446875484450689044785 52471234861914323449426700529292432315937502773886280009576961214324371737560 478676215284186827146897193561597525996860281456082594393270050973504758262 (-6374345179342645102828962572981461133063195540054543937936584093430330924328) 6544376324877385948912639182665434842045633489315801534286706496435840165780 (-14079418950754591655283223651964636830386068399185104864792486695827148912910) (-2118928212548406976301705189183035514404540485274973920977750898993243050597)
  ; W 4444743319001179472027926944822047667045270661674099554096948422703616877781 3051575589836371732096772082487671054908636497402719307912957071192454562579 7678581535928232134676500477171489288592672374461948291555727586899778162136 17851882213188491888614652431858202479634770814638278113806539717358873247770 18439854030879721598536004383072167117859567010150457550745770213857910613947 418658235389485955522522242653079207797528100894773763239346848648402632596 (-2581899083474218238586018012050148063193076243450798655280302962364589687107) (-2408835239170348324632473629403583362534140070997034058841171841337069843076) 477134215499630897410901765948647654395641515960533666548279415771057175363 1239338424264528875782076555683510344103022445544469758025007348967865253738 3511486905224640573295116055472442774053343210171489264003229326802617330822 (-2286781799623770049935099257680851435230598627018844337604105063367469758645)
  ; W 6191909009812850573871190872893447038304549017165585620648346818586166044060 12663125334731240530225152964228075354190749269725789638938580828475450455983 1472192841009013715975412597572008342873902083516088436881057331627924019818 18341723099573706288242805642326704076782147587672607473393346927114129666880 15513287992552663286018756676161649400402172844133379333852028706048198123503 10794894307735402442261518671138887421098585151548736651387945567824471862883 45546826737022899895694524306715959946348794663656598993528561322228230327652 (-16002465251303049740036145876820875339709368969146356085878400992777604216506) (-5574454138312367944095407909888317572861733280778987155142517148239126764413) 7164478237162672151692705590109539875609954678470411858825457340186224106380 2039099752235720585861260708051976764989464249368484200843592257403378303720 3452046295559426495565994303510511614238768617684609542054215304931726709205
  ; W 17188262431153008632415726492865560205822901334518737088254192901163104261770 17551748948105695771093177117765203201568316435730760152961751654245015277915 4542390861855325182473863467185363267611724738205299533274928748182491542030 17199382066682858340612082714255758109375402427968226363619472515080766156409 20562364164062581835794067571363796405012803791046007723434736165604603474455 20687781206624823785794466807205310948691985614513671717358953182144079444885 13551790518575126896036023765062705297636259110961823255685905773133813024470 (-15583795886258815646105904203771757815356632092174179887941691983545101609548) (-576909065249346285951134552741661786843426118688081259927634730653055154978) 27565855223024018930449703756795822826421408837608511693373125278616971725317 (-3326966570442375775167763124366801397049066631440408852213721836491466827261) (-1564880635883811580644833996324112935570998818410495789992616481516958613266)
  ; W 9924134177737417451735106205623398269738055420797279797433806200179013777940 21607897118541014328251877240732589675111462852965655613176575367716563422375 458503081598411309366870088713678400636920065561968360277139039269532945688 16285487642164245971017069623197764885936754111153425297785075952254856057204 6421473346571237420745689535757071092163774575754681711550398910381329001488 13188702835332372299449694344738987797692544623366638731457656326627173165194 15517221473388062052917085925688501700587641070129414680707844491767532663871 37941722462492921392643029316584240938357499622148028981256485044797161217210 (-16831537408683701859168157226581510215213653637651227393301703719942311492931) 19594050701898787467359538949887739700969222558049270152758546874405019589566 949446409086702487651373688613288607980861417991610395337794587335892312514 4445941068109582275647928760477289044889182542786483606559490202669546088137
  ; W 16219478591909375605703532338707481219401579389812800158103539974701892521065 8131538355364154121427158734591985752399091115698575797792414107012602032190 13379592162497061515986041590078111641394586666473474554246840348955042072522 7239738567594762017585890923112145498794259593171551415968071616331106555529 13660172543212326517028233014749087188762504626013847735738140296442456509125 7976111865591003411132288077980431102815139657149960593610553778262480780350 36039332423393770349789613850270710295830191415372949612208895071880366256392 22270357901967524245853118972149875407163820425380804350445391863381231709356 8997961641865610443257431496382902163813648060849472059350174920034096954069 12051155777680401285483672078570041721183871748732990785164456798857618486461 (-12935217547723591337929860001694966901091126879705374544274861654115639087031) 1902802442947293275222680267080173552637667995082485884671288836747749072137
  ; W 821144075427738159354071898115395573889700672166305101379918177551957281962 19175414990977370127135385628498123861593509594960276660532870962165649172341 18433897949206141612771949860943690040534412792392236182022990654546405548976 9102063475379866438754114024120149021178916317826645736676569379385755688981 17216262478134436420446305346578323321997220584057365792610104960814615934428 11402588140711177857770062726674559458186034192411520659444455632825744157542 (-30301910947095642832320345073445587913395941788464572972551623700629483159863) (-2019827169696256485578783023181476138741771111217431584683915146025965339966) (-16768009411837661891818861580484288610234210951047996832416067825391920499679) 1438743028017778975856541427952520569320615444709270277862325774621786433115 1441894622946711865090054127119176615749144890116873145847636521749542913257 (-4497741028936308966158065618509643107647493622041852973317029317200668513910)
  ; W 2681782717818088260841572799057845026375019938439391924183173818931620004279 2286868140753358414468173306416861171799146328611689486035174832964744430732 8162249332888208793824457426944194072177541975300489784461282319062560892862 21833196759618313455206266466548946202562192502442043922798943815342957937533 10120216333150452124718802491060320156158650262897762808673725009591360747931 14380933813678627152105384703002546707061045331721228051900614506385735507046 (-33382989547300882981648103360642201608205270825554482768715151029343913115323) (-39601985801830408187454904344206179502826097305641143361128256909389863285876) 89645964908382163469023855273213773735598230821901134579318266895998691141 560381524794894786261135003258654086761875115510305555769092645671333733367 2588638712477419963437729897616435871117776218785135099287050703446704149217 (-486664338869490950270053045438825998295538547469291246731126541175139897556)
  ; W 3507606346835722513400129349608075481138844904898126031677419180981779543997 15733393099709836929541631137412722872221895482564172551338052602828731002854 1141088883773645914686429245352822213257808726665857760360182913764085066331 14876233750864413142044316231491686330910701070692960222091620079133939153177 12234261418637237178573040568883727736184756851003433376541822253288669679755 4669007331577853164306485200934912909544146407058324508193592024869116930891 38772970727028233511230813944397335263960589595457938998040622252905229264307 (-29692286623360633720120498544666570460853258347886720135455752255283893418588) (-10747155791490351388002112538156740608344733792033045833211974624107395276414) 5042574665945877662731388306559885886521059886851439367911768828592872818351 (-3875558551688840499768180367590763492905082785279861738147498782933070719841) 6161708171640373020643702451784121301299951273338538626295053955643416379843
  ; W 20852268474203621504206078350190623074032640837145829766554433475704210322828 14579589177838993557708850334012107901997386117630050094617719699142856509240 2949705962448449709621231839967337883443997307668959789896927491719224735181 2468350813679213002982135814963442181089632885026453806943138606632183335932 495828163081808552787331009286155766359312474440294711857567005765456468235 7823885262133406398957790504590404158221258129838783961469731880075003514207 8821863224670201449714079327669761779921030968786057329662999051711803475824 (-14932209456582481522629431514231052965236467237023993416641717571446021258019) 10153975411687780387042157461694375099228097244686635075830942600137680162337 27779069298525712654565176904833294212979454362151913628117258818695566325757 (-9987809709645504309000655687710896556245218263489771839465800707190038798730) 10615909809486158085746721053736265772655453768029680493988213930990632311214
  ; W 10176097913057070551447659937721036546134610287920603225431187497389040730258 1139919902022818505554414072216219099610816550448216256049543621161035282076 160209732973479472302769278695174949385432436570843968801010139005899468019 12919041480336957042080216014629345266626329758517330981265128295587528013894 14980841666283036904557243660864966026072116351315663948276954535211763715914 1893417874182448012437228019647809402852514615476548918979397586994925447098 (-711342698427637568318636633346747176869505053845645005229338925158609811905) 5330633425724563486090800870205641820837877689887316888853930019252605933860 4671619917222910443026880882742033035015851347294795056882874310382979706529 1059923960451913405802081625537307684264283369714710680851690619685367368126 1841131664885521409114736063668059756837763485543086771915712643628184791473 (-4713372828438263528129885335194312686354234338237020195816611507987968195683)
  ; W 9575291283687685780931797230689800893628559780661382196783749021321014119103 13315951817600989352268268840417274057636250255510982782490459394835487012771 18120255162497645598204512175126082201889513277644425491849557330264201228825 3703089549323877832117590895381034595621409261770092857678004452708505615015 3393540544495811968279787364353896517252719637422467290723971137513142239615 10616796264756788411368566765676902075990712102505127828510244566487279883703 33675358229748059746573453764121845722702542628656768717978074920231227498871 19316756138232051607243107916158914848536244599549780947207784621637752918020 (-3912071432256103549638274850121212890426847755436945153755239234348260657665) 11650466245248286857595129241896493679975699457394669796495636205263542927681 (-13463476262034528861846585920331400430362040897676959249361652197516613475232) (-6894554134343514118382164465465681984671091914038497730745050657984286376430)
  ; W 15969932980741538946758784002726511554425992185545431716098969588236328447140 17821868996395097005121287332363263174579548185014964057500998446019236171858 19344237014167621642704155620034774983113063093175078549652457732338537036217 8889616303618822676002578352526384772810458288359021566504252093640029286124 7845788408699679767937801283355414062303624713006733656755294836947018979456 18077091915205804599627765871766594683158581254494842320954803921276518249229 (-10205628885654009261874997931327548368270594171498452077954168751571491502066) (-17455713912204312400697456144434112732636150829882666410591121186385571452447) (-2859080807980536205346815852135776601776223210589233742741390348329928548929) 26006112517159671990368734205504356744406710150372929598719311014489177521947 3329947161464616483986027592296318684044497993899602401444875028980805985037 (-4780745969242231308753878703091737343453546895730293046970449402455516305416)
  ; W 16382337953012450491467689409113159608532037224332804565316130125537008365688 12063146609843611101013063918865419803988521544063119254112578696376068453642 1083159921527897590084903026022165949895216208563240428695285112748631497054 10333683709467352986045540826641958627997745769414254938139837968449460380515 20566862551354316340225403060920353698153550307001909134669822221265146989656 16266342237889178470973143996252003518575567782271813448854931749755022401917 (-48637581134530055870693222721826347713568751153466458874396572697377041402593) (-11430667153374386751848896634456273002538057051055291178387001911479253757480) 5613127165826567472872423525216421038730663379527365488911060158192296203924 18057415179127915760397876026733766032304590588904600213026699282098260141363 14463432949027905697157874711233437656394986266557653975565037199172848677338 8983309035080453859997177521568558724353722238865398699664906438761164119524
  ; W 10372555821625772116484399065955317720229797244272137568376826396652038396689 20585884393327181940136643620159262769317815683512082606658730032874605293667 7133937688127971175146801126226846731752720338278750159542707036920944710489 12003957490446538935947713818834810399908467194816378751827820187873500648474 653403518847105770849213003586015739829181401836603662732570826766815154129 1219006357404560465549238205081132385897236365244943216952196254503459538126 3370902331604624332839189279039162724525719787667097742149728968085787711399 51034841385360487023083843886447106826378682278443473520760191113990472549890 (-14445596379483133617463421343599600143175507207903301470422350930941495044955) 19510769892090305485765974341236074997000859730880739417707546557444881642634 (-1296493617785033483868475947658883780200610785369519637283066740741928297209) (-6482275459675827926481813054703887393085722701982369621443738866662236392933)
  ; W 257101295992147508709774728061327961557985275539560767955302993212810785232 14242540938391976752159890206666326314377611443256215547355649139465439325741 11160582062580755316851084392794298084320783179248225854452460616349029230645 1769500387217208182173615707474231916449305917210948761963944972881059002122 21866944808134023871583346875147195774349379176059578606916429545719823121912 16880119467607270713203225320968629040898269981356985124429948361233439990390 11203195834534923212773940249372499051516285000016141084491800147605181671883 (-22595410806659020525319937250834401798421924248029159155713021312929711959278) (-9264511203238973470690022040811538867829864608494732089980550219164108349360) 334588368278105998793670263220651471824372274056199786880760490372615284238 (-6706793716685215395654906594246731945099785062619072405243081247852770889055) (-2499897112932356224151073211070918190015257143598450715847094142223132320656)
  ; W 6861894109369019296993682801857113773985442708498774044497862656380281178138 9074772785674308441114444626870786299582767302124125883867549779451421664073 2405099042721758560251309509610392195967339990755516928756135458790931066539 12590734548458767963641604848536766524414648659291157995042835297200234942863 11803428463718703219006024694958242072579484397112977070449802906864537184419 18992878721690699989686529572946887621175667677467853823427297094861472202388 (-16929251069848773787992673907978949644296506617009816296859636812639023612797) 23302115810776241024043363982851580344751996657148796403664033464358541131044 (-1611180511378271135343990123278242229855032621748065330569787307990778378158) 5689824467545141633147051699241815942492201505109529875284898055817857245127 7231253763002252095603775483557774440572765479253217651391684740480235278330 237563888402099479430237942544461371294769250569350433156432932490155443394
  ; W 21606057178553807247175931590420096076247494365650523432476721389976497876271 2183245986185342925440962260707012031790973140292982534986216383920525053684 21200854271178210120371922863603656209361517219085889308915548098178831210427 10753146336765911977465135102404683531037071327956698927112097619300122830619 8240631736110500795306273725194620873156684465342635915819970371989528299001 19752794896049294670773347538518791886608747202847250112190843771343134343185 40448433366119702650152167287939605593162380710859660791791370839582132315326 31549825415915317872340409378604205012679674382702542417136596609544088788862 21109741264850807603083888690977063914725319062648741970116718877709283669760 4310198665883571128117041474553594505804199435491993546106393476563791330601 (-18736728739208735749387517253722190011263154157025846160919579538736517615108) (-60887536527295847145537576691319290694660080631654820455016267929323069727)
  ; W 11994985517905527901505987763136965771042929998350820628992074926913984231160 1028822360462767880739113413833433115359338867003230870629167005945938568824 4871513719625349640097801493306612237902555514717957684976895754047202425550 4462647059795480092400053656230865071944413230856704077965791964888213208583 14140111465617948675261525549721944413465097414559244696166701483360741488328 15360096005077040402578197839434621837414950868003751716284304480678464343628 (-38581896202609218009875925376414058406410044072952734316112436519031864703808) (-40068545747063529846745654238313840708511240441774540565399605033837418136410) 6525019068987233785776762159424476704600341916156450429051159785622426186340 1127610780500379948117287687921260817418028717441122680130477980039825979173 8652974029353264923412123093173459375633804602732540307552802615340054578769 4214794168671994826597943738528107563460706246259500058408732539239050509965
  ; W 21042301844600718318701652434944848240392799859792326608727874314428260692125 17849408884467157289247770918140851377621600508098923312361493811994016046086 13020837850793985256744412580856104926227007487577945888172138147763047148027 17910408210378255386445051741437191778656902337248986563144632175916235631104 13811286153516826957275296092214482994138844079533136180146421884601371971706 19358939560324932671950955365775280264392971858223936881352879019517884569423 (-1044042236963502797019181029693330434878389211675510570055808605399479919214) (-8262792394299817895517249836192405353402614258059251893142087635102319716231) 5673231520751901733023306849215516417841408683819863337710995416572870654797 34319122982492249493612209533654149052362265102281270519340902930479004615811 3132003311607302503751400779129913514298001082722485738083062153718947259309 (-19573634591068504150273610110206460474350748267837557889786366834427189673906)
  ; W 1363415625285185657411901826538841248623013413675369286735481203625572708092 8280568237700335930212908197033147763644895159574125958485163289990285330791 18598917068734484961364904840076547362206277942491386887746522327647322467235 6813181550297297503756641196837650508100918236895706764019846042060321478404 17694433194411567146207431548025603398920560826202708952860084776009725737952 7988734146047458253926700896640049923626063298092889343785798227889529001887 7802203191616967438105634877991645647243003305706978783225548780958654641813 (-51065404252756408417333090772973227508799590000756010933926338664989723020628) (-3047705042498657405031118173774767715042482467578336994621052941794193980982) 1031590903630370908557340196737128340086465180947153697672655572478610610204 (-4545663329643311935859388593805157329781963622062417554429255149133463884018) (-1419005333394255175093918372051672267056935115752927114091227822441551220186)
  ; W 10644935505081757058394261133870505245981477885662010644863086090320152971196 4900659631529523331602854749038090164729419842019656231410850666539591045342 15353703912268078251973190234021578985143362268650228137476919099741090128184 7601242629894435410827256381669565948532208580726226257429948913845643570863 18440133787042150548427254212379027664807986321320613925110619776501990751330 18699289236016911819120291500473816922602095059488664177042781653147993192092 (-27416031380721038309770755361606128185838077028247441916854727137666697347097) (-19042135350406376319094257612748315709227455304646418042939206259683691797696) 4079733014939054676782359925230668116827350756215177207822614339320332447106 4766687396100322864706014051316005496642446864615169825333338300658616447071 1754691050152880574445171168330907023004430004704123991688465557018534657924 343327044990675177238580994404642797253367601669384311825846215973520078253
  ; W 4597526338987724672446676077296712670065085730931525257685772374337339078681 16152611876534543466885008687922231838129492280106883162811490786825014224322 12284796236423813576512027970138823286375876452790705423387568465967632415273 8854081048543863349512745242401557287201400852937846021222954214216136053911 19384358824682102692423009776786774810737472659765311394850961060666137142733 15996478706155723155523621778507194158196778788148332367117339805790825327378 (-44242871838709417070644240673159855446987365879014972462792184713982178649103) 3079745859877772049189793312738893250698293955901238486813639595780231604784 (-10954265420033280454763625499965769678204032740883521693247054100024597736308) 6785566021049293967835206167891496664108140677567282113997055447070678162969 1569152754434189603552521372853697318323974432026346175111676496103081636648 2001573045452605305932038264137628359227119154868816212395944610715642379448
  ; W 5582126874970830657352714157814727572621852348688066989413224984620309066848 8284086525448895625093008897820416947455027235751540482760705079454988476222 20520207798101568190490439253255826652271646522060503105081529269863780429864 11963491572413178732515969132098379799870009967865795780886502453176028208477 18532370061109109883396234868511688229954422487619195903073610584967462051986 17793858223375597747275651172273371471469926390858425109673366664163281377259 (-12161091702851587265237662915940898637532492669407100939834192412349747342536) (-6984175535645489157153599327106707960956239930326729543637402259578156966466) (-1711692863251935858553878297819794006855295378768526123932335688485894051730) 4225357174539265606329179998730678048677661798689499733680617505301766352611 (-923440337370198617538318499783082004818266059692182111426140411048059126045) (-3909860946870855795428937497160322783494713068289076647411129636377488808329)
  ; W 328032129647503689224225874275745332856256427804710945248010792929733371078 11883107278548038074284369155429038817601161976399042507184917598705792570031 15028006608848113880553613070608152772591033128286249948206610185730592243210 7840498798858350758487328863509421789686277477528463638759845434585360501813 4249262969272316909023323864652567958128362860116508415746822468878768913189 18961403806017606477503807661453468952289449895117621744443862500850039074094 6187438941954237560173564981178148657353327887164811808884263120316885386432 (-11319695313698681433526023860912801729921881076781502939491154296190504905264) (-6446412091714128400526007733137052873737450897570902345542937274050160712144) 356176693600833686011346367202203816670589565356644470531430801988426246862 (-2156059180290948130923355191406995243608668388983043400267851724041646530509) 3043501043795779836927944655437356830981253083518962619727690695629975222111
  ; W 13910315377047909918345398469673198426820184102165585280916459160337530033961 6474106311738864915536342026102395613000655971619513835801493494811271476614 11165751259129247238386548562399985494599237989374211636439859475808091913936 18298282691867238721210996505721332519532423990726946717789913170581798729518 15754785529826252978919560196289490962908740463033240483897695589273063943778 18560688632690723871570502127652695965462412198347709591719546051647629125594 (-28344065778573636846163571520145552805147146496157607674941213343057949501049) (-5684505286159928630135349695529362847491377935429446394385928951310127500140) 6925307903461735496387654709710359451123320909839382505177167854751741549743 8228788496923011230468629506405633793887190482824879881740577689664666052108 5547726941847753120505289051198294144685758230591207815659663504237531549599 (-5503704480298493222091270555159978098548752681498941200079468840603552586379)
  ; W 5497857521023063245083078023993945265674128595397335150262557885417151611659 582253615992080607773248809866425002575379981080222361816597631739123446637 17306781816637876406384016313745097880988350301743195638539868233451963765779 17017644812786826526438483833722194693904134997543874367954063650115242233585 8123997614201242887295621980239980901088435428986245976456921097110851215833 8769891085420553954428593710858560580849537645972430414911312067467449082608 35730621482164390142267877160190257160437017909589203536020423808213187469004 (-45844238801538069278478910810885054495098921158772209842479967522777683714928) 1365455337056142637587035395190273414280966916692975657713618904731802788667 292499260042790413625329487408604948089088031860016128353322111997374269415 (-1576561776811211883979229281917552497460457627244028585288410758092365883843) 158309982554156058262146775574364336560643785632947700349519975484654185538
  ; W 13307962763309257439082254233913756776252688460639402619925052305446089633218 1197290176398687547430642807351811290990894347061670525613736338710247163933 2771850627078987052051619429584523913615510519318045457073650556242267343188 10419366377017460442542055326772331731803200070827580696614720015668558711350 18865902723236107042613578740048691520614671238811480980903353421418634248111 21851289742041633083569095013298849357643264693969060037286700963882336775349 (-9591585319936706697284776954914194472543352104134988880156642767465075388543) (-11293342493926485889117639822097941166223912498447533924556662361384212162976) 8025695354885446964373348386411065195174895149212224635481859103349786342549 1455895128511136654711315269994677499323132469471576067164985897294717519691 8476252304579435992792978923488172693680546054381989948372655546763136608833 4806789410602602528413021057152742281201865048607526250520652142228997164972
  ; W 5701691857547366279537054900317764901262426725297391422031186351808117062560 17936932230364681061428133833598113157160245663157512093392180419661019623245 9712905321501574078707798243857203421642255529914400117534246146950985045146 7800811950274044294875715628037536898544475773575353985021604465136068052316 21491828978123641268263816910451391928942691222273434914791455519320331883928 8838330667954084346220107484399966476638697187227397460278791766104685196048 (-12157895029424184604956794381860581246297798070458680719181445766182543617834) 34387681088547489830990645362504157934421326922502827551356192293439637784090 (-13213680490103670006556407652696254823309076911465828342956023597865976382909) 9344821422721665255354983998263351492364477932966296003869971866940435067848 (-3953930374161912482943686707088229845954690720652239377832953682028876092703) (-5005931168123855034607322145466150991232196481366879835449938553837881182549)
  ; W 13011569897642902652947446958916841251927310491448706511524898919894000135425 7554067686544738279825664875446330449284905554813782788642629648707871620341 8469325305825795698406446928903121825201130440523519000873333403825706858742 19096114796202334765931957927489232524880557160239067126941734853552356963894 2463509448880116272770367361189093410889590852202027580591052015021588827816 10637982590597221209540486987409586616783006022984819098491062449700225692936 (-3081667423578812310975108125833179825278878664717514853984701943307344252368) (-7989346390429906837506203641280467407906445999894174158169713921822363006523) 5127730592424491593088013387233806831132545364520868199261332780357013202385 8981102803958709799701970506097671361496827902010917537903382946140291279080 4637485572952770979170620386893980597960206913499840849628866334412909979338 (-6285362223378465551764925834264413976929423944567793893888608275727475279890)
  ; W 4900046417470742405248890323485577529570904415414648563881056780551439743344 20248282223136837050253102133915634743367308424176074486444233673048566943071 10392640088165040843946588083897092559026930549195310802201107552756049529123 3238707414459672347293375529464610186766458202048837630198170396734683393876 12909193263695415163946259214121054451432259492327745287898393115286748207436 8472406360329502732967501002569431046419168471256213194367940786554554012502 21570359211852015259094935111047233019488495922814169006447871963373701700464 (-35012877373526003690413414558377806653760003102055408720195293276731452223256) (-17634237720882762595571028054912745304595749922206635709608419663706040982064) 9065828019942918473434249035085785049516399122405523311189071254758034284448 (-15099868620649855377369068308818828710589619266538713899073651087017757764718) 1770731983443554611507910813840332409097891073990558847116876336947545731641
  ; W 16836416990798502662629581119048167330118554473560722026272766543142444584872 12633025144074888694301339162223056808749296205713550933924280433287852571349 10987038101427865595651252664411131503841077509767830974994388221673659428503 11661990587786114257022828409562494796792299191267383729985035223923906369824 20022764981646153665772247966315482367329180763482151960607306691599647941355 14419378633482346670737111210018397121245239430346663906875647262199357887545 (-3286163756272866561638940342042308558831403861541061861705791188518619983937) 18708762430935982382890160255307795556206572080258968204523427449004628800016 5659276238961578137750062314061561453020541958010692732697250390006388228998 19434623457558002450117790236484409573478349561735652686759891930129314848760 4404374342836406331630153877540134775908204408656030111617803633016895228147 (-6822244885493171325957395501350818084286120199903965752838278107757656193781)
  ; W 11310296852657884537123701618031829180089298567529677702369954919422394806649 13042170286342662686093020288540600812634192682321159300742870147204122879536 13890850462845234676190298515686303058706682104011873110438153750660517784290 12532192675788954184749448819083334334069377842934746942652762759084448932317 5124518587932337173851685300810961174461007757536562486914372798249312444947 16577428123129754169370786822147991149172224923743199736037174358480448155876 1271504744715095913367457066101514928548135971746510139792740507046809644646 (-12572749622409303291248844370923138150434572507757659982448102650711407374205) (-1926851375401089620991823549689075882911533650147855971136120608345932025583) 13478543563789889812138312911694253258790715477808942904212538949910953513989 (-981972656399797580976818640905272579225397238641298778589086046398075911799) (-2179903590876846353637214388457028208576794731659463438516989467202931349870)
  ; W 16177563542491535232129986763469726277258721559440161795400312510600758745404 7929703359084292991536909006909173778734777002384916715899108555957664060696 21264803863870106054982658632438865204898418391839049473010192165976114181275 1715639784317849231461315997967499463828963452579913275617064742613676124872 15163432602187819634948692219940607756366615580564475746582680506471493118798 16937760123947084786546883148848656295396422600460889392194292420328925383556 (-9356774133824773391326749365876502529940362367462974836847354770802300205103) (-19501806101941944370721101849465838236231458747806582193988041634526984650356) 9084025975611377481650638883486944576160579832993908264108752901064843329415 11721660867509831426452001558289341899976526047182638162469155023855825656914 (-9368712541356734530270778802098836441783172847768014806270748768977356544035) 5323049883029090498752735872721542514808237808960292686718437718618131851636
  ; W 5506471680537101132333177248291065832840208027223737550494977810371726490237 16397385418714670405874291300884278608752202528513187946335407003236992853083 19341158937449879456840532711174572124655979076999595066687982673249707250225 4745014179711162126947102912224876883566614957232303003463386089827206056346 14921116053434782035325478173431816018911774550717964200414010693141989876239 12449310220886364513760210352986556845589718558509436332256680271625026275545 (-4064375290713359880234537333691383204732140217328193200973590728235779923649) (-16361948685993630436031645001453356455762862217923147204556726288550088426314) (-10898682895566469139522459232071785147799052415942562671381788137178730654587) 8250250051745436303943918726480739388484083490429858102833995071678306910628 2753364726555025536708632495041044521801371853234122737644258537548974944285 678975605136876632049086057630233184442940142720473164068769435674622591617
  ; W 11258805886164766354394241416561199471285158167343568829599378505705679656557 3396426026395408516704551903291085676318989868454061581020435383545094178713 15271670022626835527988965916137193037250942982729295072660311734948532878487 14985635759312923623120729018876761269395146838847413321789179573978552394924 10245825698314941388769048172785597660075773209245964180697066050576237700829 16635198982506376500175670131973220854125255314201123674233380535840545407448 (-36698890684196439013217292428829292220742689112644387127498101870321415115797) (-7719156501052037509916852318368018361950043287534549087276829569689301241532) 5264241670938654761822771123858603371636869526841427763078865822252142678921 3494085985961150897664382096859941327912986916420116474770211806793033522502 3682301036188432602154869429372756715166324011290312443453894405208263800664 (-4636071202614841723103634566548085726202992504159942784829315050197424559015)
  ; W 15192886190387719158588399512632498227520421429275244646793250144324336236938 20247804950339247353667419464646481187835358765488753546220034356608514152746 12286844003280373870204006519797608457178260231900572621854127832708915797034 15523479904813105081569994232985569328291115669429207146080092501416568775989 10238508558547168532351770107413983990606339836459602697525467874375598139306 4883590940300436723205474682642948382003226513139132678490114040178609904049 (-17739618564850991842574487084327294767257725697902796401633796315070498633577) (-20684610393046326740153865135859617918306153112623992109845171803138444017164) (-8184750852860701072325448889180261620376488559495532117689932705317404633960) 28108477963889079900922645734595448169226279565006685680242412652592468161773 2569337597864594690541033892009842965310773619662949496767207875626408081443 2387801088725870075629558296316324539971038605955160954969242779408905539337
  ; W 16861884663959721632863581592400269429894691498464334233161365669498874762942 13012215021498010668002510846781462978889415548328701581827097253202743159433 14501192808713063477328279855373093130890495952885638527752024444870134228223 2153668778207024865342773088720935075953365389279657105455313286813869438218 11300809916453219634913503285077574519781804582657537067801018116449169628296 14375774811426134336224876221936450722417530929173744832008707302155932956475 (-236861775264629047354392331436040929477233572853077202275931837499224954062) (-19263043923320310365469652754078595520321022124926055704793387172337863466230) 5254209546575523852062804830856080823350812987584719160593285037454333908399 20048248751609955251403120442094685009904283230918585104047500014620266642555 (-9653993359652515859720937342076072306791500761933959111134463973772121422301) 8983207631519994256855889559006489195964830607338514655022719209200566042487
  ; W 21756135910721156529302528196360343832193870010482772693517971955008937553583 13807757301817163853670594223795876859474454107174320705236291341634142188198 6144434355654422565485374979539617810577334770230566760006618403481974276816 10232906498432418285997014968517578398572554049504832026046528023411844841698 17312426894496357771721371883324580752799494209803772991590014840917775310496 12712620802631499172098465531437545247751614355293050837306850361687346256593 (-23857987158756130226590763738380576401777606567122207263199535826996359950013) 34274825517913895990282278311343185860985349052260144278555631104309732841354 12914480605639049084036007277264430085350731274424330730296501494198097483481 27448840570667852328515054629825877371670097266230451461579015002495708097298 13402945500015771920968551895540370608283517795418152621080840171013485327663 (-2758782497986403878990583647851380738162254163556936874286949384173042188534)
  ; W 4246196860874371870603595680439473151411019016013383185748566297623678344668 10107569166477703302787060705681587168050330927803796847395158351296754566565 19202193594647707867959570554976801691553902563604919304699742110750031432432 109054878063378222285125805274330703828194740510777513611989585558279814518 19606115632569222462259920501479786273437047029936262537060513978292577108955 15239691980584366148839103480177146044895334475729746420831139926200401970022 3533373271989718780912825309109547466244042986687242751545343300683112964221 (-4822508198030320515496217815723409035043458095762220097863811521505801886426) (-3843742376509992736858068970032331455046335218084761316500941881038961827750) 3921623925416699501850928723135022167232342751473401507449028176328459112128 (-7208132132784869834487544012804804431081355163975383076165778822514036214833) (-4065851161194225627801856110121970095322116568924032454950894117643737565505)
  ; W 20538633607541282824464230547941660430985964053095339072900199319194682301778 18901597178427212412841699434761321564130295891216671202605981432443699982776 6089695759342939862144877820479007433375981170320204383090208567763773533187 5336498630414164439212976699169832192638131098302244264645204282688967136439 4231210431210026400464962276225231506125912950330717045445964793014896828348 14801167089647087420166649628379754727131611009309577010288086218240432629354 (-40061709373649172272437090921715874063284292277640238346012374353653738630808) 61887751805774818244849454455311277524292940759155886301371763463465991304792 2949761428879433344954919267097260004658915020972698671929302202926669493079 35472283574166223973931192389300683825471454715693040990546223208898561097307 16818153332556209747937991975628522303024423249366244179153918302115609971741 6418176231638331252924530616410069035202623209159524301591848483281071273882
  ; W 20310315656577056822805512530613134363042768547630770257225628692364457988068 11053959387984299082477889346092054841562381683618095591753572401200525894008 1072043049749708923410937700294914725895895639729938289392841748832844707097 21386230177674822518460770600036259073189830206899844383786313734008070632428 13540489918919078806744284657948350842673237363690986274486432779811820762344 4791718113244721718078470537990000968938537349120076806907865432053357437258 (-8276913426103668401354525670135813196401179819718813114592841369072935428760) 22833723672581589281320088995978149793026228937198468314570280318590783327038 13263691636577556098005920286597122685329152928104438514894597337973718726983 20514155086774113635616530627190583475866494400400515008369446506699394402154 12761334600218450768270233728878931629368529865032824762888308188548019822980 (-12358698057090905106198628632317103724958824864153029384319378546072076354568)
  ; W 13261326091015875175221555864301998077403245265371261988210631180086586607635 15429788774237085306321401231051249051320687962909076220691400707806926774018 15859860729959944184679682216773694188369869641105067793166932480977477323685 9661323525402483867988234924631480543131851757043701786651891998130934214924 4545081652349823697612339504607353411163456354424606316805134623330113916327 5993186340016102124684213873087142994655882793691472074682398123966673342273 14426388801572413224248569404243119494377308093451609092517719945373587720795 (-13712894717755631343680766593316164234218434640083331183597076122884848106114) (-2842421490368193635720016256765073470306874037106604584829117929080769584854) 18696746161740655760274396634080619322492812781802752769764613284976270334476 (-17224722316976296281825349812199863258783817776879632665974598062869141443381) (-3320736760856312241031658851927235919459443697324038147739220220219845927525)
  ; W 21169358320142542422424419135119762394702730629126592483428765371503516224924 3856769439944043698105755601515346895482282421079751172628604833015534996281 4188163164901963038797723100040519861753175753475026877713652692068837497687 8306966226497040340751785468534055595292893041346306838126584614497567651643 21525673177875470094565907107956892156249401608512427920806267933335795614525 12655593545944293655344950893138402913695699207815795535578454098162503258645 (-15002473424602816735196406697016388171643084254810162208470493872848341692819) (-28808205158900109232020847886004302490729267249925557404621741372137870464414) 19794510857293609689655208360172742794970787912348058183558787564904643430226 7460199953957314124912394801434526028663620553395004938927895735189850967859 11049717674187177883190043625728139986265610715845156803988463040755535918733 3366461248929974565562862900743151939129812833523759629250419354631966096508
  ; W 6080878057575174082509636687234334233360405921319378455366364100449537137190 13639208377209945812329445242878138448830433839375192853241179831219588161470 6048283304020296557132171281281278328229544347354407253025141319021926424412 6859336418495278669898251865318408212545025134765283580187239438377246440398 21031366391034968236534681464152641523233229794554972610567507085931858215989 8489863619022517552884363718636709976133697678121382219114935375565803166327 3241939719665559928777239506387424101508657639526575661934978226137621905080 24321502160289172703137344467659433618407420490967014200940363379678642618038 (-6809634198532170703919781255592076250102222106064149845748436700994490652742) 7578348196270916424219503916115545110335084945077735582903149299422964504252 (-1418829666897112124805609834637825958615271960340180171918166776376434803258) (-756922606630316536111398695256255819029364114741621067123106352657061585484)
  ; W 6712495379715930062110381416315284268305717300376587308935860605980290453656 21727813013693976520903808486069109166931148479374541102943785380001718765001 603973197038414912091769094127670712737039352411256885761591767314646188298 12467755140346411439260776709284844597055534669220728575698315644489553846721 8507713025900087187700693791931471314252977819652063109040700676189704582952 3028024123644826769763518842494017640243003617238772892920600228689820695926 (-2520994663106416311390815331348680817717191661555443236873695310928279617182) 35589164388812674831001091240586085168291010304357554587793036291317302319062 (-19510029500118448766971260855552375181254302363449094394248897811517737514389) 13326592300690863097070320488256596761813585570568518159566561519781318569365 7236925351076749310390113845099488353232140879750595880410251434587841046002 3684465112495883848730206538156253691651904731121443227014982040093875972331
  ; W 3066573781723509300597781681252650681584164871179262644473341541116862274025 14736164910673350123500282092434705255229286867972278299721874621046559471732 5840023214728893521033626836179233959145205328438297243240437626738176277868 4768660345395397278908164482402963987256013789372039107947121794874833036456 17559317043402225532571558918528292000724857538222466492814533621203551235279 678253059995577430528479547778473523287694898356405937327193096189910206213 19561942002106075651522266013979000004542732283971174445040368406542401598609 10239849074271951939009392453088621979129008616307104150361318864470132285360 (-9491428011477886684961460341186420651386009308947970164895531821912321594761) 4129115089120679642345563188226300213804254215528791494482192240413961317394 (-5916960307123300242671843414898633634140722556214174883995973765550570275867) (-2446493974576430282529047886518799636121813373817567163604494708328216716238)
  ; W 17955137804185743027541900422210303602515250598279634135405091659485452580825 9288980814722632957681071570302043073133115268860655336748438130833901535216 7499616177885624648639949034454050493702737947345601739099481691673849818275 5548248648667878767081614474380352015178472318061835834970320444554902393309 7500961694558745815034023691701155878589946926443842356094793723526152535832 12929768628121435066436330992422191731725954341413615949331046991700572502051 26674690592655934586409669372162418390526178374703090665259455770788761867890 8382493329453735658096374450791438003317555663422610168974396461186755281110 10786695413306841389606024567209059463940475850235307955309399248043680049626 15239682012425280207245518502952949292295827106623722986736546033038822684213 (-1030536790546877238856445349249778281728321723904028750256239447595322494586) (-1343805566441463968542448327872187241027569723111167735053248696262938810547)
  ; W 6841486622021972014950452469323160441488719949495316320615630085357444017693 12110964799719290444951985656726320844996041110313752966789199455947731051563 15527094678742522695084588576859058374709613432571083005312152916085537662327 20211500387364637693435212190484148269749294910465097448959103669995740215584 9209067845018881811459495403691760813999503339432886590997742495801259393302 16624241101471665821953122678099939332115245677333120071531222703421564420660 (-13108956630309295694622372792132774889880349588514057933530087225871767300382) 4977422490008532423813341153294383401404391150692856507775916233991105229996 (-4562701984142504849547402516064533650644640718286012820659215355752989220459) 7570914133419065067824594228640783608746217156364994273357289921113297670652 5604206769946626981525037818839633397393220188528995616317393085904172289785 (-9024888444296411243002923064324841774535756598670997022983480922923412747814)
  ; W 20371301912993385159416893401278451874956646988095549545303063235891527126978 3029277628224412650344190870195590422574032904789854220498106136878442741157 14794005293589139788975876680562004340187471549961188375170672189362904003059 6040432752302921176139558467245874638959503289603074387819315416176781867847 6957409393764526152434213373340887059589324564730344510604232641304410434596 14263563239011828396621778603639110948761258366302435009752812540258464467313 35485934631288905828365390768101232239551343925510193015716812406600316901691 (-52532620910346763229485692860424494331184277012588577383311098545929419908940) 18540246517621284731260079319757231376275032584171563552149763571654141692134 5638673648146568255342140621527287231501602953443320603724794439843478235019 (-1278956612675089809942032722177823149753361778731788684655531241393468533241) 13290414867951462664230120601675211316553554656106929249771114265536804850583
  ; W 19541061231584525522935778318784195247174457923745739116373096854224373172780 6753932765752413298534076984511602569507669365950816117427406198697276337560 9782553752287214962961893139382816612713410502863487664527668334899747435676 15549694839784780698543114395477437936731308026336045454591219709358151345535 9827784484273867803055208251186400768515867013373145445618477602248254897557 8531352827264153279820569174776941582600500971574724258614795075325873705695 (-11343710322986015471769211258303415090866812449488037595355408890093191451969) (-9957591600352688180996944606522125497565503379214749992984886690008251379633) 15361555891945270681224213907390062305839809262145597114546795138228395647808 12059352091654006796497621938217367958236792037626579738473850588154445073846 7408269323760689623350283023267141592366934430894129142225191007825014095149 (-6943182549633248594877068585492794244903896006358466241702138114661469221496)
  ; W 2877648433430875815945555627150667817293466060866438730319409597767957970588 7012199352287433058514226745257250758490322406183331992475330467514396729155 6417530223000236564492051116626631687690192721387730826429188442818101836294 6004012744346551032034485682303745246515371019325190507077883853217775181765 7011588560342036775696506625876056510284428084209197315526165787174530436230 5327786820376036823051080864896367017554960055607553976518132206451384796800 17141562298562601156210286096684420134824380686290886727002802521168396744263 (-33157760614853015205082039824370185572631783841526299897311620452625694810590) (-1868129821530855350125356596231690276039816428254684633382758290841411133969) 1843788430086925167296799633602052517930244049228372919970155512163788620915 (-2615690599491781665368011058967041494907251720356150167307687283369473425687) 2333002847211831455350987504942330013749282760784489169149658456104458889325
  ; W 17433197665767683945955320465128136010087614267137020807900930283470162116202 3359102999000310936912879974189681040687972621182193654804369361043114921818 11192047437591356449473468889867003814567980158501405483312669918992803721102 9866870649318846266200107764442729425332829763408838343172858296896997408191 21203935154048425056375022963199174629604365734727172120029537571768970283107 7974614859597083915015089167938631058378318086279508268857630531179846406998 (-4189919502676108894745210840790120715796487162899749612630889387363701164883) (-5766853315605142408236692700510682879097398331289030769247051392730376030152) 13369406105792398119895085920120287841528139177671598670489206426505650283901 5350809281871299150040042372386134887775782728912049943679889086038680287452 (-3209913431546692539308947143933558634027058745966122461732366267748516772995) (-3809353770180477493070210821304106174065788716233729679662804587068478442118)
  ; W 18463704964659977688909171348690903203943390591900890312379603580316925208436 17025862806072499048955803348052776679655509945610637841691966934342084104157 14729219503588426690649102954266154033269433879210123691477679308298119862809 16669836679078537459499895561607730398614717079570723654946434420160557577227 4737971174767070645860196037276459176388718266199719458869606062198111583104 17224301125102617590853858959745294120020486182396663968710606073127340476873 19541844573203546396922167620501088382188311120791899542446746413358881638261 16169847418907652567084935582823839199050571045433844596492052013607155031614 2331315356357733343706636450610621106162163161201060611739286111414517407198 28724142861604190295401232828296733778185765096935800101555473778740783793865 2307954327674570649419816647417173340596125426373492865839399345219828158683 (-8490008314660566584623388299962923618484610778601123505038311338606319308802)
  ; W 8784211951936251935508678179757145006855627317412146130105713262450476056624 13421128253747343752502892487563450779649605671235656129361563535023534247915 13856591843938892998853829883368585824250744950729189420082835998913553883114 8244564586244017782391244257919180727622774877745945011474783380938862950116 7153331877868234087387340883360050126081982638071148317364711442442786664351 254090153777082174435756165869924013061614585292884821598931515914154073352 (-8968274927425208877513775929655045873585761199305561553470018485132008421538) (-47670361029352946054915513846366483324440412539232070478637108262642854946398) (-4704091808094205778640320040269828542775046788106892183785845892295876469507) 10772361756522310170948786089004740539499718993777699179341809600474690017450 (-4815887306732404212173740657904539556157646110712299655909545979889711070980) 3916304477067078626974004099241143537906398764739180009451607335971767874108
  ; W 13929458816371483151326480590852488263219061429081052258679742830499762189623 7890365577002491520510994878458797024465937289053514366392528139011889091966 21087427075419476143701602417639425081899770279008358931934349246031016371978 4505314103901299717804253904418324505182526689359591562610005601135613807701 17891211087446346293039798070443851927642800681454058274595019679000594132999 1852267154047816147629986048576157091598674187029918772173886724043588218250 (-8078424695580250816825562808152092147476310562216165113347205214096582840486) (-25835144366824218597309068421532463401132798448443971143879836397294800095140) 6020216184085613856600726069084725783800415306000887820763676101526902215449 10042699452350857079138555115607940318154170411409596898484063846583513016641 (-5949571905659359500792441840560706349598440895789329782626894729335572117464) (-226980202780601806728118431970502075615255027733143745816485230562070034207)
  ; W 5497461132860315997015510496499398466419976083574623747006946796250517817713 19201720810554251156633662194196416394061012002039630514864152590973326083242 1878193102855072569558631313911019655580559350419314602189054931666070436345 18329112756766465790154680231687420668331687765507670260672042810611955667360 2205520964654243955708678734210314687496276660584220283538798026167175158261 4257377057712789629096571269436373758864794157009220645517278616084508606771 (-52428426600953437117401812093273197847691006497101485832872963726269729043725) 6278106424490988122156695583718429176670638449911610198863468968091513773356 (-15464192587822810138787315050756233286395631556869476614112371331808923302512) 9645426036081514124428893561451058244053942771742994845943369827456306337510 16951691444688672267607203225576943000765512971887954760809033400442898825109 13379536842583194558753121631643960929603067115732330514968892038037471812606
  ; W 11443515775528559273449881221522729143739896921645383230861220043327583076540 13761884173704626279251604586012298852091575183257428386381981868015437394012 21778204958421712155358985089443557041541162773345930445791714254733484553162 18450500231992215225102197291055402090647065856607645897072093952127909605209 11557630341788719902806717340866658055892726541595742117153836394163587078455 18374168699446384703254531795551304463933674938700789304977444965006923007214 42515293201250976090354604589632690200091824844670241122948740667888404189947 (-2211721977392555451066713128206091645687611377358973270100505112835507751232) (-2669716479657305522482678059014558876664130481653606056179931312167207827812) 14389856651800962872044599210914144978612269401690009553863904606188042366657 (-10327717055763438713751208111385140177333481430632941796882168386988763957876) (-12575278852259236540004764530076177518840490770583789599299066188714650873503)
  ; W 20636178527509266771695598557653811285780719430519970660679271489761337619366 8603836994550740455339936833618633542086523671881585319312443617524075019265 7187756624072781813638531597418741086785833441737336707161857354661348621138 14996346572045467654042332787437460894987318969704299987908484527565615170525 8017205171780583974557481137017603569270189242883988917971985727045871391500 8915525983858003765636132557866056799755901513936516978603243439288020790376 (-11000143649503085658823821527660491517930461486041126683658153188387128862103) (-66414077921984634008029172954498840612536712067424840696929389735390422413450) 16073736720231786510882581568140292110379473426217991068649391126022616084443 16223350342075060439407991549896672138840721340828545309025641912090589106139 12398077048425431806442088432525350044682583319933596236079379666756390573543 8991784853935367938688237530474585994967795233104941634159160569207226213158
  ; W 19967061346637322060300901385289083022289493567419997090314576802603345441749 8300837378465182563333067306507606802254371465167260572124488182840300237733 9147567296880838333072662246607603652597793027864697928730492569466991248861 6816025480693012378050402414824627730187607122811314539674360832754859744841 3656280664655822370249398019789598877260135145606025610794381451904207636494 13501433204570939981537317336076052420573191129543609242530608839901534836578 31607246503653600103183862505233789155966498489720025707373288861900256601169 (-7200568640779021617820562532159022138078646324213973243083166214810798361644) 15066519481147461728469890136073515833430330343349469987727029232101639018025 15144507499733071780259819119684387714985531656834875784432006047117226483321 (-4890076176576360754584679261474373463061360318681287336536036396239956043571) 6719082214126916288833922904369514722003455660889863920999105440282616133541
  ; W 16409239978076166668703469653064798221892432310941328987768044392945012131946 19352514038416216429249617602673080065411114860559800846254801214240867239540 13612805911022291690527189220934710190801134869005556576886563644734167079091 21531151281014401410240052238977135709124951038291312050952881024210748354891 20513347241219372736145677779224957241214760266097362763068047085672287669336 9560382063296151020218141357457444173605084276594362183968945086961184800765 (-831377753589221412932671035806449623984627996184701923057680165543917006663) (-13197689007337980194950700974681141434450937934347974365921115605538011937140) (-4808821044489756881725387660726467593144836036466908772645523295298002901339) 29016495192861953348506047589787687901919017001533350096020478548881652597156 9662881935629229840668909330563874303296347442173783672007758966131694666730 (-14979622871050168595444152223292997794429885864523536354449895540764685524221)
  ; W 9375975276251044657492127445679302890967194943873059951750244787895863838485 20892276782831104792200218269764566412879340913221855784934330217821958221737 2005703202507716119668560057598067684692173289468551744353987651820341997752 14693320991674962753562583202343716329993297206376950607013985508675810141091 15175393853714780317856257572590010877507950621475045974771214561072965218106 15112629699869191033768475044121147741749562177703275905645777707561636819252 37464631293039138357726755548115130882615509767598355718294340195407849954170 (-32993942751762144159485605227336904718075359863701293155793573808661865285484) (-15925367734201390043937303520040755647964952713444184298816509388646316075866) 17898693077134870346120862815961805084437154214830605316750842850517226686199 (-1554712965047929792515171826287644987797555535490984521561563847524224596869) 14007982822758109676091673897894503955583357724267811741100195216544819250022
  ; W 4728481091252248670782993717127679235738813516338112531132791547481448306560 16424842973846345696873494486387439503230111224225041720762242322739935689195 10852778275534482732759482874626894253005156397702542903102305098653062463768 2537445949944038652963105335312126277560409669718022541461161318630567151720 1613366436721514317064706418201861033888276986453245361862218091779463696905 19075280882063893092467215932433594422371072929226913949981093214545910972207 12914718519591297275825765740064498068733549484072794038142893226029241242437 21226182781616537889720816647363016623113200197067528097715956454386857174036 (-11303645282714696867902641730879553811266158316347659772566018914763002223159) 7096463602251104146350392401063388579840175050255859625294589964828514591006 (-11032935232846851703257021838199807293804462425046135916567377803486398560052) (-4012793264590835943115136759988118681856240975710568127227129131673425000293)
  ; W 6743785995710849799249919967590823714480700893274617580368013516769669940626 14725402081505805326976151393956532318014160437194223017492390884680670955523 711460991367142492005701894464553405917616646244278948188938458436475209133 8351756603437826861740456705135967200626776167604162790300515524946935379548 4372465158640865826771532544519059657864594032031670699240164298840134432341 15802973594266376748219600829657966361215668955857736324123792794003339015906 (-1636673280986838581543269521073739677193610449355244147326709351861028245160) (-8083038794238093418757343862885990686648421718834047100570782303768219124902) (-7828806446886359709222296062040614342295508585815370531006953003140852125085) 9073817475429504292767285061576447904501250246589794453937923572282978491416 7036148885055088550129537838587940864416931260775554972133448507485626858076 5031217376860683147046099298591974959187131542197258460494187713701820494008
  ; W 13032182513491708742702522725519143391149647481596696955786037490899587814529 4031718660438509801415662444169135996373256599949046429422855369102528381275 18630360751830737711030335708582638703954344012516374279546951014833290050816 21090306625780948501526987569157665036710259911574104764166781163399810432572 2761447353992119050767629666732106821541207213338995621592156658401357507929 1945112508745262650365659126186477529885990664035666549713354428242217939053 8875825569999558726258704428884036063182169964500165022248929250635367473781 18800041612757653922007213609194018281779623935541285897029701229651255274118 7016690494860419760046004553588476390507054701045332162163111124979377132098 4800942107005214962585596112972751530194077718321957201507561041708996548654 (-8322464409497251343478863238125212648703986042259543107319404078483052583319) (-10885070710437846350334538562094003250405236002575352565030003931617796740560)
  ; W 14353139707139937365020297851440332752963525278492534757430336305311084842511 7875737512734704496940654582633672482110564446152217592022600424326190797834 19863718745601902851446834121063262819434863689586366023091787432608023909658 21373578038157219732902375914567803065887873498608286158748145086520048028063 3509565111868054979677261318385092098056877776657855473170241527206138673018 9894542436925202399913816039382673008921730962699234213689578770841238086916 15614070334823897765531175565897531279587781117063796816710806394710190759446 (-103168917023332853310539969465974291964384387482920126453518791931414034263178) 6578206342384274052933999406980185322612284151354230428514865842727665521925 10328975375403909796573555577602408568042040135915638338055167811882923397827 (-706844692621876906790206053848316419253313763745004503836976817691811938605) (-629536050734270810644990183457772244261620558715816982376256982032927628206)
  ; W 6821224972801429809604357390356855106970530189349608713731665602480633382982 5833002925135101638189314442418588037059021829907636120760743211869325624608 9102381385075143896890766938393606574170267129700092365505238400164542646182 17485179688597630941666428759165599470234686749208615598727421049853293253799 17461315177679344910000362812455686081408038915366693971993610220004693029317 10022247750549109111292611709380714852063873874577173912563437826053079170745 (-494455000632022989031353293429046412421582009899404061107749106481795114385) (-11954322480394141419083895977845191784381744453707040167999976096404313222646) 571319821246318267306543684310316559449428076479036921713533382847757836293 3635579653636393372509161184056739374179503182781396793026834577676888181750 2317429703896198493948315418947681791989897755196723581074573197309867122495 4079566950685545049103461852910431246571932550166722104149160326926273543765
  ; W 10932802065179200561447589052599323971652716468020437271909034926503032593668 19743464706166674782749788869799158782907920991350979636330753799924522345235 9207199900872041848570762734111037791249563277400460878511795238086150347676 6398049275572636644626369947081018595046136516884012922545675100977942090036 2239860525272376406099248817206261452366706041371215741766867885684948999556 733079262836216518423612142545980577966232827531306159098839647637584615923 29910528004217371674091406297862642052920989229034160622549072518844280592671 (-2115492927724830306838475653261537473757655188307138023356755698701830794906) (-12348101178783703459325777898359988848221172633276105964084365758597803267127) 19723044282469954787310730435533250249093113915135560298061009444726879102522 (-10053083263769042794879359195635372065524759964708917027782598628873182377990) 5443283972443890121516920523992116213637926101239781026272753408213301436722
  ; W 18161632174103586814250544630081570790103505895988825450816682495199900069718 9380289057532864467740422478283778209809416631101901283949032136114353229609 635660389971512440558317283577994120382782266116919699894999271895582133402 20809754480120445340038788100699701902452762595771654536625195211368296449301 14061307849562859744257657201141342566985917094427166084521307277240747279246 178021524861454987784265871602112223969004683326727127077064630576826188815 (-4897708188435443974729748533605988024554078873211349901132333043925149512931) (-9254521490896917300741323559717272252216309940304429670811392388689656771364) 11049542068802923231095286008263761328919050050713101599660801558637770754308 15566471968278664256743129102707079170680904595480928087035978523026994353189 13288371757222714256471058045699291236192156425373426193404856138044580868805 (-8284656365888679300577104667650094396328578297198864552423081543841749896074)
  ; W 4155158017438504056529370970104146586898127191268717417167765812155611398484 21576922755778155896658758876287606436855172376313267603300907427809425876161 14024866283887583562486478711818615315607308154661824409496057886603166000815 18209312910310226587316441645955778038013768306771682678971742302321161488386 1093507236709413383588881813541321151024101018941292759343829608978387825618 5552104424547377786593583826032935269201108802890840443369857024665814373830 64285518902790991172475548910491660435475182854524470485483359916108131014183 24164173660339407895296665328518055137168793093031680684379437644287283199640 (-20481235523738644479494730536346597437302693402206685185584985553207453259148) 8192117028788170310439416032104704578121372491577980757250182539571395136420 (-5105197057353373202585572318767952190698764301437458453569219849287511615537) (-12705113760152241029933430175017891267194326536412419494705575911042198245666)
  ; W 6451324759344036975207769331452815592146019866956541402562187122647000223100 10519500605573673733022222370051644832951461570861956559682048409243609985258 8427752222381182055283585429728139734388846615671735653286505112096543163881 7158155019910773971692809418182944303698091340838959367520951348633283770100 16959331466821943415705525571824177625385900226868181381364885648817507480391 163541769325797167692712774157574611616830837793991765614608289736189176043 13794849492071686563292281721008837338069663024876524480714867132892892635351 (-65681650326643428797154715880296185653735027096546027260049280415352145435044) (-3154218556710395993434284286294014670557992291250963171393821150433445872525) 6201019890909986124662199511895891726108216445524004869541943641360244743816 (-3661502755782602576540248465872762022993239278582923263903251973009334844059) 5947186077906362667356673580689759666564354384713224046432822829286873437653
  ; W 18497016719056177747663821147246707362743617020863764086321213563991946062719 4561734850071508083006981912561101825677303086762390482057815756714731199029 20437228901194333861527678527100598171204040529830164834138920344893490468370 10006202049058728074896613076628793186686606181128011280450089499266017198537 7220527901498862204685216449536862345809288315722296701252595949539033090151 3628154450475140998727714048660994845663817835252123790331610989986789153904 25883235014038042514425560959307956098321649078910409407646097901211497544407 (-9191460730127945642676363735416339787128370219376161122067192080259952043736) 14680493292410427943357365780577148563323183260511140689422916207411053775036 7709936908479082805957191453159971706281719348802208284319765303013224458355 (-9555241905539060810231088008944883529679751112987400377915228923986246429620) (-4909687015120401231693333269282643688293396049599840258391764353323830358757)
  ; W 15355556993482021374059590258714484540634176437824121201462714679021539240138 15415171150853039052008846863730148948035439481552328080740066006169961189303 6631727765992007585683774450946446792634249539981502814336680224347165885231 12680975243935755709647023899761423479022469702172059905964551271718847111681 21524639376619001853486779797347953120961212654103234148136126938665051296907 12523699897698844167058667375628689225600469792506227175006980180005508860552 (-38503571541897827149864456753060068648174771288395975039361146872683213898027) (-40796250470385983146745058858027105328517210681026322622982678153989642459110) (-83806226052856765597199434656231693453198548203459915693483877436924777792) 21628829738155495749767936190300163774629570337951212413960930828398915061631 11568916133497061097464877281135050267944604361575957489723182162870846514732 7846291344145529414203010421326366825814221823797637904767140467735342165883
  ; W 11842118662227121857552062764064906075281863353200644131294202247407946123276 4377872022387262472272738982595789351136608404285485293091385376231144825105 4466311735356825139091101604540713109018944117792010282882123536253287363220 1719922453175885217551220946018670513285156385698522605215921876874515429902 14222260654459495293614360065823291401147474766086034756430862703291537311651 9442065260595248493416304613986541208431392241161716732576363302890049102628 34293402208739689830839376172689903759232541112772916436830561553111646128168 (-890987013872783220619305423817883307776864246724587830127089806656911644924) 5531280499524774849160607763590286285257865043015625133258552723905842274843 4737089247474873957355523142826615913168163460456427920772059735207569529912 (-1020775075072497318797473438221542218757506600992676189751985003086817772299) 6363324954131271330954713350654297304699445748127129847703074499439235251813
  ; W 5037827138510140508564121739184059097517073807244684441161735190885719575133 4692719464434911280715007651552754261449480113028820300109853884990215615981 20448871313033539573862116442647466116425114137320475846281682742223955129222 2987448830655268388797057872232109874492307304519772583336637931349576367222 1717279370047785840977573481655777270098370233164152525541570049265035045647 15980630862461554390407309420687315775788995939206117431098813871852628398626 (-659230299141746937847067122204584066683002436780697037640782876133041031599) (-1353412432370189278291833444573922537116816692593044983922423400695952223083) 153419638354954389304286942141590186593297458813966766782320010085955672595 2160165126983388510046565161789825720385712226845383614920746133785616664034 (-3406816486668793743333434676318816181661853364083293746267501781396600077068) (-3718308851077648197286880818718564758676356541034788039827130085977942725672)
  ; W 6972061817365593958130159437827184384885055751221378003135804056063704151071 2968919105937692413214304905325293536867246244668947333389089353907243509555 1403484546673917991553879487053925671690119151115581447126076348634007265789 5910923895182702506044095753171406787513673403065521282808264668204931340055 9444804154763836618986728886662764791573649081717916464673301308737273732358 19977860453436218922899329798594618262661457227866581807888109129852391756352 (-59330432082702041683519578091367519417983334392654538240984213385276638353542) (-6099480957181749268520690782315171450198645470423469260836646723873776690574) 1818106896957204815951727419905206419671750205823525698331545564919864801401 1891379555550042959330225111723684540593319773214312168063931112796647560817 6463066755692320442929018026493938168273091525385327587266242735515634209091 1652099896320602217060371730234278295101843948900720969585045477328694158918
  ; W 9988179074911821668362659145588725590476984476881511356217932684904672969807 15551019655501521904415253366600424025543833728082724066512670420862074723546 5604479347774826830283645281890639030423165535954642023653666065685852859516 19783006669155704735808347981843841028465896986413372817342049098753572783034 75266396754254967727532402055474107480913809608697202986468282683664561395 11612276064246257673086868901387216766617033186886345307017708035390150568848 (-15248901221109604596356260796254648400576449588376536021994483286401299563820) 29379344303504886709808118742336347836146519398082066951707530581933650631418 (-6490721613660077040325066114731410982642600032731879413282884442868663386367) 14192675951751318276571978882642586617225761986171885623839786120883784560700 7938725119785153643202458905752178303654915975075243410877765311548769425724 (-9314891140729067111287339266619867417907033145840289745459403998473598480165)
  ; W 20316881701282173482181397309337784891159546357774877062921487187064489423471 16528002204670901009881169842322810124659767896066339189307446056422457317401 16142793540700266308438831916547499288029689661172530343721821695184077128540 14426143035789971047051503024792198403495936181718301303873453106689945139153 17951765361507868991240690482545686678100785210129019874903981763189477277190 9088387192066009185919858822275090641376928111991307683454083768777622039159 9736187376236695965315132659429171899130006718156550804859126032704798566667 (-22594771819041388669880456007198692787728224973482735991040949868567413892571) 6377890907172557467249546147251959055148188317050343059888974903245351810801 30682907487549501377244787639801776729945213038948820426844657446553566742085 (-13826780820326672572427729067402968421436388072633746878815588266219724219990) (-2985279168720378322631416604476836312594849484554472234924097058037915228960)
  ; W 18883055042938804606174584709680481745350559515286826365579868451523916204000 6036598042857924444479865920761761876455404329138663720620784947478557289010 18549211989203099422093433287635038495089511041443546907692398252018327200103 16400784042462724934394848941455194336287818963068854490204166695260725760724 10536454044444916333324655944850488314219168802917265912915546207806542272437 733304029044627031851950166498450640010853587916809114687168277128079978264 18768702786488230961982105818265533822194682997200635453895886594286638645009 (-38253471605825663558872633532407633373599467548168670872790900660488865808240) 14625625898709700525883130752916666045335219335537960228800453400016338911099 10415583725273630042070684730402633122892293469272132682759965852097893319590 (-1531434852010024269451547430123878549572098999515442347522272657558427748499) (-2367199414724932517863994739341310215284122773120239567071955440939634921091)
  ; W 4954076525312182807683640115245278082249568237445396891332029381776074768733 14684698684659343932196496915570814846053708155360637056337085844072365823037 10806241510905212899601403571446175618904473047189162521287088584958232095374 9122842606789031841425578941957581709184770369635099142650997457363649037784 11811653061751195159095018246794368478225700045741597208981557206669861555564 13305342229629996998822382836622506979006836213724044332757811410251976561531 6804856700882721734008762750277112927733555094849484546669452707793065212432 (-16156633960589858062984531352269110792965754724953600224958631925926361118258) (-8730600366576097764695024939551215977079005783211842027167243006272131548826) 6647323995892815557178277587584550099998675531154822366193819530561474656298 (-3130224255364682472812558503043208366665926363013188598716157591519119370728) 6841968452833634472352385016590345864123845687024040783587327384067269767906
  ; W 7280580847757165088315122257656150765744162325807013100554822934892552121257 11130150393633928090746866526518318855124670432378222115226660037073599413929 2155660026660275079375937563605336999157554698831622012483397873739896986984 19206081502215616593614890528137377540428930823890833370600647895013370858985 8629185627970497274517156806440977616277621925674183647243200119549818663863 2917790047107283517893406906598878215865273129581446836640481367673083177098 (-10271967758827635814326945849237410927178071427913123676892816463464911539414) (-6159912153289622120171105252503359048811279177490383585368724567711819803150) (-3237966186649204187990841265785382081781084971397934245873349569374061716828) 7404336680931459565389921863790658685922086645389855876134528934077684489391 8004718526886059765304799442064359752230966125067734848652260055416467596404 1044873133971509610553128250391312659631164534856636387921485221642330477928
  ; W 10766425523370121058922324591950128402348276012945895696482908044024203822549 4134087521342894675272762766187446827804694553686388985323570001388276985921 8747524989343991954674518037523462420122668814495453005001070701016471630820 996795635180440448107443784993200636838966559488816688926842959135014217728 16531353609599901854022278447407201568434863964478996064292962121104404362626 2907488797854243823377627886433067395429429811826439946157426999225018619526 2567171292390659666737053661314103756062115060189167884263730140218676391166 (-9854264436336190983233757815456551074772657644822535389260471060508779566834) 4514991883761395499455672253075396279177871655877895070597556016509124074685 4066963772856923573512935980791247436044267875293411722586055918428205570615 (-6681651218539931094456741260488326914966273474744804908777762651521269506050) 7711791870408738627673320734236051238847514824203286651448624621978064684711
  ; W 15524691328243338884261710164085198557858947055991306374911714883099937449340 20689582835561524436752721859204217388887604872807558893183732640898697231314 7114413995618850116000146798466049977415705163067708409238036403992551799107 7678799999920139252077585669056857410470032362738526307700850805250025918178 21260070641006937542944707963349600825078416138746640216001369099723485704184 6544064632265067680913046753337846810218763960018501524371327965354480367236 7602350205655552534924000062931208826301141094104903385636187772835417801688 32986310865292714711327772438500254418561659032235760690940741594073486626856 (-8545354607380179586348447186463097947325550533564275858279435392145841640521) 29349033553118990344170624729096614886015893637194665950195839621312167395842 7474397458586942188553415496794006457500835607338602465246754723453673345770 (-3195673149360403685057170741697172870691884653303088337735616500142059033360)
  ; W 11268440422212909968244833474438205349948924447479170256401017001534173150371 12249660215034914609336959583849582715249018225135339796249651532931464746286 8158894250941279451496241662209964488331566508747744672151988673485976004301 16562994504353507469747707723124163939355601984835330216433982911808587558601 8742167305967875712946971409545991146146547156970304799083079701654461512797 19882681740700578039112949927446822103935824938192964295586865806274776075982 15709702842115532762106383214487837508455596335778873256067749768225353839527 15558997436004403884735875269388198748298356067464174525562526935981967636748 (-1054284072502538308420814015512571036918695072498670621651760098523535991490) 12612667643875941253265071375092726284279891894021020418751541372044687665985 4434284698073384743831947380203726755088110566807700151784357256047036810681 (-5158273570092378350909383046134490233748137779085967356967988249682577809845)
  ; W 1607366974870740575786870999205001338969450754389335239323586447271326817635 6781154043822895401107757466916310480119274886892400288456483528321485357307 14226598849405134065633210178526389692915819752666572419305534110387098359660 16868185829058805169016417324793825854128455839591164741036195453652523882567 17657894490504127656267325465461685009389350382857111610195156634992479154231 19289591263742218568880405795308267703291176638800037717758607885594862140457 4532199344252408555637630880844719453783162630569746128217674970197802340647 (-3743997615249002704384916311388482171466364078645254749954648251749524140355) (-1982818896348601287708383899944513602176891708999589906485758979827170917542) 995950485872526616732492915387080737364906589148424735768440226773950570334 (-351032225115815655554913629153901867202795079953614947557130296392343307457) (-1902235564304370268965140829171766267640105827738594397995380928431244240314)
  ; W 1648342006296775521228410013881298325713416290643483171125357388197132317346 760430759529403094601788610708870312501562547902825281883557495818555565706 18025973588155043327132978119093720200137020534468346891067446115752815763338 19103546286470973334689931588300446660222872914778766801757024614505091046871 4138203073436885101736298109911838105754774356028003621150092076728802899813 6138110244679185100160891192897122456986534497783881471613705900698693452584 12577274385555627103478522686467943520528606884665830711682232576027060574045 (-61650201305683738803913089110973456590893210976461417255239451527269048831288) 97713482174290781252735215633770844199112399821764859883963947392658807634 114531803320322842703621747078508936426459940241781997740299378419288675109 (-208460412094694915741530122242696672454352463085029011794899135672950299976) (-300334750394665818977477766756927338515333947430648972578810715959663672571)
  ; W 1754627098915466477886708538533496358807529431035484849929868070462249754827 2077214077695375794227106784172018521246142110310361725067898261270372381259 16068259607935637287737898186139552122934311121127769254226229988670401821784 11110867145343193084275530788750757079485728616120243288924084173511680060037 21973885507158616975439749190460305518956912329363881942642348877223841964 19486089519263132212604896356224968728273661648548845759848378642322883349673 4982169646028383025022522254489066505305532170965729986319240154088446265107 (-92626351058296401814440272337288038784403311687503821787816352901573994497546) (-56473334820204986034996894923665365772725633662711586228651581955762202164) 333031402503506249694797233778832790594333190295483963748429661487144009929 (-601576275717179974579712129088152566529991956897916229223558687525276042375) 826505926478319643482492966895304866065459628390495618861904726650303560909
  ; W 4528983461627486466381310413229226919715472170486246059470114015931934238306 10731175197495843080008601950897393741075976890274879985273239146179145771133 5200448361133447290601276380511065442441821805846889328275079404971556605365 10970742433003348631436757578632587613480859349933215152182893039144243768359 4281471110193361387477785108333911386808008773455685453093697458101307397350 13658439026502667714164306902981811955253807622986005978966525151914124775770 (-37564963140097699022248114213172339372350923088410120201122837758802135977017) (-40853796544584701205593038605513722306067307701556491983673091675481514683756) (-4324076193682215403561404697891007187996680364729050771485996784014227097542) 4440860353922212022969290193107159568183040802015892112412969874665683461861 2180002974319569406394453462129460913137580273656651397119659388643775964322 5357168672427527425473424555517446753520561779487046066421037053813433333744
  ; W 15201875161312078986391300930956866681194030598255859419650741729145741672516 19898436549358471613626373991105388162855461186692222498397309007929766371420 20823152331402195346078773378054301876593987504384847035690293079912629452447 7362621535378723994463699742714515528847539451046717146032859113400063324953 13817136529105788782229831482642604484808939127527057789126980648101867314964 10186010039833973721552002035574007525035323889720067435239921595421627039403 6361591300360527199796180781564978959582367591390990006790334646491261561641 (-12347114851478503340694158162587345598554953429347863817816970584507105591802) (-7531475671846630721508991684095616781110774275516154734483736172105004597379) 27639820162797596537342849159347106550230187215392148254294141143064234635616 (-14130433493128005119509771735417760658148704465025162802628422886682981245062) (-11696561561758627443982478226903194905865577263412492081979566362396000902899)
  ; W 487310450430808283849800132964829038205174292057468351223254925315871323775 1383440641105734341188826649189695500759212303221956611609158906113258603943 4497893808617746032065628632279932933379500975719985343118551171168426633262 20353432015190191481501771085404519125678084241006221282910506499836997745537 7683886920703711025958128484976718340044001014139507246365167387451999371649 10870952365388682941605736160967023601058327524467588220671933079789499930160 (-52672270161177412790446610164096481527681624737040602699200268231213742942526) (-39825949900350243955412371771457611995982347655350844409760902692693315694424) (-76590731479904149945485637607449612446769549756165126094415970789364190660) 61600658025307383278135042514522404502525230104222776625075478919564789129 1184539317048991469236402821521569758101108146703884939429718065556362210078 742611844439649789409305267445140162770065858002271459925760253290312116124
  ; W 12009956342533192780678528756616643815751460972709112722979089224025854189112 1730878245752982211796160061349838728724844450221058541015303194261589420125 6533154965664336897478226785259628815198228562436965297496453155805859598824 3972332282860566654762834941896186615689192975213773321620530677649373237438 9620790979304994655126705067384629352786120961334454276188919769281030548105 12919267221148111658193759853656160719475296391633706835589428621259832218563 60718768017576984115638745617926906773682049472315538712843319966700648884097 (-11950085923073534386874598550791169017504048798967563197999014139735284152278) 6452921446227704681379285343232570705261912686188643168225264058617772250037 1899446409421804145617676351465727619720089380034053184059843945587284763536 (-2412120841271802915743869212724072826134418884668618487178788803309972029031) 8827273367629952245050887048414961638277171766241235350260367973242843726405
  ; W 13880573814997227969149602353277051563064355856193185022065313246432977370585 13406184035402345869318207356875850591026014679178674007325365906003644717207 19393035274092447391057739599048302286682312665410150142751207249364275610225 14132013625234846763630015284203071954178476149694794595607094844147597752369 4924423266176230258886611461136043074257815723777292896891389332328277736469 4140013252426593091346233556101896818064190635430354316116801285517449248339 (-1710056048403832458442307408471972059920486195857052383120586384093912388889) (-6520529313710428952845994048512186307329768598065938379668863345777228307280) 591393247886701549338189961732077424654461098723648404923479959024022184522 17003240339611861532695534107942216838984686010453678005083673844779007108601 (-1932542520837721312978006605158549391146035318880328040387155521577560511174) (-14319291444858366196944395167737022777981210949763650891169849990148905630368)
  ; W 21679066567195278728432005631377775765233254701818641185272430222742925476162 10316530984515023552342877129693710395349782276693670008079997818489712553354 4008790179505749796596829963071905277998905391599176315461948821933800312040 16419459942390577846453810882213654547118002081501981361133744150477314013964 5078846253918132264631891401200397157333953320445566454702940971121228787903 3582323840572486374475235736581127501219867931517279651709947539314500421960 (-18321953793560805103671558996426140342289028454607672233347226335806853333656) (-62283055984048030343227594517706671291413930869235790586545501722211696542714) 16609424420183083553114778667863705248197362414007270303426558652282016184186 20435880875899677568351908267863648924892523738158356350964009886590858310518 16315361008598671688397256449317153276210032737809964771887882154045243543316 4985431715652493857820668577784121343527381755145272809314898032188986228847
  ; W 20167907333022658251389353282150329192848413329075470776368745067238408941161 21064999973743643997154383325088432869643986553660058791373360028924982325674 2104417465327561864243440062693528908893126517240875984811533449203065682744 3327636059356915408449384445099973089592938015837290272142447029048558494814 13925729101933616737704479261492418806146947713668007406045350682861969962785 16952516897076480456198640436934724257345808383495459277945579848066893035991 37212712827557169386389202735436121263213870047451611436961192415310917052178 (-1665975469781589073186467110598138394503150593363879106565859385444786034012) (-1689936369813423597105875261497590480349416228503118075535917910607281035213) 38818736609247736394029121415914123351035238948224435476298051079914448794642 (-10844728775861373220517056338784700141553612425939907063292526876935348037604) 13895601572419850346125993718053205375708929105611879201000431686707472993641
  ; W 11911383360215166886920950755541173811122383353457760939797936008313566956416 17629573804052747837746571162095858059040719109706262785180497027394713600656 13905265754505967899063112757563562627889801442327215377489603402725856206593 3107996304093326576174600710757113101959582534438111446748598156202117321890 8538820587188374950905627329734352599111633564174415173740870380004326208094 15378280194839966068816637213489208513411107563116862171264125287629013280415 (-11241109421658391230033228633643415996678445204668421712899953667477887829324) 38963784606330178165960825177213674983271855229549126714328443565007366825792 (-7717422542668343939010007124049333742671921026554183970630807420033508588167) 19187708514277223318198078366969965800205242642505470042903966240733816889678 (-6598820383599378481811707591693600317571979321462507331790160583066338749129) (-9385299392977254582376203565936419588100092903674852404486962466759323958602)
  ; W 5963415471949066398620744502400898040968389861324673645555990314161270757790 2925547893360441125113313856670529309439416725009054106181959509217105091881 15395161863187173274666910933061761567362214085512995355018489829168195943347 3127772353907434571555370274274848950739428371000678150702420960658289963437 2038712763462903159711781405317698862364884704913734307530323148668020721523 11032136437201362078637430318676432368651291610550929666142773304198474731976 (-24635556542396541460141763688492687951307744843346497824549801571242111749179) (-1184630595221684704592338956853854929425536614487840457009920544368818275124) 1233698555560055339820834639152659860604571749374402266842111479052354083282 1594121343896403690031614107056476979359221614599700366247466877483821774461 (-403276488520241672361040152661181564638826456128059610596329684057091752390) (-204525107370463325857352655539640532582862836980706679516103890083601325365)
  ; W 19536232800056255418107900189084506948490858405114953007155638718750348859727 14552009382270324016360827014540112156158030168862200197909600742348362823302 1525505840713850390390242341197927986041405687702469852075330880208762494263 11003284300957134645242001556193449698142558082373998547812116542357751562111 4178530402573186836523649518267686388314946137816120646242821293624944668527 16191544816290863289701587525846274589457571562792326363832346472152726660782 (-42173605421639443556881674454366268101801446952643273461016900846880142877354) 9204582441069178475453998514511915673548809024059335974845653493760919119014 7762314040059502905134862775018905519215019579673546805913914882793931820896 25976634548988516568439700518174432923720395805552772287125664463551760626381 17615180666304037969285590365234608586605777729733157262017490367520464596802 2191748786396548939377036140093486064948862922945516661695792440808785391164
  ; W 14000046928091911447236973098388596212611851589885068368437467940359579841730 15710205172556927433175750175167945924480156795195123392258912135751737299245 10197410930975196697679201184730970229188087183721141842469301767182504145928 6680778063186302349877118226012048136972679800169334006415304482817370904924 20001667789522869699839074477543646709031594766264596721976039182933999031033 13969118500366433019962824103153750721758657999609692004738403536707006049486 (-1622352556630613200482373907833180342223299840094053364136007582338322717088) 22109699277637701627807549324532591649146095064826009001734534659492776893624 (-2321302485199861892297765856803603184981242767579492865749739104604400200013) 20096963557428522443379388825814547214667405020513158472403157477966821002838 (-8649142792463300686277408382983756053153309508405033878226109866763502144775) (-3459488204354977282215370987872025615861261334982808440208638398215710331701)
  ; W 11088261982694751246409129122510427479598730091481680698740462322327534328857 20098918748578768984906537052376817474112371455174806649940601155210456375121 6847495721539381348911197771439826763898812295787828302874139582872607635070 1365348009624556593202616194562413695193914274828320319928274515044672101926 12331731010278041996489744560677519873827128812979607879616476535627692781591 15747656806680869009746766730250566351608382880611618064349730925277612643098 968778153896595296603308892189946148341159266263834106597716885312913834365 (-12748175026849097026814228484460940712524850608096261902276635178981612593967) (-12838718151590186413908985596228060716150840163861622648560350341494271900177) 20363633386018762351099936104968151934071655581646694533477228551672982296368 (-3183885509051695912837397324695211001281683646366342401439282225236593590772) 5768784426095420568682018210943758923510116922125260563442220061674622176440
  ; W 18721384327251218877734720405081901147750944728632777410588576719106204316277 3447867978418601084819935829656805494362187827776741778539214505571137498898 1676484204621573356384728427797375697908520004011265346940675939760900176933 8582607415329258392596545518806611989860172184330389067157545890040261123354 12348671005186298461041895370987737944552372325956982297043544475883911911021 9046792651441413413552923804852482019615897026662904530960275092149176747073 9962901175719879392391496867606563128646551143960727127834443436830183078098 28260694442065695422382333229377181884355028014842817602180920861848618531576 15469603453993031459939492876622428782897295324731231660264254497141639495244 5898039592446580256501083157418332843711997278688872332304423387849859936642 5559726848713664618069948797233775281763467425313257235456243497164697111207 (-5358498751370807958226315726341790784369764786723295982984140911983628913147)
  ; W 17555743773099911686298358116151008274221884432671389834841918723622141442512 13813810228668444540070684083178640227929180884010138271056019423016129379414 18331529833212896115383603757465817839766966853687872523421827555058095153607 2727683989433685814093172098219547683154980857339308264067513807052872248565 17383935750855716288601525010305337637406564626774708786203248927217217445673 15159596328628507931078518818958003461793252486073020794911793287249075371605 4071893001571307678727029253008085617546381452112293098095136205453815180130 (-7941829426896482398132890617729686519608869681439497668686321187906671308045) 5362823643742201896335101427663517967657575085664524441056242858073079303129 22159084612199534201591525864798135360622712868861073563507196469739907152199 (-17053470983446637189590128561032130972331236098051139473794882545956133990716) (-5815090088880027410066882417993468100296848407727096277902569191933242363262)
  ; W 3861188827241596368282248630261760852959385862521874767476966559065268643180 225373083499369433482551552428693066606111907152393528423727913629039572977 1927062954226910294880431647939234750806809754848833768312887204425398860679 16728801506101536481656261363580349243840427638585886188457053225303285220949 462593156053455655198974329765364820116790083675291040089780821238439090275 10841028888996895919926806749759563691914589325762282723233711952180744351946 (-39217492067061968570750552440172645775334005101871538314791704864902087201814) (-8000269973536400032398143318950159386323464794739035651361563331766247865336) 678811278723754393923240389489602836492414910818517721496329029611715068566 79513740510284168846653464423183350156718734014628064324311134124031943327 3037988003263428729295062940244781067647741322938108998973751163881746478220 (-2300953691690377082738068006351736850882181496028622633889195714012398929705)
  ; W 3109464825512290107654165878018592811815300748809051555132603679370965808683 19456276033160132278862386788191381799449414035834731251915927295787731864751 13087679478339928788395419517063804463500308704989413064324887807283914710614 13319435829268574401790618918805239037410900001152775802793040290160967522226 7923064975713833497197858058383497284288628779519483479267070027943859925637 2914391745905498435856832829898991049996436961198300380215139863213924463692 18706043248849254708866148817567594708318505940236085274833132954135169849186 (-4934358882194533516802426569248499683454250935969957606894640882268389038180) (-16852787486747504346948609696051792966261925765581282724480754607214571822548) 5527954556681644471732976786932287726082465254269235708510917634033710250274 (-4616044550071936649670654529062581895791300219964417254573799333176472779030) (-9436240924103663412786648479251658900192817451380387810427938463728205458458)
  ; W 17007810444940346859552034444042333028377453028951516801349298999915475847317 16751869164747105633833625219935915959644969650909262609383161492767745983282 493650841262357583595311078921857710297480678528814498480595560692605066940 5469762135718233920246410931200750685117492336883783724406108446460397696312 11000887615646940018438975401764644629075775648433460616238859256914661540075 19049875763103971436840672222062909625755074014819069257533669558284741917862 8690739006134906808245354865592743495390583815654408743060342417143416097070 (-31127939566317270265552086812545101552345458693434952352751832652745999895236) 394755105232026584088454456491184697899437541988492085711611051018021662859 26033393088763607998927637049787093654444012879168818205851701830102544341928 3778290728108316631621690407419297213972834834008329146152279834592073417906 15738096668469306094166867304321691667121666860665208561989436693368277485244
  ; W 16164843273075000711362058991756201896068539175002766468343574976117592635100 2534236353594400297592441400403219651774532287843643416008308447721082366181 11128598985446402324554915656798572168803096665293244617707705277682715735450 10376770833312444066381063758858594898591626657032526321488782204662059699014 17847757952934517119227850301950329909551334560618290213939327062336122217125 10707192160693352235613884531420559103114558900031239297998355091757444855802 268723332597478815439997244562837722014353331796946724866679586095995153868 (-4096668521901313632490382809264954106429654461735688226071872121480147764723) 11644598684306404440535215452098183995765923849580228487483613841455009543456 3743154141028609229605470869532032095720515615766284902326507321183368025878 (-7285954887879352357554873275571576376141783081720884144889305115624379453086) (-4855232069748990696859372488989899527445744707129639115554109981938978560978)
  ; W 6168829776962412317375938138921870883380975694160140086530677336810625360896 18024861564413853545622403500586117100561056491755894072267905955148393239786 9091549663761128798350082522968221952311493874997456106074886351156428253393 1042431184311988932919447158219867644494393065584347727447732259543971161344 16112840745057170740769173659207095440944775319912454569965289331120517383832 3811487008508457999863249461795114782145809875607523947821402643260928535646 (-9790497120583471388543724960178313587518192373516925224713574241295318335032) 3775309722561640223995143613275998258847212162691484518010541545827989421348 (-13104805866723387714814059917098576371579557988832160449849725927977253316431) 10160002645734344409309646724565583443906755626506229314551505631219639513580 (-7112675529381917775700457893154297248416273290707150450740291672941835236735) 4308225422681956288870945764778328555652115585461575927604534989561884366478
  ; W 12141424852723130054752633394735812737528068178883915110022686883169297454940 3611830347847919713274678164739179087263739620505001684394119154354588776828 9776052078442592493784931178322945691650226959019662469091226544546698265838 3129336455644478699718193782060482341690252705849976520555888811198194204716 3024119195859118940822143275724117198330672193450059898002507633866352940652 11086603469546286295050980974310742786638415844975952244943621796784596030667 (-4871075447882932208996525877744266981559724627773157302340217270176996367493) (-2078455321396720788253417436401535627856961357409561163222477517898298049994) 6138860930018390317000262810840514756345809364405002603333395666273812307648 4006970043776328021121750549544930869978745150608979898540462555284107761260 (-35328867730854721960495135572168502449971527235146750026374521848073865696) (-1270559280797124220412386556633857134411726055917835576747291977522472247891)
  ; W 15336191014437963596579100896705831316219755531650643684360967868623980039695 13635314228433168645682875790119349668024320533282522618441676147409108909649 4558304373393336383475298263849616955103638468611623123237912815473745538263 8447071010066205091781813346704442099287570941383062892756228372976229052791 12298671357500136791948209860383156730519138369693726243104556902506936485517 3542332056712528667437608279391765152268097419974871088792785927028306468807 (-21331865252393713221602285050206551661220755616137914513537811267017800599750) 10917588609156350612846906930409952522275996888387533473013776289619268914366 2251298151786039682999900345749615321697525980911014016116395106817650611595 19107407092798124213235179491531042483264552938130193352591987016827350976089 6968551929719194709349416306825214309080589599683572369371478234712168425357 (-475513883348166335442886117451352133872685732722879832993109579239605899728)
  ; W 2423400338781509535919343711279340722845602865370490805442747257396461072610 19245493426227641957289461619442170535135640643472548491375014359206044236275 16345577685725872308488340845224140881304831902115438121918766656360263269032 3804336483422643803413618939982989537749585463325991823437889765485246582143 16977790966072983048371856709230534081853669421708804665669324319502210622221 10988350061338591061542174412386300935943903534483556904221659647124358830944 6922504200979025380756856750087773383059131329157229865879912821282787538893 (-4943176674067131867530247135792605871527411397058485441848198213760950489355) (-16653513493581527092099023061316679237943007737343343071745143287754090052787) 4261606156530942121711586956049306782490694677697324369533387244556513439802 (-5387230013897733981941312015585633773866464066877716725848498286595041133916) (-9850068271048325524781092403240153513274432157952242182141992335636447264662)
  ; W 4221615743636363220958791868410529928443930630969397786585765042621635521890 20158749736873055635701777859965859928920920199098526227502479613839226661167 4009019122431423115532986403581925795210554916970123732569020858674965851811 13467179485109012160690063797241384257796004976942868035859391290159602237110 5717014268037856822457321969406270559207794762006356570652118653125332567971 755668046610257949303723460466383194432354088741818663130400238632884878675 (-48326865986588233764939079547720045287966581924768570405548225977995769665327) 18465383390666353298557112035943084604804121077194561538536329826906267933466 (-17751683117828583143972887508100651322681935387779219243514029735111479697008) 7776092010629037715600157929149872192316964465147693512177185225746593836408 11278705427213761658413904036296070584143658139644861143629908331080619184789 9498103057646480108870606164920207344195116429040871683524223052091893435526
  ; W 19458524074957042951144902643490679080175063444260941071144374517873487201480 5135608301437423456599896129414722551852959409166531430316382527664504326067 18464559829498591772038743346029492344836832882453555602296452106821407441055 807418802736445247161540230926313847332437671463278222749789687821100198034 3154289325704934703991579637168617395669247056041737408799093561051405755848 5125826059264825695352920172508049585118824610651079685142953638557682911236 (-404209529377263442456032283536975401657012000715987701505690731331896222314) (-12912877007691534399101555422482265135623028412963671846717749543363664012929) 16093557103347756557381736207789089428530878395487024567300437660338471273868 9131053448026007825408635280582411582025867119263925849479916017073536784472 (-15821236128786253013307415254854733599654701657506341278988896934217407320657) 7862771999189656306660422140486071276500999373199072485075999210099044907587
  ; W 13052310849211572329599844192507403717208488081589531250494935375209346186878 2390503678343858734256137484053135970926137160708545682285157150336751063480 6606478183952857033969488565883413767123419026635785215207976253570250181421 6003674965503265353533308384692678610967879088492330936660073035083411380812 10926493918173249269280087840111296465045159591231796088966890681738230403495 21617297119582135114156545078806248285447465253504383361488047202702307969265 (-43997557130769524765286455251902218888391668575936412403560520776029959686513) 2715459356186065419911903561617130524316580735955533252326781868575048671172 7522226047669725697783987758562835328143525605515663766096425243528193079391 2850991491516270729063634308012236261165763074190347979383640824640712738000 7638668766729314987711654043883288184100492336315585539921377588711433715003 (-1803541889037334767588935657089099182302272369128736654369632175149678212455)
  ; W 4106759336607037772849513960365739806975661782391997776117132138926673932948 13267088219883387993408385816933837905654452919598166679984716501727415291347 18872602607070843935949262973550708042753206394315658464926282377007132383722 14549256133530471962148780121311686759410360897649253757934904524197512811088 4696862607474908131930522757340511131261348184937398956499842283366861678647 5259863848732684686773531439695847440501327592984717150967841498716058696826 2399464852172704281501752872348631075363777803522629561488740698673731820512 (-5130808250134107262749726286515244518116862048553754867069027189611339371361) (-7271033975510070499895935235366121175458305725039548269108529177112805645703) 4978447903343917914184192424670729249102076834125672919802273339296536192964 2878301315306708308067796837582134134215695361593923571656473091948076811654 (-9038203808521511713221305335723860043468438300746053770376042786267941688942)
  ; W 928351834340989023821825109042107184768158694958704556457765946134079021067 4949773019769733379003135421146673193140609979514374431468757196349908765964 6991902388757335184329171414555514293221899720534490477599090164938589849316 9030023042983270136987733779079409500363176998468725513886681218687891292822 16758085311954894660426468732571767993617725867472071377208478871081048458341 5745406433050331945881320310343991184702167118273904846855979150742923186712 (-21784864617303367431038739118047914164091030423088405649002817674071548203150) (-72697985334313013476035813308944164378237757642257507302879298502434500891652) (-1079959499596404263947572049288121313239980645052740334697373769482280469049) 419872064594707082376066775850691625092866015181060486306112055092972087966 (-744211460730895899926769551467174817153908814863570987470266822097756939870) 2920771664252529588995892830447268764747051671335322744361259092391782445996
  ; W 15825471737695031783573753669273135380840873505928902035397453101600077027514 1824583795234354212162870696408452686017082128206715150414415839438006862718 6587737142320887301236535942414342216896759726951644833568444726132070693880 2443972347222010533819246985716706853529813580720983781970209301116621083523 7219302692099261667433377899525429779380064434484356080417848263392935198219 6996479755254852051255215477098249410811447044266903057646528061447224260439 27750382477026373896019389516215394091532662687374970035431813170863551951200 (-6205232774945169178734576547086701233671864491280394575121180428537936198300) 11289917200831349514107757860830286044531301883172210305665773727933066799520 2638393538815045656908242409616568504208500961428313120875858100144629023439 (-256790630575046972970300424182700738994219127315407801620105820376881549086) 4795487382090672823548365516821103507434828544265274469640010474930147704001
  ; W 20977539254984794585606193969807202399221166374473007325088300103203904641959 6985326473410791492410159615050057772184798453631050948187385541029497794334 13773480178066561360715125318842466583146544071275805875875784359467100533390 12299913617101183438803527631492049980718787406761853688649342918461585537128 10251374513439282026219907769072131749412955696710121064449067523648680730761 6121244499995702941471877526497592936158764374548476425330970416004996016164 (-5533681733907312997385605071633712803898285275246075897162057188999059239761) (-4444670185802709521725209671752511507520765328710511869786249464398575118252) 17875458050480617610625794911438957780023646944323293192539530583796056072938 13389376311552778694415494156794400096350729483964663946998569310217879850367 (-3741380229341273514379633571992426179477396074437770776947968995431294585000) (-11739094702435796457371429204239157725000254819921739042636874636519995289086)
  ; W 12557376283702396561153475255650697780647358648691165278862887670080815101319 11979930551290154983880934351713770764572172743144130983682054551279103719 4721613485720111612856724853500915198033612077497116970390581040821153976 14369620271586759464872809449141807267374238338805558749804818083019989103472 17377376885929075559898835115056988725231375116842780909595466549901748612088 6212790982274153358600193481375130517668829093508316188464249416882780637626 6489850618080780957893664614934894515057929946958331544335191455041163288886 (-39404558004090571004048119619842088634204577995446944522364227585539085294790) 7204212623875406971667372839354530805439982367552905242302976112508725586868 13745872308345009522969841144248190167759964059656571171441230848057189518 7900327048150261725718763166838032420737072156626608305489738864474742655591 (-1179863392282751534019911853340222799591232808068226943930180616383139952420)
  ; W 17102823296903787800301189237276300355247551993320654638852767121667937019029 7964539623758249525808851750370494663244814620060932137596411268778455959016 7885292048919333312749079326329617400085354223833416264407037279831193826443 14800120431377815297958008079048069770917656535642249509773391735045427262625 20297737629794282158440389856924195619467988170128541158090699787026187138509 15774162980763943310821654495650130827746008469887075613582971256396374029381 50935941842315366269273258333796169275573070125685386311974429792206569748912 22336697483499400565722075604974613970520963396739065494611019692772284053724 10465557909237997661353981991733645838042888876143403500443721650393775606930 12446509719752542232610722072357635083043521746433830329200966162770011095673 (-6000996463006517293271157091965388137195827492671829137903795117512552887924) (-3203906501935265736835526456240906273705616348626459756535750027411394033252)
  ; W 18171191581977513709768737765570830161813742435894559672498511013963434724554 13519812982429168841109375820134826680851235792155535312097011956153716838777 6105925403732204659574693137493460099825062626977096024930202583948799346234 14714181931463903319389757821670077502293736099491915671854658953515522423019 7543622269624946526515423042226772664227870320839413890904287390312759806520 16694390210319543570124129453438050538281789112078781557212487867821747394837 35714967995910233183370930210650896048134753903210643606026810054986298233422 19274926694061373591608457949540868732391769213740285222371022954964162975348 6734522332019588013021042378855840881447441984197651552367853433988160604549 22447769178612317133500812878998395954677874604444870554853987923825743943809 1424113390004155687346448726287666083004290284723063190232959039047813809065 1170414151848869602197079498355791041639527546736142965090723258336818737053
  ; W 4445776558915212504209269566794665404105891502184149991073552452608809866364 19666116354987935711704327313737201398650051095461134771613529124122358213112 5495447890974285295948910774666669894857695875500074533242531111348689317434 19178400672407766600695407951769856755252333903329608020605790869338321152660 7296569016436537421516478899485586731176615871777840036540526355316879422702 21601672726194702825087290608607602245036895905577091149828397053493846019394 (-2370160467751775620889396247908727501408027172923973326147145477409397475911) (-4290687934284425559206571550226778789452075210988136875136301037955453644420) (-16766590421393912847614924308172304996967069650640318540411452522494676025650) 7988869605279337034133674303391277077370438369992574270959221390136354596986 4135000344222623156740890704975214411718199015236594407002327202965213972190 (-358237857660359503855286701752246525555788149714663940701471962593351336885)
  ; W 7547217914208598125539705639956677505048427579598094709818585568728310913545 3827126087585536535980799235118428008739252621512013611169269023334191058623 21301421030027233963913501054013644092395013398224626685574103938337544695349 8268538042420304734862308257523260424476847160660792318146907421545370394580 6837756648690533312132517088302015684612058350041813058308839067786058595813 6744119545494784393309969890044498188849886093148595522648643289421718558056 43750714135827308714952582757285627769197533704420188885066650105245885011036 (-11442150409867600072652318454852318395895468570530692370703690062634664968536) 1933165873662374180842312748943000924649968042470510558175791074354604967713 2639239224206715139066631258146115527278857536148337140561369340329274100990 (-7357582079690587428946043980672917519935546558656102250325559032768723154410) 998145838858496031163231930742340667613843078623999969611051086666511760935
  ; W 19055191384035611711501642296888215937206304379404417991950841491618819521440 6782231063197728427068033964439849784973590419669516915631231196394832525186 7315526809171926249664588632395345116599126674449787500296396485629276761766 4985548777923500269505511855718541491440719819719264200248194462787693205036 3486034492052410489813288967561892462168701312239404078057055886879284194569 3398449769741536301691059548670201007548762763833062697339268868392477019406 (-15982256820195774696914227314637028214041581753969392723190991627205244317410) (-13798719980998752903665413258801936894935870661554724025445061855892200962748) 14487305460941949046990352440329937172668955671042293101345747855360426106336 11808778957424300893378301326703166883538915879376147447228860989608338727808 11158405940373104244474452566844251479448222358859191875299153089100005106638 7191694458970331786136244958276039288109220730036876468740177841600653091992
  ; W 4630253725880812221705139804892773385716404858358463678707260010833852722617 1968636716943669991112318326691467444769458814714257132858370343665613533045 5357870928477156120158421561388095079542448904194841578087776049949995446342 20641303223309604843885291359495433651290336161068278911713032916299124415128 2189094227877827484981258091067829511440962510389666535036871549495223688105 16958027351249692297096126750464334827919001105213036602352806729182612415120 (-3064745106896450707406425404212996412572904596291875708821046049220666111178) (-7932781770760279204423005824179814547982150222381051111742433419740495494774) 802427090450979999580425248844483302979349709763502939654021528716986937130 832893489615070018892779588434408415039295700678780169830762531112830085510 1822208237625840436601879974186929775167344047982926229588130048106477402278 (-3135756602676081281453377655486260966525944693716937252748573697719459504870)
  ; W 5433697564063660415753618631439801747569944540307855990882688590966188783481 14021378821731975510665165136706171155736324265429002788246071979440712408354 11753718318664810878915812580485331887607919650980109635753275116134231441476 3863388855277755819923170365872871444220858266840621622094288371089648623379 15120157377694210468313475307212080911625993176226054260856249072244702519454 17362407039067149518553791052516526859376340655507403467656169300855166921075 33822256028982335328843794447437659854136748436313196541898050735005986312570 (-19091656216189214522909715718912126595587513286622232960818488422671503538372) (-7633047377217965326233466653378549108611420955443157082138656452709517390405) 6961539342793005018176961947600397152933573864220611397640753501866150767511 (-12335507932631577893793005433255399091964458787605608190451536451605743099273) 67959465569994429125980184774230633028490970627950771443700375441761401586
  ; W 20147000358644474519933129210301870165361453141855890797070443022642133041807 20077583142922424336246389944601756898097728991915179534027216894096423816045 20643890120208507841217046341467227655525577070167551087790091352590220625291 7623233376995538983444994514941214881508713181671646764510906075130469658727 4415704212366390375226924361638278332706080183637858408123993795402100208330 16328526322918533467502677432628978624049818552007488808174261233058363903003 (-20906706620337136664541483554566264162586163665078584392544081663406731501353) 47253595245133309999231070299509723704304771337105159653161320201330686313042 127569791993232493006020284388353440102723807125682496116226442628767480307 36960762647749424534722220955779820323100014191281918200322839069026237842815 (-4734126174110489832670036999950224497954133761455955506850703000093642178763) (-11615493939669062183428816378684247896935788763618432912680965303054589448483)
  ; W 11912866608821679334091953625714723551902364033020867105326939854408564486090 21731572640628404237853415102099229451324425108299492497794581381150408151707 16763811188283576771478676716451047317467825167836874629295187631598903736071 7451037312329322502457177990268495875764069456280254327955912877575712252364 10338123884254522309006223699426495063962996700854495757866095225876904944124 7573234228767857773693639556373152811867082216841876321417030164775080735404 (-3666948501555512797134830543099287563582887294236132650678083068950646683848) (-24645137722523732304443786330424635250769756199675272633661666001738262301243) (-15092342520574904621075491703698483553147850258375124337920500448131490836664) 23655194944935356352591320471368147491853313595548136160203865137905282881743 1940803184098948022194358508072592924566005903679891474269233517018952169135 3946025563365532707916162846170159415210047627938264578645054638486324628341
  ; W 18646865247550847203527467617214503815209769595519800989482981635127821190715 14819980893554616953980375861731591063415548614389297728027621982478318622769 13035680186704905198106493004249773138963577995286426213872677559697852027393 7678995166408187377330446722439014910809100437369364799616471378182612004951 10853862013555938189801571208921406492606404573004201780881814735659845853588 17161531014121802993060683969648717660027728507058807935825935728245189790310 (-23548961685928398673144602069257405056901149915183629574572831224720988849749) (-7336858592126928490524563931840647779066438688216960272440215613760601684104) 5851257710584492525955804474576208418592823560348795856165794819470302869263 25250650617453578190671556105550598343678954270551029558522722736567069647777 3330385535306026001270509785716160890878563262887824821335229779671065533867 2330023982443573016547042690971362497711229003623527247831167081542962168861
  ; W 972033268632219270443079048692885154169901634445665883277925052493559732381 12864341707492347976704170310377496934557160106841295854874630273497986560534 8837842137599162730251915102778424730104295121905339792049414049931125995707 11197910310588703621690298768058561560241609858819970274685879871428213978036 2541553314044719524588824252124546713866255302216966127294761218776370884565 19313403481930344940042291228026366108934236793803068815906611862509273432218 (-34417058799194078019188478463634689166241984102322033925224587401360705640496) (-13157146272729152538224852436476548258742822586744400039786750521969109838738) (-7517571869759338943610693332047412341323321833181033911368973958332865442536) 1142583092846027930776112295020861526396984827588988968415229831556047197590 2254587788678078122580900691065615285453297259761821426746896102382133939941 2310917363396456892162607342752348869229340444955030002973363143988774585517
  ; W 3148217105455048175859604962104569517607324074670164465365138009947912014436 53031009250462935878521544689565266815346112650645207627686870978044645854 4537025958466482518846841735042350243356630784929541639159499420133507964775 17114691223310619578121095317027859824122100372837828464614529357065422470238 10375405398082701559576294492812113783984141519122147698192106743867424020089 651720915575038388600939925524980445043659693420028409288033284429619795332 7118503326872590164895939665288381259280340272364418218067340595105530765219 (-21560298268421708822766233931026829088562179183715169637427404407074850468212) 452684060258009585301760382567474264374448560502591427543870821134054949977 15255050980510541939488022157901478210710433208470640222132289809117263366 632927732344497538254037359284152362876682710881328148541686846604037630882 (-840598962822768130960180584777247578527826011642976098029484474193404264418)
  ; W 8670601504959396911956709921127846227852955739347218281934969061012919621490 11560867643434457327818148570701827062346294480896422930572159382614965970414 18280414378764466782543157908897970020124141549210354413071435702153434681802 15784505661975657202738259278878662252707374745407034887388670525889224573200 14655477713490059174940046540456380422395121541550361264313914207764434966359 2397317679705858213119108835415811812400154319657248544490134533416340372671 44856832590025717580884491458198840059470901570553741898728809091356640340107 (-9808909264836541407129478064694512740760034153411625579229774590741146385056) (-2671494946103547583805118133862686583386728975277011048060535980769721174056) 9159225523467159323284237558868627809445106148587088774960851230590201610868 (-6146749390704871793951049205999446392912111076276418477420070232685972211270) (-6732015284742980040401736832109536222631039728593949462297443381603649118567)
  ; W 11650489395647206471771227799510903438560404772259840311122709867914601878014 20202327537181135189052013580396020470293305294727878297092236598565504113585 17252080952989803135290152708972725364436547278797755552753706112720986625186 11362462122592329946575539110107133647834709711836892212397244930775085492644 11326461770210713550908326203700173853295860998525425597148430100202256674677 20877979378332297575871580117723739783806026008275394931639285481913670335138 (-477179060658854801349693137590007410984349355213352867386264429606702285610) (-49491156579248756141788043576868558616658830817023288231930051198735387454754) (-12445043503785341575536037472066576967310094292700400410336963840874714974293) 21506249187515745544538561837508178646840930018292359873026253548492021089992 (-3534088357254246797350196402875808052897220508738013958977863624814125876984) 3302855348915092450098355407659954071372106870526906729865824946686990734745
  ; W 17823149526377655753017182113353600272945487802698716056411438449348491739622 10027149902385037117112935373367379353082832462011619150152615348793822112992 500747661657476663889691981524432264077742407105357614456932599912454788905 4348856821641001540732073130604860314618020983851379132583138316267315627881 21367673325116299239102104890528679953064460904129890449637439771303435956009 383495467491598513374661347565289665481228564598554885818665118266833222732 (-8842797872638896014121774099059090026995900774339562110794470543568274773556) (-17155514284135969515091404471605108613837239763309112390533563454649228001014) 9919522784264092128419297219211368359271916442264409721311879652691947571816 16329807109691864142761632822759567567308738765409741867408203939482776408181 10427289556551967528116801402117269939670083182598357757737571482455434867400 13384933075271293751211477589680989216691933801758718873049889930996866463596
  ; W 15046043896798327112129018524739969260469336024927934155969450045060260246776 10753842687133385463554113593016591182105542830148365401167567171716899482023 3948971124104533071141447732919797618505474215999691565781151321604490075615 19718465770687917396375235513825053581408363365219801632917683043131425351630 13899815524993540854445232085978895567788683075913573809068853885078612929721 15757982985795196789476374793143933697885045674244946352121911823901029237456 31557362924693179069906286033890579227781835190214670214055958488486719824888 20926453425656306755810237627341764527128463288957090504046535650399882398056 5059259669822213776237134716975663411807895705312955250581794196674770670834 14784447529869377976276726965659175102515820910108284547180835640623347891088 5180874311512545447164067407773277471992819400198568950466845675688569709639 (-12259251012535671931640614156451053847174648406775017292885940968112296482274)
  ; W 11191508489020524741933013818288519732459823614252269379398369364775828687931 18852392135815658292797549727599814335510898838388191081415692489232427424215 5744049868557741973728573700267621668803781255106148984419100279621381061622 644964969200785167589119007331291806839267436537366316290130494872466795277 18218615445479006697838135060104677256995705518191468474254674569921300541421 10479467438285574599543679106303763335896543973839677325717680976327377656584 14964440365780289206385841145435840641409957931487568300224914480625078136698 (-13483354098169612070857518408878813638925356174332239865959867320489187202112) (-10515363354217247962908208916849967877181085005776663602080173059130240467394) 19278542170945442249503733601282182069777012616607518182576081853850855281481 (-17345876402345229413322816546084749956638087023349605263386938125223549756838) 8206219146132400624529720387183113118143187978956417760280210872548031538206
  ; W 6160994778545864904699281267928582005380364458770123897300608158473916602275 9890496839381938861251184345246804547976869209208573807202647003217750843158 5438317540379183925405509912410254493777368140462973255061511449754680547200 6701520883820372652709488671412479210828260068310281314039009888464568335144 11718113281072287955911661034583095181623021916530125526502659855990087924062 14210144545286921066003015383725803668184433580476932822751453357788763353708 (-3679558820879203466414502172452693406513994602666980849127956221814775710373) 21348535940411433736760541795185446586360326551224601799589028012946674048584 (-2734987519056357967257656700614221479397171298679585088610840507143936702401) 5567856656328859054901274680295885428587082209152274124411085873412043790894 2822792252918467962217553935218421899459754911395204177715784417588261144591 (-1566620260071794323098704937891091203748606852045367739243829052096296571127)
  ; W 4564855185023667503052997484938602388435391451924387813422909502410554912896 19242738310433248203684812782977925123167594431145365142330521289742175844732 7546785518673263755505462141671068322422581913501906552251921919484849737787 20677859475481191402853894277348307430979239659745895007950795944079506677765 15433206668544864390895753902217448484265679632425241152189516062340620850138 9888152272970737011836931452353973515809755641670054759983824557811839688823 4757370485925331667561387187445752503814891631863617058811173670893612569061 (-6178640945482310135455912859937287152781645917932348861221197867078071469412) (-15964966985685406452178497318694778554190177681513494508427049510716004269012) 8026255397910205469708762495371600799213905100565544854423567672495528564245 11847372883814114391944130179984365265214838449572061859532624540735383689740 (-4768434809553081116378668385491135732907506421966145296510088089250502555857)
  ; W 14984488514551909135414023551087667298709231594226381874853768037172468231982 10348433142959924392623444240144135226098585221448446003857509023565763265634 17161314699215513972473860531570518834322908620486173931595764838194215442152 7596500464138188267503246565123683049226287608967682714885619900374804029325 13505247951424458573949563472240711373698074877549606078965831129278842789122 10328755358695333848081315428772024927055292895708616863252381165132344614233 62578040695877810615466044791172755517646195694668409208285296600046342849892 (-14644912405552852283608775574158891918854641368923799554548494482609806042578) 5365658093986497302236704387042732593469679893963272260426253669301324754574 14168883128923456063554565771612844154503022902065282711731664514419357155287 (-12766688165093330633462838557492989137994256588005364277390682828309813857550) 4409772040610120410608569791165051359500133098984240696136254346139523555658
  ; W 1551485247032796355009699572659397846999725059136720312444387014453460008509 2040951445856882106715917506241110772073764825727059801804527555852470749045 5420120384640258142176074029865004313912956128144983429771746429650161273594 10555751102076280603383810009194217087593146476148364677867644767095981558643 11272052747614588156856841850571040303093121264769321584910535040206305321093 17758000824534577167844803307037566584978823106422488175178632041774974003430 (-508100994442688768284168653520564970073866231156795241855636484304673971605) (-2138648987104531895362056049501649562286491214389503331224600354545528483153) (-80334284614830920113569052768559343549739057662299341853772254938469958677) 289333965882764826335525711927435611053144095743363055970359118341141500974 1108173770356344214192845439792492939391797183315355709412386322349262845899 885040152323465079128868686131384799488663598656531849200765940446977418495
  ; W 13632736589399728742594842539800021622679057699748188055374444326211649680790 10955442702627516795357574731850010404820461709803421116081777487551886387391 10887496567891632753010775726255089603692638736747299974144685865053114649985 1483268193001886375896903227759749710811069225734812714855295942818035511302 6689804614684729114540759751854544208723856439937722931902586913687743258585 10209661508117680777662703100920843903867451253347303330788419892938928543835 7510098492819715510537920086479486499597342510820228562901446478778746434193 17720942843846959796094781113209908142480815072269343534702780361067440883078 3007540737319676116890941903400322566639728011631044610924756742756173651362 13646839123604100748847404983627904914853854944242347402177046314318040190424 (-7946200480355887910056160429650277075079794805101660706611611811958318057053) 2914132649907020038605321592838021059009996318939823266268350088940369462268
  ; W 13492268082322893690751506103397045160956861209409529684939226709971470580328 12457917505846174037510258504064688171785392254544570507035043867372552511462 16589157709883913296542941209479791332184162802569333528502889575877645625813 612283397228396157208445622184154244522088004549851139618200292513328541218 17915885093728175526573189857788984289422693109161916744976006731492669464477 957268782742462371646424250265742996788412177364822625682110918047965929461 (-19319662182504862221017399277640900382408213381929465283214423081210886480221) 15775162313981413830705718785798746612771134448698257879066188519861637543560 1226301699042917789736688852782324317244921871263258539432699744399838156179 15358525005457935882658806389098198017063703072810523577203472083876237186750 (-4010326360634880496499103375156112742077445098391357161956209116089426191138) (-2708269646865631688592828246796428701597129075836987468082045476292659851160)
  ; W 1604267670730072747657987818652472303111589992502762654517544336618613990825 19574871619769469428752100637836436801787429801988913480234888793415528104324 9180429249131694219740475055844949112561720089200871866224909977050960407234 20086891122710637463272232167542832676897150924163642558844630258025272306194 97046196098979718755549328997534208404702140081719005921367589793918818361 10242353950012292864072550560493651715474224683759577836604632704958380341259 (-36753469383715120850880574919201438478917634505680060262589265004929907901211) 29400721692402283568781212007682095126594053501758466006077533036692427026474 (-17388418357728339276927007285914914766462588980849189741411500928561017037117) 2869424821550231818851318213717511290843534985209222448142097299341124894590 17959346116733579678234127983052013697369231384787049810820837265759179092067 5198335269625711812002214458184428957212885473973155809495972603668498219972
  ; W 2017804997727064457980432288908345859163477730014769337865127461023404992536 9622751543217724450730727717098432158448350657643593543246499767448515852957 19552485335646758759105204464495611745755622650008857871239805897062558217043 16476727725387745956203198114876554571287447679138069535664880559444009540862 8656175980160508959221524267572965696908663589210722643723011117123415033352 2580526474476092556376504415736684274997038647506844008516450995862278986393 7984507826993370464052201717794125488264820076347381229738649225013285318416 (-5887746210386365711246523978954169625873062102922935308505173580995830632746) (-4044445722390137661613674581943233896761646500856005228651050205369558897257) 1774179523635644332731540077999628646338880951037012574387005635655091959456 (-2543305661257708483944764769549969818229344594810078938610856420257538003067) (-4227069002700143984868028192955141975753437589938215211525799448339708445511)
  ; W 12116950139736725380601103503055956486913952417083592721428843271692607224067 16897829546094399839828330189530460509130858755800419633339564380829439658904 825136534220935156776028855192583484848853528484644099540345681647091085121 11871231677807349986717091581032162618128092190540510666785071577763410287288 2262740489554235326586415031311351522083727131801671098771371692816242307280 13792413422003311565660971261333578560660969174816946408398625058494847302530 (-9589123600568975149856865723238660198701645505447280326215961641931895996377) (-72088402842610026156365661880093876666633311862578232535684953278934735129546) (-6337473660732395917446284249788773530869112285856653728610334959919028083698) 18708688429551466450390991612075359483791247344502069571459802470864078722628 6811668956804731444513290744771072233908968397627403973803727654288337261762 17007126431010506091874640306493747246157726310673522869029291047860308755681
  ; W 7698960937609830009616094707934727594387115845541754568151801440449521898076 605919466748530505699832552802074413208584257402070931631612290534129105197 18026618684452997941366250186977614770306515377059706927948563175868628178134 18864431651050712181757116935880414680763518234386308496193915252169612538638 11391779122999221716134218771491021966332208671940433301741627031028941605186 19350160485961383176401923967398709724730264191161856955418709366809888518743 38391223435512987783834337542655773510279000503086902198603469159617331371 (-4198423591863361566669770114011595521515931719405612005749335208224083797870) 2691255824579912891556289257200249229398398338634883101365197982777923098617 426251694404953169252723425673346288177162124806476659084992996937107156446 (-5856853101255979268901742066249847873331454044387604243762944763311630447488) (-2935963690229634502563829764146583989782233903878740623842546189447041411198)
  ; W 17758146511120763251839843256285447538033183857098062954211002044093164374744 2573920587046824865597186296569436649444340587949395041612935433144375578574 196948194468406909174282546591708883771591744202703607559610165513933586799 9754467348915592333310953503737257639715550352820216821663942490923644597580 18964389837983014951425586937194375217637903202735617450850378350996480960165 9623622076090970733777791845333775151509062671641440888806861890807920292131 18169828240589352473216275716808362626101676836993607955115591772060140629796 (-59140537892951850505198372900629267962970144300499340274613888345500827782480) 14104681775036639700492426462922411180816843575369765543045144348428886581271 4176494126129606375267535645167762008277255815090588303293538501739622388232 13394111983233398327476604444216679325119178101717816060083381470788102009459 9487661386926928085998219552649786229635543754256562359661575056527091968296
  ; W 8289689333364113657506953777414596562185924039556152924046680239086517818215 17255210980521449283781543332413731356107487339085129275947876487083034486570 20696386201997117130110011460001601855029603269062752277678202653085385097131 3336520945326711657190576226892169688822338186012243475043820739802001692059 16382964763537838224228420854327641135706571422016483492703790798309615352599 15251106848569143025778237662254638008001709932965885706251999481690186380872 12227344024104603580620770987970792282480127555904062601630088768458810362929 36663336860436233844428360335410723303193970591621319217132438612553568611770 (-10463304801559538564074323550373793306934738175497759777401977722029108042788) 13070061333631050568157549168829179363423249897533019252976437361568527256607 (-12823185190789564743704935914170255446582825365845429467465626480906334729158) (-13729715432970344052801653961370851515905476165978729137230646368131012839316)
  ; W 7411283787826830866114623061840030800814362761819303738646242027527296150801 13917299968865241953626557888492863316890224463075223454223744694460772261259 11002652446315197812521733070352122791058250451085518646286455773330553856805 7579598680210160708190236271194845088033303265698130154081747091905201818243 136331104372084133141298046537225818483129255685467328052909480518804440703 15009696011384339363814621579327502107468556577885982119098164392626627873295 (-4886250088834258335358927345353339325817129583026658225366302971628441804691) (-14289210900383262234556169001381099628104463096766703611423292332813836489443) (-6339664259582992259937320722517768753095853551971261742325242537621128041999) 9424699847631626468018025591326493347284221120965538233280438015456732434152 5980160135329409039608722174593720225205135258887275097495979554680287229560 4726918824636338571154956775720222386613491541656128378738416684617740992101
  ; W 20516781914793609329854326696133941452527791453404213187209376726486736564702 6271129191414357607427890164350237035185618774892944531178331546939042465799 7345850723378482254812591118517108726581069925642832659499300026911942301681 20940932038161754050988304037973726563885851374487366641822438778799060314685 16405060859331901551880670349253759338175462277346250584361524889474641803603 637418624156046215684840741306199102745576644375988367878285608723483001466 (-17063291504951600121990551674363109261620566399394497868283775463406078149522) 5356166787966062109692189873709643091520998754679412645673300643918657297348 17434532366906522928111125886006236108327736392944810461657899086929656122664 11756392756887637908840768494883577028414290545525213765645863749521173748375 7255788052166171189909136052331254256270960585729931977030310107500695247300 (-11476448248260812335384108192419881096108940754568070830060530547893445499343)
  ; W 20195614179720327526442273757043358770756203643612135998050342227956478065279 8680346799366449128834498793863085749329758018947975012973348559805721476195 3511232093161141750265578908028575872961683145302220619559882102515089976925 21685726936532802383899507859979934480096247089495763166872756285015474718621 8469244529523776030461319750932392051451191445051497885305770232020411996960 16983846803333823853291802415571491132285846345887397273832579405133475310470 1526873836228959534504549310413575111648128019301811538255798413672225358185 (-22234745779795229652554599627915889016037679360260929409882287625348442507867) 15191462077874326895157840578713385677055761064361126285716180340588780668623 16018182540519671952609509392673292375469252494800071180195795979127308515488 3833453278355635982581926631454705671958134907209913705471756160121755080607 833517301955050779117543810839243676256306906284565934530365104310986734980
  ; W 9127563222472254533085070281087264022857743386838656309908382716229626452255 13966442938896908001654579664777816187435721884420932784916770912143293618617 16926171925015802630649193291166210836209460490561500173452250939521945660252 10148605045075966214756761724336003713036220059186945528003683480384098064254 19036847337040932755658577597471027820052835450767074348925358768420117060676 1441141845689360958416093714836687332236769841410723715365831348226644302299 48154860455870061020421005537512976692205334892091901916025950470007227073996 4100420031784068518598227490218824659531078714704693828328824250545599530130 (-5105440333404199991543775272132156096493094794432420866873707807780094336202) 11648225183195857030719115228616665676614483313431707636676317717666922449978 (-12955734623261508069881089797009693709701862494448581860623998501976313733620) (-3748733176122579217183469480093460922196189810117125838544529435759807373921)
  ; W 7463085496513457059126627766219532794424191809467487434401709663648479701297 10827114530138849897858854654166945964163897179384340110633702755400637322512 8549679783391586594889310613484323397529666486137709006454197484551465039470 4075261297985460660934222563300881213412920056488727383312622834437009555299 14282417180854328125303825079321838587125468457953100823603682736691774888513 7792533494898217370046983042603228721013340617426003002664481038462226082263 (-751150247973956946124817589414499084369480282716067776311138141073963850222) (-11832905483881476919000246707202665495160123059730114625474221908765096346161) (-2811041721381631175611003465472258298510928584666497595565858917004802771526) 7383295396719929376719979477457236833691415958407108717725560607286466814025 (-148130269561672454689260321471889937685475818707736954630001206888454204065) 6214255032203759644729721294452102461796898565849121511926504197520465910879
  ; W 5179448951595359913404804774684283599747714654331863437569459797447919435103 18538528998054080890103362433659060236790321674478373689457060238470448383053 5122407603422215705656542757705875572959063428500788822487434235955458379094 8138674301104104595729485149537740530123059203323508726161304948494717584046 16719426542764831483508842481569607088646753378845565924919818502105371488118 15124758884038743202634806740309360523309638563886884626712922282006941992076 (-14183044569289955632887111725523873570924631482880053153072360733068868378159) 18330342758926583076747214956713387829125636492826656856199851603150236441872 (-14475824661885467543763270305270445475759090328003177677741984460621198283798) 8773601896260652469416408429449753876718837333970641426200533971418733535678 4252560684462912771322015056062446640528841863807761088891531893023555471936 1941240542809908889268689412262627374289955276450672811478365407879513709056
  ; W 1706525826222249612662483094566849809443792463656234939014046543068062515738 12422985128999850534171230767267523443532586138950592293695944601415040006369 19710610787579848953451651283963052242629739806035648454386961852753964373890 9532599873390002497443619901926756068877302294857498240693026151587668772636 3510754361377071738141791139112190872461681614343139136747193064177506566575 8195695615843608490550755845675687678213109087329047882795238028407283934671 (-9079219606369082517273618553442625712300371113070300808825335559295570357760) 9909169797401705067720223545757283356789160115177641941702613911236316613052 (-6917792808055778687970533734458561614690840315624025979199938594954464063965) 1937126254084893198097489447384500265441260301903930006763976940079990849252 (-346232855733363139609349658900674537112403691810498551746604214137665394457) (-8388421230503618060031132696799569689050180922428623444546894407289968497077)
  ; W 15980540058680198276396206081338039516874343987967955914807897881643297775768 14503124095406027806485026903780385707192033357948931659573538467414295554988 21350915036063391184572397696185402495077878758599892430827828118335356466541 19457511085277645617440636460855692719372843851558292314473215761399498685875 15267997308703216960283766340597439494910141628755691871886313745874337578575 18230920074985801896217541035609389733612740988590077741713445935124982505794 (-46528724918497666287090310810442507590059619033203517839444966095128108658476) (-34885536647283166012420912504581127635565226865033835567107264333193714223848) 2057591022908415235117683011304690345647766249791973269584920657939161593673 21177374258838396311616872921653784342475953245331684023271520921180064473987 5378653365640662270762364206106675242632071553878640118589459694067070263458 (-8333011395129249608302194283711711873309834736676853033582455625295498672635)
  ; W 957439868919761296136532034911361945562653463051937467737272371677495474453 12452440899367338504529416808252843084395318816074429033577988974636196341719 12517419205822003443727191569543884519653819267039906920075878125922638956414 18196719008872480170919842960254975770711045396263585990818415923400751591274 1722262947358467938674636559809492947796361344351477237711028196121713313725 11387693579082231901897417646625117773340880937824600183942042125918816251065 10135637238847807241240904004900724129938470646922744877733679413168608023819 (-12997864020552108744335084057829417502929366110606702039319234788221247827091) (-7042437995238051689010304280751401702527866791741937163821953386092389710876) 1089394288269745526824737536732591428657766475469828387863642129236216669455 (-330880727631829296865031101030748459368861112624860287886149068870100054336) 5080614191481350662318778351218974097029238042226802979158552988606112667629
  ; W 14778832394279766928237985526420136485062668240864807571283301466359947462707 18904701975692955717878786867538102875182411836193511998425745858612984783707 19954546671896326405870692173232539349852883357878521931205825902513179819657 15601875347584021676325909029547466344019437062614514878441093983571656303007 12970916252742390566908810252434354001652954881809490361186480410144652658139 13337600165337172554545157517718108954270279263852632399346674100329667256310 6562818333636395487422540746784766235583985624554123067922584276801634403160 (-44085055189906642038877568211547114457902374653833398364123307934097901652332) (-6349247432298712495069173397979817652756124298876738897607938671817264341795) 25528720930087029231763325123358194144396879677597346683246276999651842283321 (-7262657278474507397962892111718680734657652388744947723058981817972400899198) (-4671362582209975803838386419210627907902471273995311513792648843839766730529)
  ; W 8838437265741072267210213637575536762596898818012356327172791322572046146063 7946815361419877571720214748592436051920972235622482255039144300543671929659 21601963119627675203230276799975881207902633335334424422415632554172827098706 10487708638837204212411545428568565647417035509729004678575952086715935007272 6310111812018800481892264089171508445480222650794102055457252089702252816826 12000832907352205399293625264567009331888468591749500657400277959019198966746 (-20421643289227667440992518939122969847926473023260806542958142064171520376902) (-65151326644764362826081433812868530802962225761715955290268419718725951711004) 683750586996478114429851871848804890433492664320579688177983229932946079996 6417822521944173104464882023952025637232923851229521101537788678748374961756 (-2521989810190563057003983218342076857666017509537600432160478283816364133999) 1466976014306936368730979971128366203628602556371160527529049378887441557626
  ; W 8748356953784866610488238931014693372671654670926354345154795901912926652193 20792179477112298756366878000138987242775700654049697334210571432618579993931 8434624154558455244243533171646532809002648746591100352436298112387706746766 6964488381372367699402856613827417730633497651841943883332574929597712761969 3066019630906384772772794090337216997440391142268199488698086954687998574179 4691872436332133275978276150600112910794826444952714746445567233141128800773 1328596188357335348226826465372590057341764634077614594803945831794210248330 (-24711993384220349449604491557759426467342148751032299185777051728663297096299) (-16254433035159274922780866085120906476143541850149456746425694751918556939295) 16620558258421177700102083265393611552117080780369950074175009443599184294875 1915967111332361845927361926890943410351489081449471662731937622469175178534 13916149652592278288442768002669213635394098492916568355064090067766242400700
  ; W 1526891583265102439409631800129708320442164926206726963776237094277923402171 1824009981837381793764000067870042136777164888509593315029165402874986342844 6525135639588046571241744461987637303417153366828920303636071589128556367105 18489619639909804749773381729227275203226011885317527753655735008566820551388 15850608141539067801990475301009957958371030758464651502195770521952704424025 727717478071661533445782674447599623047412191048733623910221621026332561163 (-3457081697415123760149413256908397076258959296807916416515636706199188436777) (-14936977425743174084160215997329660312650382986340509184420955053120238370482) (-45486269164050665412633492042066115443217306352592632824791967647161785804) 254480499450434030455023455797099154106172658753538857722003824722917390534 1093625310152478692480335706875873275654946247885550874212098912849628005361 (-644853033010521573726898937326306852223966951556519795958201584451247351147)
  ; W 21220410076812771146212154224245756027403119637440924361031702185784903411489 13541072404088131625186789088540206033243528018618535644133887213727329693069 348179066774812323447578171954868938208404778029289547236305788134309530820 9564395400591723011194689734749310633381903592770364398348635128583207219175 10928673888961487911646088814448001494220267620072262351859252116610135592691 13631090708680811267969529699266460017237340338377696876211364141256850110749 5112480926148504718229566490451047808521842916848162575404565616199482496486 (-21962230951110623012746140796326718408421144427338049526428582170623471313379) 12195824193763087110328791178399042733083018360752059029542938521584834167198 26255840724817146204092565640134953291522966299072847333705060434604360562993 466937611862009006762410917269726495806481558152868078802282743254554018144 12474255524937325444927042302119905665734464437100480596840309408392779981770
  ; W 16179051709855049208517517501487518758075399828521933680056464432862291894720 21670501454604217756713912784706430359481737230849474699422998113785490510680 2719048367420710732319867434568532117519863319545078554221461975884435799326 11064950162489455852260149105957778438787925251244499925353383108616040800488 10469782993417453732192095229555100765406156506450677271333940826594895994564 7752652421920339925946559959377397560864714046331653250818787716571084910442 1686536020446662824464432010974300298583617767974291497762115294264876841525 40878347400481247058490201063574895598746656606024208798543981450672053342040 (-9495916153747170248510289017518490720281834986551949666930272866195027066602) 32036209180007969954745085805906652485764257189544421299321997619995269869414 (-266839275141365943010427976843967740715555597415943857671530813745338725545) (-3456443724492477975063544985024780068636576045281308497510922498498378419857)
  ; W 17560922920731001287771505322473914379873077124176714043398877602182844330383 7373855437906555723756125621501047560581101195004892219973809128400571817435 6700641085603991768599045666212325450942136485400067852327911536547063118939 12899998441888875277610004447342487355035142144922829361331929466549321104785 18919157516562065355359536693284464385534731925223174006408974360495085440606 9148266095241990750242874731889018278874427121664255913015574952592030507763 1546142571881081810736338839234738182407563529070453265370679170692881787202 (-9793413193118076475612666371131429166280919713172726932014680734630472326103) 11604963966089555528842172209452246170826002795784868655228510029723714091906 11832078776893519035364471950668814411925691864129820499239800142146470154439 (-2576226078176350378615722386481994617605999865543812323252219773772564572238) (-2813603214632239307703662523140018596447185576814846348690068392049782332917)
  ; W 19561926350800406911409782398056161625517161265494592277853471507867701001052 17583806988470876661992989456950434990042512753070357318407534536496107856632 17403825173895939327789862029168709576419480479124565917285374131784794769624 1201452855584235206661419913865621731015874515276555475550538975733875860969 2335195995798398228130275108206720282233987645597582491682010862898486096267 18538104082493555206212323138244453755706707472511454281267104227097888715970 35772709231762154742865044281078351059183776518969842817038538454476258171688 23054728013926444747819272006914019045964116192178222527094597678570698143562 3356993742100580427638432900673233310946056817428421832225185119074631477166 31429945225772490642977400141354288710066148197554265837227802198518787787683 (-18963599267425126984820890664403725524817163078320624293159027126520329165635) 1856858233808469480839010457233877222588089784756966222611761448321459651413
  ; W 17778571072044752029734351327344706036463451470841907591512347115962930694941 8359267900496917156815849944590190490967827715861241342225465392373547029920 20642445594575848895936889126037108451154021885324915126095781838560730924149 781076954862541014791117471658046483920807989924134725326797988776929044763 16547683020839082678817185426460143562294835759838977114035128011450353963107 21007470924016648545286899257074442127353803280759785156567163652471918246654 (-51682814039050124424024669817408923195374448604549258064486358422904133983097) 26166733000688692265171592482763428497779530449057670264994545312805500764348 11248058191469623046102289703241797564337710722304829084766677798636931989948 13579512923849289248084972825055600004775877423074881427050491862019044016533 (-2791091018826263516891251347926332054928272925909896632915424634707925766993) (-895403665396235963205388713292880981734129586851020406045158537253566864166)
  ; W 15238100918925109084458150198454685952480535912694674722739306700353482711432 16149480121287812677985855579963548708803512859246232650126786455899682971789 18649240297533340381979045148897447841055390506478737332924443162290585203540 1897128845969609065180217496215872450392078981674544805049536572033963937197 15921579937392609665884859643441627935187099132946092392462471815846090717443 14751207454104892382100086493196155812999286907476607207024106698829178348527 (-66278064699897688005629947506743536671267738010833407995800940975365912154020) 49248395817611979571179350014340843006376808392628179314400276128082522993660 (-1306911145861211914317166284804419196440856892797966388045947183958826768545) 22485807501064136920886893485046027972030105658606533415081544482767977452331 2211064706363172473138514725804546947338072573594460976644705202576383833108 693647181442803205725374997134634117396946467173376426321153387930243031504
  ; W 9964540527733514557001112516085639030058322715392045026165024697523710819219 13987088237162030620917071957533530855870532966069565508840475408362659311407 16479338057082312897650154539197402536484455743549522837681456176826931303227 17264374937290248171789336859636424080968738366323428218174277590372771612145 10322702918306323676782662232910098958188914564031337103680658372896964253402 18524567086561831274282269235336959609138209870048683473467382642611992788910 (-51531574621234702927102678231065247111841886513315004280313368946771445153299) 24081011375859080126396243634777883124529012022480717029086062458649366283556 (-4401749833892294669994438554191605834723186394182854828442725769686755418765) 12735138989480160279503790217001254375580728319674164513741564206750070324569 10807861884703241503568301975992159742080569093010122570139937553520100184886 (-5609263982143390163916994393092347413106455041186244665106415362838818866526)
  ; W 2108726717671187877794006204288566389060043345607095517768521909308639637714 4793186637607418491711746695087491407314739985012215980208955804967269580123 13314935488582276643973538809893619549756857701264658222884620854091927880566 12676775230975138285170905287901632993601985326004762783491846921318559257794 4479154874821407712386066704027162909883036008222299863936757037483227110225 8992097834337640115777028750779666752176563788120221619004093908872881238445 (-2493471895440556955108963273668609842084001901101614132949929504416772779052) (-69898212117421787244415370915489228124119737294261194068251948890102635486146) (-846477713245563186259522564125666093208640051989995149970593515763478659191) 923557069856101361925385540995294230317706855397365972731819313699086583320 (-699752897435339278101283545966445111633872349991362056160018060737609645962) 1134927381950449404783495705785203058728745428806245781866550992511615309814
  ; W 12103714632017936966676569484925801095423101980273504599445360378260418249062 12431362743012738290267140142041783354883751897806939825880186009882106409211 12056825476192286470320981599648512092736690805256781215402027753297409474636 11120578019423469439320532262785704174047783757764469607800617575700803156396 10096084717970396333357220808174058931987578089144861598734514277370740052595 807962829740564918154874289145331670649247891986583449174003741705701928195 (-163128132785431245213528124063839436515084237203451378386827316801573150878) (-14572154771669616705701909709152477817408793452010215562796898597767034114870) (-367268939864636138608654795778642829217402937963646485111013135989014916360) 13748537788943333732014449750168032120917331086653568675581067267850110715578 (-188130563742447759334035987805810153806774064219776826160702914983748008086) 1575082527010659729012127982480338264942243798197914762234643739671241046702
  ; W 20611546196177865867358748253588819691036025422441314795837847282375453483609 9064934528767466533937425402300889226918055554581803874915680354383732299953 19783443194157820887183602065584643647777908858437147913832503397866471693097 8367780762618047329779570125329063804961545000388441962782197592653333517086 7811909813040684809339954681533487788235842402718244342882971007460249304524 1451664136340898622789419646453107510421566090400866519016895234428511421869 15371001663382778848940213924645037713703025823040704341157603346241441870000 (-26869483922508459366344685776636965174124739960472049886680754625840571058332) 15655107657234230485046556291294835421380193772443307782486931843159263094841 17072390680149471246011447818547098545201187255115862380584612292808135946372 (-8416000590662557172275923949816916760478070966548589590996459401157380658606) (-607717850752166709562087829438961583463758879890883388640377768789261133929)
  ; W 3987833428405765436598922770718125063147324020299749768325239369508749566260 10125440977479478335178197151902846575526168484589594613437808507217478811208 2073227082716953084720975932075489393839010236258225717587551273968416010960 19178284805124693733451432290517940570319586023464291964914443896132273439761 16154902235229132007912526591900180021083717071775364140754511731985956912795 4986658280225803568996478212414137270805816180121585029081492392935773967452 (-42542788998962525281927622597852497355560111385646084337562582391307510880561) (-37622254289031395893265090411326051653825883364307933319637091764729345300436) (-3957455152654345677992674202815235049161783715413721156339827877816308998046) 3689521561302850261473262234037313311470781734505621895876589503536271246069 8227545422770881780517594504938950607126666191034519497398493484303196920147 6223124411298663620329045750467699615617796354204437202809102680843982198725
  ; W 7657746833033825812229342171399204269820829514101644700240380728349434704373 7361386207873846728971413428222547246524187026158747811588032241209278169691 21044268426501377128433430306473710330271782780539496777081509512914255926825 3542370024442145517156786358905055816984289215012170567049616623513326332141 1867141616930508061096091215297456064153683507692806219295264621153804768466 297463262009369293049776391110116406847844872484976387147163211602638888390 57772014312831132428965285349335405088108759996540102083868022372174905811343 3456305104446970170854676823198103932967524199724346308026805879521628516934 203354818540090059671092710860918750878949100572262638171516425692011389041 5150859504817611719938097375812634509582442125488518059819233730012694418281 (-11895767088673879108531885148852022478863338199065187294291503327700878428522) (-909953591085448375586687849778472603664582050461758510550735615862185800359)
  ; W 19452839065252571074536252475936842883804924140490403591336568843028147188088 13845412355930963485895088731706527798531162657254257568249342964989700226990 9707690843319647486578874210387927898192310620242187245597520837437310076396 4325117485188193041759546847048227606832715922547504726475432150802816082964 17389455961666069939276392987856610978341104143279149308805247226156337306187 281663125956429035374570629236275718918266862083004289394794115761284843833 (-16462042903617427993075899337128756051729256962225209296400168608259530079573) (-16459783007633623909689462082778003766661648298842260754544045156432229231530) 8530493081885325675375478799038136056576007259415156647360401787120218528234 24609794393180761438770128325129681759126171693471803488357784226226402058345 10570335955959231603576060652975003770216918620084811532598486037105271423643 6475299629641603785573783227085173648863430537007236002606341157812198745561
  ; W 2078504903917266528034988796081328320856091259769915578353394402528770239429 3796450723999173381435558146495331445774327751391987196019031772575276210299 18145184236662979439876771448925771165663551729942478335721539561377185841174 21503305689635797951359487319639894257136424404180812677042867862432097874477 10753175620613486148519244963107831652965348161320781466128699500940859032506 1099231825509516556608617013794718240027433668484850205276700621860244447592 (-7147598052241359937993085368320087656718498523844806243954957131558548897256) (-5423647727696250661855352541771371614299196305360206346057407519688823769228) (-461108528594173849721037200217354951492798204300252484660547819890816639522) 721021005981688541105710917201213029941887619058702455343893368828242299839 2178282374245651623396886963311360680627457355537482279340716943187607337204 (-3094696852637884943571472978151807349256788576593904720639788644848162452628)
  ; W 15192682330038508171365803926742342921716694038421505680903295502656935042988 11481926030538028713041374516932673351033432803832104494481169431569209543072 21578602167746250054671588309269307718494287184718262626080697814420305770932 20640652561345120597926079220306699141647484660939053452488370554337897646828 1875537560970778039398560455335855297260162599545955785563191110731305489952 5621526071581124019633498257805294929644110614942872649213519422669154425480 32023123252373987322093933127434543540768868799701432422735199607986111072649 (-94148889825370285102183908234140476511896815469689686163972713435800831665004) 4522198131219839397089793103470994314077118445889105398724753849664808266960 15939265270433829881977088545288679532967309906017955840750597912013369735030 (-2835666056232699204392643407314760822455019572392173420004444901106692401230) (-1202300062712866433008250804907939326606879474751134640250989954838693065692)
  ; W 19605227535094004541119203068553698562881330770375360574282608082707449558941 9946352868790578187210535764639435228933600344549096970513301602214840470097 16752339893095808677445726265292243211345680848788706354039384550499956067066 20852395838195597998430624332151732886706137777841667178946801470069623945089 17911177331808091965368084724539924927487418462659984903135940037753864710777 11915341924586462254067905159953101023363729925957789506210383793684260649604 (-7176696807417602051434999593783953460429672113911620430173387949082928356272) (-110317053886241718864549886832749718543224496640019782241316334303978560037616) 13040563054037621243162013685488654631181411661420133774918618339571657576074 17817831452140528995296946189730823073766813054885189276082757869249107784823 4419086719480612340568679965996345610465046426236036451746098641222390364018 2003469751139517315594307571014114194471617401799624645302219638349323344299
  ; W 6540669092953133622496979488922432787729920937132527866279262499683135880810 15436391391823655812697856087250893295669371798311175726903449974771828310085 4892230795130237183925891334899998346871672760952711354631985329435611091751 1232847355192862248470452668813475643707930381284775376912781901044410509455 10663015443062333413047099234528553252011072693123001263435041054851814473436 6670153242957596348851396968782037862996343236807060841912814183202639928725 15030304980520097602490097462715041966836721902455974984376063265002629964485 (-63372927632536494595493354440672810739435343118198614690312529796487126920478) (-8931819158018462744331264890649069781665431396962604888665558157717134700976) 9225439307704897535032628602518024563275826140203830612339772281560171422549 (-10292373929577294774798182210610701059284215059958398310395072538943098024391) 14226919090295596844847009252338632420282607218222247740382817050248279135542
  ; W 7265494310459493254244338156580912364974278322178333127817855776378363730792 12292507827492457771010448736421132896026781778654245765193809661916379766430 16689271477413985944510812342652663339184331422438100404531790652456565509270 11438061278587384897665862401356950189491406806017951911904539491458486370989 19044458530820323703507218542479841409716217501935188849598132076502387054126 8390064631469626333108794538538204801598907860173174459984935517698575874094 (-931536138512724577363433349865006608725691526846118550899790267401997938699) (-3156718937761438996527971864806755712839532499792956013733622023546088637709) (-4491833432647869675924274849054877693157909495843896481708277202598770348526) 8160650099221089021588528839786794228917690258186301268511243044889831894972 1815419369651364530565553165343856704804007635927499058125776643190657059470 (-10012733315730459138839962629883989906807068258773917762860374672592904614499)
  ; W 4527964453499151801848363731830061408689470027191595379886786725985876692556 19405864169610115159096247795832851279662351906759279144024685177797899679175 9621900002041949855954376864595616617411658097080628573225505948811918767504 10892388635373349264240161071429185788667631333109750193705580387365570099414 1875308285698054853472977981308919841609475689937530993242994568281842675920 8267269853685939907253610230770089181157081405999144027315213733413934970158 (-27241805570751117318271191710293292698946258214113730017190741357270765389875) (-15087062098221683071735658774133246177371096438643823850277072184538310205344) (-16268327437801492211205626372880576774707286320627797476736566163288763902651) 8028882324078833123419611634215723150702719277010478823210589045261210978376 978221858659206210227629813537449155082061178940784184375681624444594866575 6378732090852142767978859676602243424399117828792499405846347392917265581006
  ; W 18438320575335719844444283761453611568907552070577498227062358471060515536375 6667413153047073724884723894285317019314658761427057886056788382775017980401 8315859839071461212155254645976806033777630512308817336831242202120041456852 18543182057291226948096486407342268494277366502522210733161134961640531154755 5451155556351109967798310314918293688252585391860689453763289338720351806825 17244980093372529551834031202900497188291686640246074221212901236373005542851 1695064103383954530524609980582684933263751880776069844278939766517873715728 (-13658327586997333781454842542576293540529170713239343850766241930734718438212) 13501187336770036039090874515177189481569558832715153802004008454162729747108 11233053456498084614438262012800980291295316007050750466799323903005366854249 3430708821230511467244435046656106519479980867358473586269839829565629067512 (-6047076194420542178258723964761334731492354590433638861233595331515630996704)
  ; W 15955119257980184055973060194751945332166690783325125393490537414722878453823 1513009490964028289819980112064556080044191360693372979379645753061284683239 16164594913088206744442288624020356207647938420725724635665258051417936649285 15469507331104589908953132483538334259304689754878830523950484059071460540786 12329909025002253111867743194534966408429169002194004702833846217869620189727 1212067075511965706553864900035703030254816287360148965145659913279915731497 (-4779941708079463324731190165018667087673511264923863004694983130684876017382) (-14091613375022973059478798452937213186382252431282655720307195782267518378405) 11525668565254915523906640552616453034406727600441601104185832272716145683290 2205772935555740321300967236490017563340159091743192089107709495681013793691 (-5933687958579018611929860716381942538054304747832863429572212865875186744994) 1697972577109601114824877952505099272430206013141976782996101625701389537044
  ; W 12564356309432062638436266106643693109954605114428579088420799755277276135486 13336195185359654866249090613510050169176235000717181436149978431880731052857 16489171863737991482652118615278390331715641802659941062788392378347314499149 6716973860212752422341486885764263087312026285615586098749078405283465345868 21019260723139838152279120508753181249743704883855330278632051977004748372727 17182554822584654495130522253849422601853564258782288222328021454028663002538 9664576578379233914824227741946122041630734136738649000674326244600201993253 (-52129542411852852394070653133213488998178909047107857453621630213889684335806) (-913323772433310179011348927571558819308199243055014668758540275024043701084) 15310567330790121314683498341650372455389164416984963778280745271197203712308 (-5519108861288354021302520045376116781395916611804002000532326808525856259748) 4826395987587272271821897149885377887544804625923770184347576299988707572255
  ; W 4446470255409895682584772380058875278826489790046660074503120696223595194953 10911143177992831724762032581725381778785208461538142078490146923757256574160 16497236297125382609265492186553895344042122742494155676654656950874853896628 806604001554109342242560471160704549742511125407828819282972979356948767602 9490590866725258484143211747885948590383510290904137424142650426180766976530 19084857448060372365616333951950685298941657014893346491632748954058971103605 (-39672656882389752678645320204244680909560335603510794768998135795026172662763) (-2423778567777707087568350014397778221945448791900248054963128931517298777228) (-4535857368713118565348797490838245919590201807661459612693163957973061814299) 4433071569749710840974003505890166806127144614889124899743849704250135816634 (-2947918222751310630212474385789164989708141178418436181182734462616089228088) 1196637470674076533478965493312141270336705565680153189273696019895916950605
  ; W 18172295825083079446860086543172593139594676501341616642742858584319603157835 16214357843995112434300651585877013652264087980751195416659438847977006195476 9543970263357107434384625552953232944325809685900003284221865718714148959784 21120806200938780188926589269426312434847825442664022358677054782928548307403 6289505388467847232427449145114276132546313020734202983136519592247931166267 18109900157037451237813993793894580042988276689595655740085333882088168902271 (-49729453351555606467339233770114132720310671624127041638606966153382721669600) 42102904655450195846983198784458475030062499428581786396300362531195691071778 3075940615947148752470976707875886981434625718492425897328356822560361139423 26923322176210461904609467275377512263712240525329984533570538362076663659311 20821157447890606908269780842916126037492845237904203216791699797818108884093 (-11714642863893336130808593098026326104593944576632423976796367468043519324849)
  ; W 19261320658513366764396673137850114041189622214789103575053748465084474285267 10902396422496922461535900935887568219316705774511734440299737125859899637958 11031657602335447178652425123108930411485154917750905636767523504531781513030 206653257538751147874039071997202490967600717510808515648667666173890034196 2371493817137011268419209892553142135026874526429141573608279349336892550981 13313103407115264983766552405332084687366270213171116435162289172085076771931 41684890042814502988728637889945760761149761765020803227863919650179111296447 (-17117661293481015668339962948464195550852399747861992651806143027097374284222) 11519253840206179378347069233245462761481535765592126363579393622354715594969 19187885904730578765682506616871719935577025056876325696275232507056219100790 (-11726350562181158976855690400158147105757968896568381850809807621164467563292) 17663128615918009627073360218439289642483697585601491075427206966790559623553
  ; W 16697674538846884335445753084258432075706439814813015401046125503884298602888 2766274571349336308429027307435997136089128640540320973209005147034293512756 17543491641599649193696851143013933547032741915566774718411861344388826341946 3034089618751306370955443886475347127913212528321181608111070100501115858942 6297406377692183437568232342417119569812636027803656721817158313274872369319 9108674783487664495158384263691556985554981979580716227965610813831948419555 (-16420816816875499180552828364745771685325827873568482040397732331925808054396) 20286588393388198629568351784729771214781669558535426462106393473179651069656 12388388670066685019148920022373508563275657267250344096355868325314271799494 4220562860886969264106173451115092926951845119256156825153719181861907296534 (-4610284193269642689225536324684008832189345512991022313420370876334641443804) (-2979916361326973755367232861893509276724646121459974924162898853783479476210)
  ; W 19128529279236381054302081902508127114600999567683982082074091014613366893021 3774594284998768320078593591587056248221092199487475381721465638089861457684 11852114307447474649777090718461709263564357243573216269714384652826750580252 1389508848957864589617235015580771787242608845964636099909401970281909948298 16884868974931689362324945536278145017158222256873025775835540357217721514986 14329109889670205145171680452520020062191507876380163437583995919123597533460 (-14808348851441093822551964219109331008067766136666602461594774068276992531847) (-5676894035074997239344077662992688724697905314566458723374236920856263573293) 16065842855877842968541422703756061482863256726805757398551074221611914435342 6597371723312759613480342249140629195034406667594966926911266373872592033536 4690191597458476921841907079698815496817268745482985743460190722238751078931 2418698114613739641818483956895281557563148242562769523637048485378650343635
  ; W 672090811932002237274060355775724138549206235425365596777476620649474987706 17543889268543098113227174230856638835730947163326507328116642392572831106909 9573597475819887199814154084444995285323886181146161546383222599455457616853 20524629239803769298275883997036650782966563087297130030535240359753427564877 11877492682263718790050622642644499071269484790002949661425357506409205186551 17978205644880967119530204041393272096320140569892495607632082839539241458145 (-40921783682492805478771376278694308716675692188167298660134109680920131358556) 23432751827954010727311024888770128496063147985271098421775548382502424306524 (-14041161111330116761447233693022654478233684642005765780744645216111739912894) 1077389980728906568461917093785439741740948077898467004990964334078347028645 15407166554172695893358365795890270743082016901246735730539370031524132600596 1238724759654837509772445724515932981355274918538850086899978594685586535064
  ; W 244635406300484457573734480742105635570131625707261257367938861389698161296 6444335722877675957271970826978851061597658939393868851063845463977057028649 18078713230699734174184885245031256315847982269475041968549543424582496372133 20774807836747502954641399845656041323568378704778886548075360959624543838750 21529758636394775541892210241058101721847069032712792051593194416226110144109 10331799515867952049150056446929594991240872907761485237699499519789881195656 5935860692947205786693981493455567296116612653583472349952851347561369879463 (-3048053131252451083348882129126495404471202926404361658938529342868220132929) (-1894606920708790164139380258986612177035504191660845411496237800996943899284) 144051096027557159906928976549255898099131386265436453011796179323183401507 (-21400419471149769519597245598464935468320665531497243314590203985798412861) (-2506872029444093841955115608070106041354048092926693339378876406695600852463)
  ; W 11614411866210504031801773583698243808623619184569765219129388260337014894243 9515947735728982784927030372174673781122036803394310349542888666171472303605 21289126696596797907869156709812665672378983940328785400672982667022535900168 19339809494597464993959332160340599211309856960893819744073453971645790099543 10401846199600241081010154108556041954978334713785652362123557476085912142174 17990708057042513892059559543106657850939791424895970556213555575571772070652 28222253805069336923996500938436060556488656594550793375306150894971213948809 (-73269613441544955128132740517232445230613133903874055653069027515831831949118) 2025804535726069295496424672832085532158298327236373641449318077048576339730 10098767356267229585555632001710875829527976729976166985659408455749408921789 (-2327387985266523092882281811215204631306296612223871513429959802877309895681) (-634288693696798617038788076302330045222516525979063401383092542742839773954)
  ; W 458988920338468875250690373633834206242671885701236368498497238822819061508 12272954615942238577618235448492187397581128999998691745646560916647174225703 16128620320778029448764853545279745190201148683507175426661372331039202936303 1447682709579625109044176515534083223312834693064421719987956095249100360965 4694946414256906020373314837154650548068948632508105775905309430127067838516 12580402325905501403739378783540429648351649289050213093368371580820887373043 10397597114729913845077421527834664975461579479840911485678350545394965903608 (-12342573390732500702470641724036732221480470567488036159879455079185641680835) (-6871942396504714684728331683027546229957530841918989466421410824884834834399) 514719269291532748126320700299288541670446807606666858102321320300291475780 (-9924078695455306297854723482103714591893338504195430539146487865259753363188) 3268738789140936429427381233126820437173175194886405554267512342922223243928
  ; W 755428769574820805742400311975602383443513834722723722947628354371522893884 12372907267072880691500463448093159663780674633314322742890443458924604001167 15381979117781800266689990893132407296316132937144596097881442611800213565863 12938539474599055644918724337205348018444743154174211419677868262273484279639 21716707825374891091957524162307321751828028236855764644507416923425849689371 880603386440292493500729218567934652029296112451886327512989567425827604608 (-49265203174250603923032401763950989802760655626328417742436845426653639497022) (-224197059615009405772024464370327344103351803778518252559468712724450400494) (-6968040445581341884851414086451176565397610337465498051938306778091977260794) 854052119903474606079803494205177954674634851626079840137263901725211670689 6521279037968814512206837140067973971380377233694040861499162494659867906857 25474798610094761190744787865674604241854455662042259080337506121614275211
  ; W 6349557797065703794175894495444144398065791639571106573873430356018160188470 21348317275068187845970744334538203143820386107104226889318314922660107625624 13150989586112227642350481703543802962167796636820919568400589974926638886708 21007341724636040611482150414120442507976896376077627412788994622907759339441 2214159589774733645306518277756908815871017326307903629105493916163861940175 19276952551437035068474208481086926368141875849745229207536151459645160179287 8157223098425810299617879929597137152718308268160432822700151857075434706908 (-18755885391633765411442870843047655264885213084627477018055404221198746076034) (-18979767754367389625203001936091706248188151362864224387929398310891113438856) 12385861688563323862032253925772945872300311985549463028409843262947684395560 8516953532135816709184928020503284705341981469479568166873266593415722218744 (-164721028607758765699119884523759569558135250044691182008321115298588181405)
  ; W 2637522062630915294600210908447923353809654772971226914401875784347271826933 12339902479834963625165242386194909807675314854387341298667237228540453875159 18259683391727018026777130774538071287695908090061432727782092000155682134893 17790071685870789780057808437888109963674745856727914742130128420469096988543 14833966637852414373677127437981120822426246245855010620360625012819469757855 17762574737294113438081508871858068535151484517479307756080311684325479829703 15579505402587256133699829737330721831349888529038521928777040606727134186945 (-68588063471846527820460122615455978826135661091126849611017901925303739897472) (-6639028606902571626089525765806237500625445278357128733060673266222426843947) 2973903865362559917747448739183499627764788662540512552660581564569474315443 (-2429390584915628385033606882892354882361587175958446789038682015564350551999) (-2492441397483196630721299635514178279087734825421838700369800305504821524037)
  ; W 18900454374049492421642586333771435413640952740461129400274830762216235541918 2824554481716269754311924512664218144839435419595495164806532600431052337241 1090286284919221226741802464650250259581938431873063697909975893113401712612 7567771256818456668811972800279796843042773907051130782206718302246442925983 11277146828253516738580976615869573573035012643839343547305627424361279448836 14717165795906339577608208378937268560743389857802311803047833003018597729999 (-13471491880187089411158243106663466659959776551152402859785617702264583980027) (-17718000985252454038557174339199986862625721057775104677998792507875879169885) 15956012073252165420998369643984752065300169354712093865657742026546974166839 4877994402865411975985331855255549170444910995638642052062259348057149421650 13506610096015707964942328286213703428113358786070481571619419972279122732829 11042550186360400220961750203149191075266137598307853817573839528222261823453
  ; W 694535094982825669620500601792176084154015512036150926978210291187348267524 12296595842347050679490681349900367842620075391342569203929850849289390636122 17295882555909209873370231289271532345386943503977967046740582564178163529237 20692114286533101235068340791506322787167925975748610471255245158679733175396 18696594512241069912794961036149511583576922961655351804933349909355176842166 3076658486311398886126859187539492501369392238680184223584629647060497003267 (-8133591133478762012992720328114919094588852047151787794928996505671686431071) 11342983906610920140137562248646484870232627305972262738169265804247454957920 (-6886066240875853327858742379695515647795686062425320803322353533989661143943) 780365734365800591772733671371297399012897799609414996830458940646684434018 6858905370634021160326562847349668329016759696371470203344389823715179704348 (-9520589924988776604636896103262027344199422780032404785017334641900332437216)
  ; W 8845193108819669064766864754409299038146597160368434644726105735486572992523 4747940239536433593335530282342278418216123975838889354228172903056081586543 2588373502130220727805145453755224439419370911998839832990612294428554728157 6608776007904044517906116252976894032504758505617620487288789545012783603543 14194286047964228734345054073705427112303913863472269072358620357391455809041 11740919012378005526528285212967498855495921250235674326339676236777942118344 31459013015546320416281236091707454054017719353277418520943948933345571878905 (-87506447122242667279768475332889875253903896936270762654670044547868655045838) 2544494089370530209672675804638311858782636050534825958478791878734424168103 3837352183428719225955308999909259437996322057819950667639638322290211845821 2888487192894959663432315440120123812828917966906771196324219316975023205138 8881490482783288259672409107295052864910928293818794208760491291534521867156
  ; W 7111109976204347298812931001162548581501220742846007000906833066111468163719 8235085479803981159967419001296122499716720614856607169083334008576666139627 3688212308657615042502482924916077448915070157998413369305889730324824800280 18026929632543797333691362625663040989877088660020244387526603260672787243264 18501093523852609328191594675964598079976945038989083529801806493938444684597 12811419733095605412221807266114053964531960860863232686144964517161041332873 5456264552271718344952477343755447140451054307647523970133485726129056944954 13620479635591576877100112795278396137181009523284646482534791257091525255260 (-788037115039374407629739973418243793203320684851409345728324598394639776214) 5350872507511498643583828386761416509744006780861790066903193311915144173172 3938570899267633758277526304133513793886557686264760770135284213284445993024 (-4123355778909276759345309719466571746599960183981097328095949545331021899039)
  ; W 21666196028462461070363029453574574866440534119189004316268399031988023188914 6888548184168656811097019876480574375562096800330817820365306238944616222153 13641607323204283154332561938973961413456834285937459249495287301317272809525 6174299454425729218289601631110741909400867264621362406477337524133627363952 8103989468288550706377432371295267026226463390282747300687787625426880230448 6286569710650712784928977192383636606630445810517236736017592145107684747671 71238898834329676976993566835221600995137037885471000111294586174227308486302 18782592597173573505245585422475240723830069203929554672580391310153871878482 19278475514407100503077403668868870115903769712823359763880920261286712193794 13637333630076432455770693079278291003871821637686223266666459810170638221388 (-13582617086521973108010048319233606684623081493536878496744376893786406416617) 8599912237833716178765120604781126677411075519453199807493567449354355988333
  ; W 8468663021236472000508219616813168726256874287365946093183588187519906223889 5410538339267786310705029202505554137079417380828218055951967423092697324762 11634642431398060758551044679966518595136323843747281243927698905269658586168 10864096858335578687564827337765665708448685994337093820134810299266101168985 7864247847955571767368076035110329946456765767451202581333033342014602838879 5424151010870173642735230084161704554199537397765342669855621045716456815549 (-17117955654609948733621783168472695469340325790085937166809863367399422737681) (-14217342224525982352507873111664921169963378999276532001984391427843110877470) 1939138216580142772176354265466300943653189889971855741043301147443592487373 4186724921413394867520690773054653391377229564994647618393762249449389660909 1935771558708566561053040117476581748297394969171367524333361013258026118424 (-1318404292563263644413584081852653915096048237412114264157500990060326319181)
  ; W 6823694894581056682191847297790108252672615775412232457777572133165214577159 20804440167022477304456862857229015222296182134437034536281311174531991950558 2223714539735241349363678407905755803765349917676468490639917691542127893596 15844731227270774758881865804228219891602606050951619567106433058606745028164 16726143689471688927514645319567409758388671808079955166306597299259127960878 20084545648582117963959915391088259732705372142577909828332347565363123894029 6699039468683077579017826707707335255031531949116419244810818800764547969191 (-14445449387898321560532551665505525901533992270923126520803580205791462535608) (-17647004417418955984081404583501364201647309962449550260880752698510839402456) 12971635318883789489580202793624897183887647600755983146252560049623102236865 7667888706857844373185778659135038263451562743735644511415625717234358143031 7392222293519705677326484367182892387760212279860250889341942266218304244839
  ; W 14748741849422538429811326437803098200635465793455473048328257113463049206871 11039633484451273986291671574677087373140807963808575586706712991118678390078 8973106271869196953305053813733972945568222911921868558284848486252422311754 15607183261612094304011312972904532734077195694750808842391774321153419060567 19830242729072391758433412285303742388333144139682767983637748745570952449623 13581333985509987672870361647049870717193372307929821706862444106311622259993 36012891215008642908353673638471382709534542384793480294474686236573042430024 34280485596380146347791870321295309862328324487323984376439863680576190604434 4370011756080826410675726044087228112582240886203301543707561731038208565917 14877457759196638074214100455041730782358125906311125266792466566612855500307 (-4667687551345880807941746059613677764798764759888281696784384104116346341195) (-3244083033944445171816519352562054253616381249576495744099979769060816985673)
  ; W 7748650639819477344799135561529409406359901189280638479054120395918242642554 15601029903206463271691779774080553522831448091413418770090731219151071710319 9986838565150157621396419420036798715193220949474331194800547541089817590116 2657870544122303986086887416846574344917396427043447161528531347727002841265 8427285339546366999979909631839266179768626092732649702170826891732913265344 11259630039797734119619227407030413167225904396675672561989111122444957810337 7947584835069424258387795592488100519477346850772907740090854929852632102557 (-11920751764576233190253636356657223919727801492891205414768196237646581081368) (-8376668167304581581997459190701734110660599238373394591441870388706038116852) 11045832326436114466120681219414405375988323090721077323523147285637512922140 (-9588603047917069701736938419689722936029428094285877049336707558358506766691) 3861636265057342854523276314674460149127075006539778261475856726709896906500
  ; W 5487341424322992833646569978313814997459846565363580467509753833579725876023 7282162736430646412134921063608977737734244544963278912379456015915916991567 15989169605853731018491310219555661839825946181959691754156852085532709139225 4879785537063343435342321399341108186322370193479402755230701086723885985477 5717362285129472842650243321165184278525244437679911511274839690575991689208 16981518943010600430085033985522439200948387633150629570315680464465777277629 (-15968396406452026925773065346988758519148592053147212676263147190218420900669) 3976849645723750898408768277635510800631979159259604298437760167228034908026 (-1047090821632595504668062931657056447828920664973900877568516918842396708999) 3651249072504406139483444154698068028584927997770284253134280374203058034525 (-765547663883017085059574894575686684892912982473256287210177460005332140185) (-2553990192165879820685153049494279630741580202161652559934576742323291919315)
  ; W 16270916377529673725501762206334493842659433325106077520882429489595899159729 15921268028758908913555403836566247690293705648963899657292135561988353117179 11340205042159121013060949497003785690794855345440192549468943926589725027566 16094361725858863240892044282287858046633614869197044211139929785724974875713 11070364436180002544004682533547928827529102944956774651108074163670501681933 12892445446256555998257904183734946837063478868121273196783351589252833758575 (-8336259297419141958193900356740511769164558456566423265744250725240642252076) (-15257800236472603983677949725145358456880947634052553959216960522580336968764) 514246126876831686570306690891298083163721080191781682197591824488658826176 23670572575148382987656136796773566966048133688910219753020751352211003744624 11613229461911797668469907395946070477461520733621817539722495941873183897958 (-4954898441942855097879236336303845879667179407435969657372625581789044434889)
  ; W 14187920693036248607390564218936356699288540009396569598530691705183507327230 12478176423682707831539310245669745057143704652606989936351419171460790617702 11295880879226153293295451192529551519593246630496432579590514147846878033097 21595126454211457720926557247502054840422465151564501640637671440290110107473 9104075955615397645955548901542153019170016282402338176201249040157797230465 15700364851362420384460807632233752261832182965395084274280054229285257518997 17528459312383922733238510495918603449631156916153892030232681126409345407993 (-20694683741218884617352642993130760985099597305245750894366307840101433158252) 2082954168513577285953644969337582032202330517409634958437332727515184615149 16176664205485241255606310367233476498350420236013790907548517094672431589187 3164638699397448738941478985955001397917585613439251144278522272384075636024 (-3540317486686241574447534061263125569953858115956350347193581292000470237098)
  ; W 9535068060656789306522442624238750505491983879304235358019714918884865386770 1247722554272412380717871205346813116922074068725224846911949583290072354211 20126576631992890311138556665209282254725867811976698374926372963690227273037 9326670752249897950000719455851899413264631515365002435675965088666526039778 9688587890213661992923836209507561670470532487222721075964691167127392216796 2696548892229898877942228164213748088558398469293275995654781349575034311703 (-3689755597198473776520529998698650950201606143983166496729284508129800371985) (-10051292246296883203495060706741733748837430628712556666074270192932403906207) 4082589537778102433840630756907502002688529744434328253114126722772401318268 1087078533024726836510138423866292786622114468718635636419170028944932573183 (-4546226688622782747769872094202998829424292630799732817933668569853523972382) 4841060220189691260867070246916821006418416685225969077613211239845564346170
  ; W 7739546156470212859555618283234034671917690416964245022998116689931027707372 2119982111910386237034397434580898103103211904396016611520447102624727188070 17714408570961475101631196436987068559630255579324873181682888540980799879719 8694486968987294307925812765441373377975235145339385297713973579114212734562 3579473214318934749424859649563474933281158785974973981775573634392466338732 13243050543614543657669574420789115621231541368204659444304169238165068432709 (-37268392354761151275011079600188309689008287518315069002802187351882590067397) (-47672366052672118028349637347325604612189926543943618514055222950993599406268) 2531324733452988240659839612828416129623487513736673040246176468380650695677 1499224903715890727355888609463948901599646550452161101167140308114958940614 791697526157027397159618656461843197921373063984658537041682876487496957056 457166377805281926098689960130913690414164986351246772541614118493666577400
  ; W 17876279600675746443555070591653323689764672651534117013315325927504906793136 18147091900817518867616438149290692740563795732373315886802768968255656399290 8587123372110009867840343029854681744480837318631281789576833341799149167023 17003619800423219142559428481758370579556730376131739357786451090389362249492 20256876228069765460041669045465156680350466798709550623286838010083089567011 16599458841127269170750916462920431508418751880632549613641837707729829369164 (-7259059918549324028587388555130122920642759600370052776988587585692974057133) (-21787499487291776648968071044879726959441130215041614629718757877991869854285) (-445699188934538802441378498200908317671173674979263550255982597149348897709) 29641711366017260940451515895658139868164305538169675878041850563542954578022 14343248160950470609942224292328506503741295807459434857830862811570336387411 781118049298638015585337800498126831912666312702442331582254298936807401289
  ; W 15186434076041939205203970008088782080313264534727504503525480468799114049476 8885921178626877843676250167510787837291084568559879356091308326433568427818 833416205223505324884376918391716681449469353808786577961678919135807050864 2977009769592657473687468059645064721827194350688282290373058167980359325080 6428500535316417791219426815159259019157250522897210894929400254395486574492 250036163625690222964810788244202036052491791397591542223387456051906566203 44151998234626737142971697907484069413131986097610076247927943774631543800931 (-543574936947977584812791178025461586128802207275645784496081449475076141684) 6929207869322832741555046995007507303004434714884160281025983590261642909874 12330405594844577334590595203187684488521297647620267183898509854742513119984 (-314698098096480951891198478104302071058553679302560559540074939586086103245) 12879655115366301896846768333043480546856855399639562919139617927044958320329
  ; W 9138628960903588978542646380028055066882674545868457924769047247455308703108 9433218697664803005010199977938335087164692036143276067345617359462514075040 5459436312758165880998267923260850437015668530305715213611883640220356675775 9219538019288950924224429493526041788464958750227648636024417287289761581131 14137214683305074830075160856844165747417398317362953473389726609748934428571 1044584703515830846314199322503164932108259219010220617713337656550635617480 6271955464950864441860484948418402485311333098568967679818240414633986548768 5069678269149622096045038379346737219809544527122463264364504409955484114536 (-249954998441009880487999818684538030740434304866526371399502992238176941433) 7876985474784512335483837220762344737958553720688591228131051114279111125203 758930398139416554555004537398501894111620497977058402898971490192593565483 (-4600022460260736933502245595446727814668802746048858559856305943197591232857)
  ; W 17580856403277518786274998028370627334978471950370836615325716381385967475305 12416329518440420303876974969558662520832551750015764298296387664869613949577 8724491933795229118324790696076319831069102629780540339565172570501755138438 11061837297873119742480775307161141555787997018989670761794736935086641101846 16982291110728859399830088682927599147654803299622357897680987610844942676121 5631244160240755187876185391875831575526548187206085347981446289893036481289 844803135003184183652447546875283328781577896438104321912962830389839993795 (-10502146545603689615234279516380604145761595026970190449520834755077512488395) 7077830507879006206725457608337612778765638257121959573149576569919127740854 19945841025030072592508007495227550326072437031236929507330452511810065201271 (-1577462353184278926789078714751723494580189744214534720628040568638734244944) (-3331889452364893414766208771283712661949416736830296629449769341027833492565)
  ; W 4732759707308101436588758015690823794246076785334442385296271227237364719796 21001700840385592723888393764988378268393357092613478742863382261792070279419 3776671055085402746042516949044175715224053767683193756396021849782697857137 16492732424578014111906715036188172595959061408397888826057602956084370497563 8786599992959135589220558707621305531837528954818169850100879899975984897767 16578204197968230683623089408211490624961163807602793457800608972164689970975 2876304455414013065222369245968328644744317762524341273622429562450217824302 8569129342161792870355522066841151807933130406263757123035962758079538142906 (-19127731092594217172605340199316832968609999564560439715586506444578257479626) 9082136387493707627648565574234092159591874966519944910290860189475922060871 6280763734450822007093392907084504738167351942695002171524285342498156815357 3573129772642216801683619266967049275832239471494473936834318809634478776381
  ; W 16351862823509820434134224844031036001742400771624248121922076821338894917087 11635322191326133210891466407016646866918127483063204801466921541808560894320 18455805999171121601008234478254279003640885646970373630917355044569532070660 14550979703796816999340765400705003954654626389123687655114871373796826106069 3375518311365341920356058640200629841690664989452219263843444332712450892595 13057442173096364234477107646803309560974517575470749466221656002428798835916 30829792999297318527069733670810426894551443328095887235620040235539532078326 17037143491135776632903957824446548997564408249922158827701677753768674204768 6030757977048340507765887288866023396848046209430218501141561948237335604045 17384601723757927411085072871894313504424416705059267682178186719540805049795 (-11998410335328308318085995477005553974377173508406720091757451600351328449921) (-6352505829323171880687902849141261375220237614923552451943634112749886533431)
  ; W 8158080079518601960568735833575455566776394516566773081783281992434351806561 1364373029093357824501379608923231798384004395663044132473547251382080454990 4734315001738633031949030378348942615477667275759077710653966056335358147168 714762235006268038019846939988923020921680628335447141071909319139620226673 16262305632013584411526258708044611871125793956858663986380336231683947280136 9134668211153588513508262796065969162858100423751024955114402303799052254235 (-5971743816253118931424815589281390687851255102442378802440319323776929799059) (-6573787692185899240963901135172625483444788733830589413741144822214659207505) 2955593886640965604784485441592692843368442616639102501148380191735766131624 1017045040559134069551184607063902325949764796215339262984250953860568651386 4251746518588382779479608818798651396897576268724117970992556335353003803527 6012278057878359120669599616360933469531514271109878546880246191232342464995
  ; W 5706621972121721399648010613716041782609968931711560878017458048675610789280 1300418091903238311378014711056965312200202580579627825608479545345328604880 17040702893441932759055018481829965042083692290498507631550622503292581768926 2081669671131073405836462893986995684119463912850486249072978652879840061850 11112397318312781123530680154629003025603266469033387742005256709257012567168 3744476735504447918936092947767627615480490105465726298886189399942457925177 4392281544800515812634539002448257143330353946693964313163048588631034658725 5767860530034196473514481406304652310135842236655693825011884336242055334272 1410549366604262151475100726442528986692440420495702348795953476510278342286 678080419671077553119300269464419816961599078433121947251740447665016068188 (-3127265755462676299809069443812806352169255426129594243642138904701614072648) (-1087518701641492582673008935761454006095794035563172035330050791311236989964)
  ; W 4513755523773904775016144194107271725273436468914250751063162787455555110134 6581208714144806650715364170861350526510810500210748385690991144499022749162 13866751305010068810689827999167615693063046079586151409361025817188313228122 8365523553669826985165466724344354771389896445907663958153165505163746110472 17634144573941982441605916820591662577581841508790219465830730779724842873537 7698362647535174296480492153981859260649661516018585561944753466318786326927 (-2888201881018899417283603932393446451056805157603641523170267026564761704195) (-5552961517554640248306565925231466459876836696899857126372162388700458002895) (-1047974446603378195761626677943260040185838621887057147374306241695337450239) 2714330918248247424461483345538386097021578919805192722486452939601014684218 2543913450279302819739375433191145827041914618945277323109335292900652983365 (-341523180485785048329259992104491075338868273795792289947921674004601397388)
  ; W 20731600663237778292576874048469922774042138417205949852324682930122642147312 11067511864338708192265375993602750164691043214180950487287002878008274271867 13834111809658331631984950099066213142678314685436236493308179219465248188361 19716991987691819490556515088725383275174913390419346755982969946868362523624 732828066802792876924746318735840472058585843421313065998958524941628155237 18199503201595479698906792151611689066783589214592781710496206359849359942603 8856363010289792526800744557189889562784039646709268015005278836063002380390 617462126474808872288530150541610217615394009506793215272738361606432407194 14039932259160815903814699421427684618906590281832269178885815346669837217350 20965340859070596278109535932704141342038350759119173260846935030251332614680 5770640489246031627687827275554092821420941469468668646674061505691055215174 (-10735118112918528131630481763407999426818229533509581638224578265490189372249)
  ; W 15217870408213433919036416120080677750747530175932784185946421779464862699311 4645949670395385776883471227041317237717965513199459301432795010389653247855 20322294615653991773606811204039404638234912789254620134979137256694097441768 6682452620127060122724410409267461174669654161931374736437105195815875687303 13304387782014231603356689950843520907379233727531559843671826194129921598041 11001964663246645985637944906518734794061303844634368551953241813706524492593 20345515460140416680834297454593851284942114342653000333344580447823510807903 (-49153223924112162376255644974879954490439961589013595921285785957316064046256) 9594133830244951934456959728074871090804060557225043262578762065193512295882 6460222542406194937598003991648587507632838320760688774526214715388723190973 (-7277612001001531387956831013477222823801982513343314228762746399176305735570) 7685137685208861612369307467284314022101812221654912629741870743317132369550
  ; W 13730874184263805956602396777662593656959380777170212376463255778602997603417 203284101105748080807556971355730264413736338612304888870164037464129323945 10121543036221886331709594026390632996253836378112647512066830033429797272255 21240752854907132217902791239876829729658075526074187504753468386016767322152 2072801959345000653494393734131614252218872182835353146919316867778072624450 3155843525907188203526991050799318204625210439370918602579780010719776789424 (-33996916068576204411978170613897567081311806209473164993195751816444810847387) (-23175651979689032044046325359455166057801766461905142744348609597389608664484) 8611727425632340389480916329015697677049272099762458415260986574656167477031 255047281071186200816723334426982731482434194569527570323521527578418732884 6534316543196735951943642141656169221346078856101811898915928186029944395545 (-9037936000773745520633464544525073254759765440846970306236493919287216249455)
  ; W 17048026059621301500958529106197885605370112852168280078404925690598771838352 4201885245870885093957402491144772355681480731706664583783437895312471431546 7108030043054305888906344493418366469711520182452855952989257714193587214242 3329022441053082961459710607177111191108123709900018792251168474739426050698 3204627388031103056808264421978345049864716678159652701260110833140113318583 767332152978563387684687692725421092360087969101575934023286281843252124580 (-3805747400584524504413847187473487977634753278479087052438082136886531650543) (-18486749846255615513247200162575776593977454937007218114162312893366488195072) 12471506027615684956068421305951738120087835259490169095551160190946003304630 6545417975355798516012762280710146032852207539701551072723085186076709328898 (-1091389009859541408048715241990957698030511146686880884725382949916602496227) 14529356445586755847844426937098743387876529729861172567022537572419158991794
  ; W 21430099005595761431428578528191368513714241532975586030164937045837790259015 11354549902111826710529495627947270468902582120666172957571231044734251281878 20348358877971035008559673458763365144273989314632452012660669597884711695604 8223561494456086632220181863105491909083995260966352980325396835081409831919 20280676216257115618469736224838011608125285243779406999731665787522969061891 13428114970054356838778554306896427417672581528274108733040150844327644123300 73118702479170860343458766208729260377216805114298240571336223212767171710 (-1659088769962567654064220378666712470992096180971010318497318711749008695956) 15091359404416713966513387304990648967715554679097366448259900819479887175491 22233774541975108537794295996673085831757066034391809261280741742399877775175 (-10424147392971495245156529487729836126229106796560979973119804996580866388902) (-11660526268464534567782390320910844300808026964104938503903201096655182428657)
  ; W 19008795687604270879302540604687280905951753628318607778333762387025407458081 21125986585836849051457712716688167370347501941010956585424534292086203891604 21260426529913407019206079232827409875569730350459739592723403297125287207584 16933657238196533269111586911195759436803512119868356186003227709400233388487 4143111146572535799583172465308471054018918320558935768448647337617910022986 2951304194832621970983474649955754463507544885540557688367108986679424881201 (-38177031078826863452046375718553318566654031955665498531573018470767401173281) 16601939869075959556547097800709137021353700471954022875378420335670354848584 (-3882129608548859077913807998039109049322641011512372737086603349179408314609) 36693631833362083495805920178184034269308411795126212447703165336863407806181 7614684247176589123004453397732338072487673376223491148041771870721685774305 (-8444568185523431863576516356497060593564212895419513705253299215738567907963)
  ; W 16766683016179220750914828629948678777652899121199177821292857675750546877035 3642195599844390520232622528438479141953362174912195706201504861714680402085 4358221228708828189632448708126625848450525969434135721883898749154528166288 12358730862388705690741755955516370798969279835552144795654073221946837113862 15278617064505607256258900766858694734384631438998229610700056579108308738050 3652912410814314407940117594355333484830194226802423749774384887330458702310 (-17284939693345537064342783176019594531835002122516385625560086178804669086317) (-92787413738535437075729148238018063440941365572003375721664953054927160501226) 12237440535810304194636759516190535305394737817614513258208405275104543888368 5579939830079389947238198947494762538419826798181073228068426072532956083158 12186046335737154350608324301639212438869350791297449799020993765558679190153 6316974777319009656537505328168567841969223599517353196207896737486022354428
  ; W 4963821139635382289681504110940470751277362852988115941076331100146406997818 9740979706152386454487982564838608710235309215304679507053036301442414273110 19544755572578979396977747802693505850731238318966663427359916390126182314763 16766257819616927889183438920715083596647803301777669692006539269580259757149 11469674320665202170287650056470432061158005347718888602193636346137654059422 1851659216579815993027853677845401078289329219638078382684869557269835174230 4511678549816674882360813716776131122024479148512361086230040563764749573747 (-4742266186707483167657080602313749886749447916093639156722490417001166914236) (-3209356079457585013439967650052081971601329086244343432039772964967785310916) 4418123580707088308373866264574634061211035103788766240073956313973204846403 (-1482513226814125116732078898324978894734539468414302015645657401956452095644) (-7758041580975863854137167201806982424740422146672254727194156596713613554332)
  ; W 4862796577384741939830502239679544452160976705848484591118781479950870379591 13883537869501794972617717384089640374027393317726204299596236197277725139552 12700373241530132222016865778860078843478923137290898726240164778284420312387 7453586114732022283986032860931663314876914348297145305974797100492700800170 21079356350980602311332496070013494100953497286483693412788091072837987412184 2130946920791103467498348472319676500781429416898170963209076369704541698750 (-11080651125043573624630272840009415573140272223581145646489223185796364181940) (-74453974011721663174290072685680663037372528471477031842634393889596160794378) (-7725875220364624399047122349132835690072773224747765680307867068162530867992) 6168866165192698196365274278920150175490841974137441455478064103073255603012 (-4386372714768892211785006255859994841747317003596787137489760501696500389106) 6410284745140778471275226582182966140089722147020293091720243378509597745767
  ; W 15658744541539642996767380596804590015157147124044883575352854010567390103268 8588034499718159399575339477754654454647540281138351004939117620700749823300 4403113763270259892995136741752454703899426370230150206835405974135962379054 17270228793943456278287573073981007009871796415729801170133779131245985596568 20733892725403852412883957712581304881246657600979711831123744572985130028883 9231532288565741584486855344304584279045346347663852500312286863807349018565 (-6161309807325566877981778162823165773484560245137200064886107215784652754149) (-10315357233951464998893242715043186798097266918276140505132356167869558791034) 7832604245698499645064114405978901305225576062140433448851518887106752420354 12287677830734492076104191786540461525019818970345996540094263653478251659314 9787461415691587955288780626935033116541726357276402202908154587091593870519 (-3767280443649828443602002376939877308905756587451159839287512665469090748513)
  ; W 15384216900076336250642186582009518383158212420322220864439916893648845941654 760495162149264038820757725747942778904781183002387808735412860514665737316 6432071989102527851303013764571095353282650739964303931429084645762687013836 377125264549444822722110453502267154019180902796342242943458684433401128086 646244829473738841290303969678891445397373757213753945012815142010403867163 431533917439925890536821039203077678147746083088464567059588665166598358587 66726622066101458508607973215359008625317756983953813500833868708790135612976 (-6427233702278513416833006147661019638487436132310481359728463660877820566132) 10786419819961670900448908525984602625165559733915793203908816622933656139252 1069032593841999791103821549948628875148963186350084532159843087535256986182 (-2013001098040448446283264859782515617242102277137358152851838058164490567142) 11802873232417921721725637505695714565421103999792994562100396458130538640108
  ; W 20975568985172790112917530058617123314907973741647865708443953090187621341684 3541336308468828719057851333177251357786560980576871049370559186734021076396 9965494617655580180044039438285766613102142311386960850209366207320680622117 15020560132686122249300830007516742121963434516941693401257812672098927746554 11692588501583940660975272673678307321810554144537512141113491540006775052357 4453924288268055997476528559520404068219983170333353534775990052956361848913 (-6102858192636773424240110924709240588374877675758655535388779449651271932428) (-1402056220592537374321970514405785007579223625496017384084385353567749483923) 19527991986601421016506542388077814158825890257976486338449543728179921018242 6787346473896574167741467765126716249048965668265538327425279525321602930736 (-1016903122378588845734813370149373455106747286043024891802846411334694638812) (-14604526182200757219371917005676481518982915617064135719363221010730876813336)
  ; W 16167013393405637398832478695103221101102254830356501244217982764838773418474 2576281094238114383778814893151569566922409106153581724425314032485640163912 6297973729120136708002054733129905582311036274014928713559777718564800711869 15601242371891762159186488959894287139943901266395917204788119247379518028515 12122137687895906957555993883832924897460873329675997794787999280370786128182 441025595939895212529983680195558471289165653799742787162602132802565947372 33535710628423850177714162046986512845610653923575591135977898767315927588835 (-31700295650021068158049568699309094923856519025143874959590011735745708443352) 11637987538678250459552744931077178028763732310942285387225877306283145280763 3805766520373537896882546641341356923520511998871754056468826546186155521391 2777238006545597957399501697323372545038946317504383075305361462917030113915 2771679282896198234282044819091197184743790788193342235183041270054435119
  ; W 19805508420701281452563362961903967917171665924140841986042895358645968579941 15711109297320185066536764185606498096639704974495422416727284862834471805287 20170814361413858594107987926554575890724360270618352221204159199537521896168 14083119661670208196718438715925227762656647763310509611705015896477787002266 15819384358349583420162031809067599514788730820223752687983697541328852862392 14813177863781913633152121016295547255941248760421624992065333093248496609032 5499676381433286944253233524230931003958698611712267148256394619785694737212 (-18637343032436956052342904435883100415495886067526862195095995284505234271037) 6643713216341380598207698612694790722702363922026736855473576527355800799278 28432296672563895845510210974078200805607256298122488954217420436570073422191 (-13642486312739030984804214641457117890682168021020056826286953370285705062812) (-8584084360606868427066213639628242485911751861710375347418710879912958135276)
  ; W 12508799634265680119125583325477562013206667418569015107778947745474249542189 4005953841967499312134098352069377997886384792187034288888126155827078118706 13205791890652500420544614971201884344222414110620865631181028401237317786275 18498585009877984732313431329107414645716464142988675962117943277654881810862 8598061601488253481459589904256806450718785851759476749942228801194504502523 17801292875376642150792624539206560151788585731861667730205485392782292742562 (-15921847853750318345800298627524874057451492830813532783597980041772911748764) (-55147156682841376341383086958974936152732314602456919262487513744242293246416) 6415425985924803940217279229482370987978246621201175291688556270244465452478 4578684021983124266511689682718824491493658764324701513597440341368840230078 4788516900344126385437213588972649935999853402746747751858927280262772366586 (-1248643528247783579256473674892555073863762365324386890339734501251194495660)
  ; W 13702253151689642003256583633148059294046773393762693994224331252580880690819 3322984608221915879225402449983561917947565655686255119090428942636227569212 3407809319318379894899583586619866685319736007043024149303444311966053799164 4704333318212585818193955200798285311188813948885083658492202130653616484620 16017417785969297605581557348375289708666027443175857954887989093900210819256 13460422847129234318711751545122572284154880029168148983476009796595465852592 (-5458573855933357499566419576078025646613979227140091619023114613987247380274) (-13585144302651490874719646990500929508023761589164640220510925933012622917852) 8073261785387892915652254928564011024497004285107561011010377211115635201119 4160441437682093729473517813471958661178879194222501837298889181518353982178 4039444921760877676530740830546158366323228200077782291737074494778579714022 10122825997995406814050698030716153786735177825940381541540618015272476443272
  ; W 4894840662465715854786528791016484828264972120494791909511820915146836540852 9524219960711638990290714850637781155617242913767082260020024349609942185872 12704015401324808862013276948308131908905328061086937457318418549476571483061 15380149538705927970272176638631426335879345642782840993526753066901923127571 12522565835884786865028494725158343578359907506152034197122345821320899734523 7634478528220333111105978522948364832337081838045158755963866622853557522648 (-3108603907126383294114113341144884098052286987687648651972694880345858252864) 15565034024042562754562837342189178427522439383733584494882614964878324808544 (-3049641816382178852901180483752494270775982421196539187538486019585063819643) 4259779043473442617467151298795263042421294302040597198730887890070397222019 2566463408514124335286840080558944685627663988925148205505735886234862079503 (-6432472980613694547266764606351297541319133731120851589760895462318857690972)
  ; W 13851793192897590966943245600870706796921110923381684695604575170036588272656 3252047460997903549966256206326572708468178094782262831266122305912138177353 2014598754560518358184439304629563170344019193008927987041390937011658109667 21871731963238418631584128555523497895524068294851271482038263606847676435671 9679480591289507336128492788897822367201295863796687910792668428467040010998 10331558582584249119436313008267635664809392115180100750308994241367016204537 (-5754523948720982954015195253126197890363117712674452498326137240081531799619) (-11620700355239467332299347404200588371138474346995451444227507895397344149040) 8282819367080000895102538461457078708188990822033837336949204083043665784506 4116062595521206254979659079912702316303260254037814327125288737247458145818 7729196165988959256582952055672197093129640102801903383749593192372333656021 (-2519963219367336670533050068716895360562828178460144836212076481601636871641)
  ; W 8713389253114701159750658649489791481398777831924437484633911388902334152366 18525407478969168743718831637893985515695676041034636292313370911031646088135 9733853138849974414099807613758464803935427761795716292638132205084226384386 3397869507992062541080184962224281745132750947937685385204928383356802944268 12728041538792780601302505218408782584224075654787308980901319463784927190599 13924005009692654562471943089038616648273175409416979717086134515240327925117 55227441458728038029495395511659001460648282230567123590326662701998726079694 12531926161749179591172053894299172241019677264865431400381203900377974828894 (-12210553928447590972145418902335531477804432254221853023240807730960258885283) 14749387365807913553175237440976675234626390335860537453661177279117531184870 (-18708523122924610456086195352611068823820729185750682412072643417140101878532) 820880039731188652911269475164834567375513082648104483310539788750603572413
  ; W 413977443475633642005031075001452762592015530009433522031369896355090560761 11383319435629020895673256745166992060121141579153298041947783884503800399402 13332062999819572362973642493769138145116078494754359397000327858720807732317 4813738929323041167477856575676754133323381026719245867554806806041945593048 20357638985800691767809268073216447931362473144449800457274647757540684809273 1980446868553371197037685405294935078374010356959830761448753161592251359288 (-25405040138027455059766318298424236622034588230914243183418091283834604900782) 4699189295065861148048388955771810771499921513513744198901031412746752920554 (-5912241782384268177372114044022055866828906091469284298687825005901981534284) 430590751922902744891659614532988477417910309489127688758596951755047720220 668291021278656141840974016670639065548343442105066249400990921007677186659 (-1898083390724640978580150241400372300897413674750203313276493530512699702009)
  ; W 21120215116412110214852379144687627817208739238887253345230973339575926255952 17037436795992316686315874983019807531153401986517259645935870669016302509728 19241369261937088843175385413077202985083884095588243228213285907106768934861 14567353856907704198562240383934272142242190211817036151581280109636329973183 13057411215963405866702813632578951625754627204761887197468523782510906408458 120391035064835012600424223238858467386921872590863063977375937705327789192 15017947783813252399832179627373895841219410115502620899485838288979255005523 17921789388381580724419168173572491573328144682516054673730299274601578116368 7117484710776998760880466769695642580171639173049979769519487076115991027775 32879234050037371188889842426832249073778818654708337302724002464418043259751 1890091345327408634603037593716550208328755720672681934633660613158447494267 (-14011077964453113473130336174925618046574254315403311405533742140291074997904)
  ; W 9561389796920594683097773626024009868624888154812959148212676002877956520303 6732426562007492863410533157277158508112065683360591475572287542238049570512 7279642254832884763085916368229851943680257626254473403871928368519919868848 12049103654677779478682298290109271206531515662764436447508980347937870929896 13668164496158401874310312003790779333548066973447945509951176276483828468313 14482584477396215250679064896305688546099653215749452920699047658403370259359 (-10324927872209262715439829810788437668741991192966148143629713192628813557332) (-68697002393166631642004664067294586896403139563550930548079893071366797996398) 2105907162385204190758592604897464108754350637566536135856860711326795380465 5881820209635356312221089638870264939200039736830177018335628699920423100470 4450645059925553164403587572010696005627031597767507719741227020740478099328 4779251629850669741906392928090115833742311143392918614473989580490737428302
  ; W 1951705073214836396855773071959189716280506108022027442495766138780915889241 1865175311337165276362646769994488926003559007360911157329165401056651953381 868836395249319178226673375964763060191730524730745745611002180189152852094 10408064400853040686691061432027151599103516630465369571065726434953415160981 9942002537726447293442824663496170027106496298184778550599529405735650566130 15678749248174894997517299274254306125021140756564225039872427167767821648044 12604504534148832286903479132273691996826832851375522376189019591140783671668 (-19131753695443197503609907909647220402262548615053411884737436497178338766088) 15089093844794563188173299559459966095577252989397202904302133188912677110 332623512895616397544634289317706653742798332238162826684585234445010576643 431792377017853944418755460787833932766885391394155141904379010454104701032 692613908794380309805724940698749196989382061844350879365596222198733162342
  ; W 8454773454783551525022611992721767165019885005231588392329496142394470950519 9456773384058689702638195576161840685911494211788361810383814561468053273467 8852399086645092924727027163082597757584596600834900005975232010473311298091 15937249254655474517990852796148647478332428978754165520311123841891595329693 15138502718683716147131850838365854397039663679083262715336931405017031970060 4979268500797547213114236205076399747325009650110870215070823928777395219907 8876582095931238569122217931829623193200077568093896860215549795325433929493 18224470884377793129357037600587244590754562886640820556695404042873482882576 (-819954747889734469885993927238183885694391742924591203319556979759301672729) 7305737335207519547439777282452813462591152932331031113344083442814169211477 (-694937727340551909436945370009756862255076288169201737680305756694560789863) (-5585041668911414673154769110412818872599330392983266620794582268182746576266)
  ; W 13410414571351713800382784324771368107530368218326473519088632417379635649399 8735873736252882646687934749897040847661843211644917777198764426968399873236 12270068100891202665998416711630092999662796148922814063504822252203471674951 10213470174081423769868610676982668456560719713607808547370307402514503944279 21423689819352088451514028677776355256620544152914607999456608325245786085034 4168381408715449675363513490417764988079246933846216299540901731821781735023 38647392147960563221739476819040937746840784946884619916643539656878832940960 (-20488311499961910211673346738036706991481700322258059644764366847713407299184) 4729650052127292673733620795082900059151330082448747687633745009993730877884 10704531115821825337210378182136222922413570275920485129874281599863239245761 (-4378358292711633925074641124287012515458475148009436704070681089498360938686) 2142790797744346947415380624367995157153455903553823592851920666016008457112
  ; W 3225479094506528724195726730947792211610930436940921745139013178380302153718 2592745177431259965876123283062000431426843208661771093463804967535292130052 3868533836118562953603306413960923800535882109048350473342909434969922687123 11892037558402890421398130940262972936137055773416756904887491809364207555572 370924173048502047979543736736428064941019767696432505800383994241887304238 15465299975518517045605755251678385319721862462620124812472894044741816759597 (-1011071060011890010965243741275365861217091137047261441262900812136205260256) (-28048731914290592386703509366194774194969091816085411804999839411061100600270) 168190194871327863546753900244949930558141074560346078674746331481480157365 764140403243288509243418268053452914339162718819144122540155641135647487874 1436893349897961596570650895001872468540725983238106352430415525682343899596 747837710729306795608238244355773054820307793524444315445128983441651160314
  ; W 9194510648702363102255765928134053402942664853098218152226938485328244147549 21516482739024144185737223591096045933846433648848887018792089057522589455440 20666242280409121405442118525922588691447922897752825713801058195574572079394 6095881454877380561760252333028948315759662729081734493306145694611567997885 18193503163321606331137169537106593632019473139045416357850288626479858214373 10352650226795236320127905031812705619985201375177257498826853122069340803046 (-12761726892559539211364425698056391676892986862263516860287270879740988728137) 1111336339162357276813573589104873339283525188810957490174603306707070596070 (-17288733755622113510575960024394919178794482012425361560670375003339513780233) 18076693576998314356962812212877075688528786170324404824455139265609137010477 (-12753860762308206169293213607307178015843519459634316399985745035422298078490) (-14077639150183587177070650551436409571119769227762943414192352389485148206840)
  ; W 9954424348136528710084962563159517470073545533041076854763379224046394687928 17184500510338641692106834586111178247569244969507368677635234736150413916596 20815574645678500789465709347496820174127073601643927880134238282982541545113 10034323152627514850906515336904588464315003947616260641537657209439750008299 17436370174789733830570015280595705676295110026327703132461155633153575600756 16676138485107050521850504755429471056639867915040889300533883798555175304968 (-53151819866566536815515399986877906517389709985854258894684075646645584984519) 3450624056391402681183504636636262291892046595669506083958125115645405975444 (-8964469867953706368805794968107327591856396102505720442285493006409548969451) 15630474432533122390872853882947993093533283876193668948240076214131803140429 3024163977880859988752876588361862751309128295594969568034919528468153899601 (-1908381695212421190723525206294762712115904157846700117793695128638051394310)
  ; W 5221300143953428556659976486930166413149489459834762040229232171141379092897 7657725302791552397707856068026927734814977100294431651836994195863944936794 16301934918183288589698848105300516478724675273599218887519624159748586862922 21391151395162877658556886155288166365367065072303447094823091251429561285640 20276429693048305774912687949653907642938520438481180669935964627468632728453 19923814210627817132189541839786584078148509452977652459464282113752957597350 (-48935999907359172983886573309658998269315860907787778913612877977486448336928) (-37099053846875780052736015823104080953835360266570720741330731523367547321694) (-1433590709107894288168921403931959994895850294143061046014292251050393446825) 3653402647250645965908398520951246410759449487511732855539129063358369222906 5049950304300382704063111648169119717017443216612954317936960055008051879384 (-1129976304333681836410880659762754725985247693367491851599330726158624504627)
  ; W 2390047829333866319513914713165397637635991016876237982507054826331425243686 4124256973129166797475600879931126446816696178096489667108645458005064784494 692885807865005366104556381731398796465291035251610738771295967249453641854 2805836736685712995162536874890532735486359717313153811853123372403364812534 7508666488119525591089642374858835824360519398230116803111053900558130633860 4956665180282570618499623244507746028781292908062799065301024450882097113708 23211833172133961787921445660978254385452466598203682890666318196936756581208 (-83598067099855120549383378325331867439160501501865235384832567992031883456852) (-516129459091282759894007340372517804886175475009983564874592609991729553086) 900681839465912874531731793718989578840892302363867712576917797586267650638 (-1797505622735998444716896225960134939762200496743382551561060838753634235163) 4970500429438259101761370229848675957606869657743859361695722424100275960750
  ; W 10585105446726977822877749113584641511680081241698996977555578718387657308508 17276165765459036575484839190965244364497072411003435682143002044431463108643 13922908467344131664744395849440960245416159092410623843879887198431979046055 18019021731066110733918537931033276530688019081250275234792034651270938885986 3932180538942937438828962018911583449845418234297917219097302765065408755741 5290113563741302838956048507737442849942063867658979798901445392059873848784 451091560597844619192626124331191356050992519906607558795423505752782407624 16114168523641249995040459801588447556369005954727472146883945131618796974784 (-8516967183196493822364198094167717518453177512924151974789370080657558831556) 16709430484051639672558494458320083919757962489248193501368128666508932723798 5609601537650441634188425529213047847636721305290712519919246181058455359969 (-17799383631349651097409928958135181192346936244313792178044324490209354593697)
  ; W 7376485668042295911947688881991944634998340766353998781979260525158907674878 7843037336809727078244288279177029061205782346975979483441836083973383906569 4801801814932114401904552413181679922102253898261561729117706462735469490385 370402894192707841796102138346282184273935392381877506743677317420328491394 19131745377423659538116754330864302675220310595518045674453700974358063812381 13095319174871856866761816601718486105007644779724205102029029310091652282436 16791824012662113207969271471313116574928235731040252078218589437580455211699 (-62386815518145025743281644340350596763452388635618936262381897847516494966246) (-324406755596336564308336378998823545260026716701515566229923646001893304884) 5286313099470471720128014888257404503527838267986552452228689190689053778106 (-3250012547788464890550413830713755750092833237495981707855420546372067823370) 9215996236881952605690457027406129178282290307203172106591761676641350782142
  ; W 445861079322683671377023708228287801524519197469511722012116850637729862198 5710169977341445491637276204577825659402253256587624480924007933354315524558 11316489971649056905387517141325894374282697544161299106152004583238351184659 13314684250306464260081669520200477519487506408426916421674297103062541088400 5221799601193308214232464197143133116080735581892954875729215416361323032205 2668752933939124360754948750095356873722900462950543676718275757434032742444 (-9194575543658977453630495815149249157038989181679770377624155515919525982749) 10028069222689031409421418122497494254714646045180291066692678798748936346864 (-1480577918375118313853332149761716160654419091759593091297837766838231628483) 232631058063502269635213804459823354127399892713760660472789456402793307660 3244180051396237237037104669655344302919671022410619928322001512922035903970 (-1963215057157735429281356508913658632171057188506225338560280259811221685120)
  ; W 13558829382187523111797119463898753833204135834728053979707231937256357569222 20398940293316127200879353407270004091023111885217821903481306425918419110576 19024846192774393562442561474974966979460516641042229141947205257862999852809 7238918970380259348737046706401191240115381864632321517774903110994149740168 186680417736922576666711990598005410107707120305607338012594579513066635432 2368352948910678469000069748931488121985727948456927978838011551137403763066 8240822777961794414695757288302163539712977057273805049438764461216521148183 (-28263769751738924400638809707884828900430075837986462098235723970083812267088) (-10611857344375603124186540382037332380464264346775186617049656948020997028893) 25272540389283618890718497532174720885222116659208794574735320711490743253672 (-10437359514806170554805722280395628087662945614661249848478111991518666436543) (-3420193843605627109207921787934360840077346079628882206149913667121537828282)
  ; W 3426634446321982498613010960574626444051759921044318100951027778357564166074 6160095582077847572903061156493858235598422918492490426181740867472322932432 588388086800270634081960230351644884165786788961256296899981439360810444225 13506184048994398123556506500825012622373097469106739982797355804990715176465 17216425091502970718019637212693315750578209532759448215134566226725424364763 15665224498900997290108008786071789403614887190330531319915937160273294440363 (-43700523151752899681499296837092963287168048411154957702051069326917064769173) (-36904973450163218850997458058135150432628327584185861482009488140690255020632) (-1197215971380193593144797471370698622201707332699802466402609873521362674777) 1928742826710974928836946558590967863672251178881571276688962507041759082345 4650074239971736427051014490939317949213544232460575163433742032094055441275 4207497068832812861122857032562943329379954838256258613237961940399127565607
  ; W 16916832452584569076757984891653413219204186439341735068190007830420843428094 11903728968692530174976298220994542999321359446494603605608542094692920020293 9922805719430742888680620406233962617575239993257667653540218226228125910553 12234803737232913383464271793745249668098938286910909867173902447262922461122 4518379269657391256443921226270350134414942568270000828545952460987476923004 17052390991495658606390224306321680522328524530215876069124080747439560436074 34528034505674237910386868714153667100085673712689911192137392498405807638922 40762066239254345695300327497908995634076422991416678423472892454095400224164 6600824822471827085661903443965476880959708262198696998781995343869488432048 18400142003488960344382167445609883412427802500087868782584728958897350750904 (-7905748615556205117777487637867297027292265607441788701077660627550345518206) (-4093825639020070708901874517293099438313941457563890596186763888554447441853)
  ; W 12481929579839700052386567124302911420980626928809909367629556919364608663448 10225815179524479451426631448820340025748127685265118363337872612775553025527 19935891953654628473255446785650145622187732616811192423177777618773688049946 13989710102148137270247564294152367603496630705322529756301792987328671175320 20804412208659657996987323819679297467325536554663296607584277171669443104942 21721788526085547572522060977832244158108004822018360484254412646057264462731 (-3758545929469001713073860759547865512925803499942951146280021022312638095189) (-9608801151308912966852227907650973296900972464471294811346173670270055438172) 2340583949577631450513215662799287286581156292664268273145327971764881110981 11662690853224707809152140002375732124960560338813464764249804678301899107116 (-4890172762344546902879502154656941592977647666068247703193683150148131398008) (-5678691871324883331898924289426328222273348846713367472376978013076459599140)
  ; W 11112416675441385725488861906292386280647304770838880481912512733801979825674 348823446860194089477732206681511201543505365436217799912051254933505596939 17911449122337994452011473550852266854707268288284577757636251159339119239011 17937962577429299436762531376081264460734448273559083488419060645316637116322 2340033253667042652814015487623308141235084936396504890782851532593810854119 16711123663696202445569579849415544779073099475056316410726668293486241114952 (-7216794086788491283673954204302785104197487631329230986488805568204009835850) (-53732354744700811402225550427860592541136218177158615811760183095565494304432) 5636090904778142696841613417696612136450368377050854482283916390357032396044 354187543547522661180254577814638747354612913673119354355911482410123132070 1090708626292599757146979957120471898874976797934021049047248094056588334729 (-1972221058197184467564584149122261780917021800334482112141193562784774521302)
  ; W 19486656292885408027161529813696675127230602184534946374090504466593953246427 8779946088584047788423450841741844816831613044702004168114195104923089032865 7915472638782615762980654912608363507105153688680289234827990201474182797939 7106075016213494980524303745646793695862765512728120584679616799322678727382 1185738652485080414057553395331609944301504784741565312502639791149836586835 6726959704334050718803261384680070101693115055574711239940443811316384875941 (-9109694556279104269827229078757392767613963805881218330543065803819841819315) (-56440841495938308697564684439454121014898354706020782701780471621356398142378) 13826706964585916695460175754675987281181504455725884381691023720870589969321 15633213931340489318866222233948250791539809305953011670494336285728252650948 4554260924707727823678960713411516388340555619821510072805683955081550035430 13653055948197799541778011343910914604462658043997084487372612816516371488449
  ; W 6988521721395370267914759191878068304341302053414306494336755971649932219913 13412141757781060598564271202020167758756559286480211525139270741830525510759 9250261706882362958102517982993993109880100797404603460121509682130592702757 7964256799651119919901879405418685798211731709259244934849498969371755039716 18448784674886454419684857310393948818814637980782362240044066821018112275229 405789653380781487391507016874189575651168326820193741762644441435999696333 (-9153223020235562174922935169894737102022884063965078276350454945556328632393) (-9669942790024517833525734608757676111435715745893032658494701430418068660824) (-5987054851671046315136571609639548739146740625160318603203882430827646125309) 8564510596259715092460014876531199623142243129929763839375337521033266823138 99681520818728164141544045198296580512336177389062289802220302679600236176 (-1091901363324996746152819859293952174340032184539138263399193885940762251266)
  ; W 7516335536910494524649829101316625818262812369009206513187840799892414351624 13181006827639956329769650844051830242711482789031341354407982557177187764776 6690308399772644537950124053290296444262307606997475673503177257947862619591 20007390933092085036102763801466155964734993278101273272179513431743604855339 708998931178850136347568198224801154114004815596677777693429973055946377366 11196713525594555414423485712892161458043668538351701385165840090249451849051 9147523384723022380644957514970376132456324636591049128490154332622451999859 2303449300009093597224037809511579991140802583467769502742651365086538905240 (-5356466563961127922377118812313169845552451163712121318780061599406427522535) 9052610628541051464311894910756216090856605753210670253359012403718594766219 8131401972111505788928171571679377946031841322057556158944770111249998615939 (-2593971356035962518078031099161080194749217335977773427171806487610090361040)
  ; W 6380680692104982383100599782305664165007326895658221716101110576711549019186 21736250496831316308775075373897344203166594877788482879943820050903359500168 305167540243593011691033383425502489264006868580870216411805585184560954602 19443171362211011697713813992204494356516308044690076033900761133953754416089 16339091233753403442563039816850523983483528024778248261127301903823651560320 19149373347175236142162868652518774943593429702013070551636225322928506998916 26905085600489858726380842054340848824358785250340436364891148992981385944192 (-28756370853196458131990677434887455317770809742690641659375555833373573802062) (-19725269958598468703572936486416697578278528723574999191105466324258434214764) 12672746247925252160121181062842568826895905617821928978239860034244567213063 1301042173080062023220980821664593052752736051470500471888931197181300655196 6505278972644180508394723048585541843294288883388138993099619500164807309195
  ; W 21573285778824592845228514454152872414008459925211191656791049384433496027114 4506165816576679619904652229843086605397183862880368431513966348324821034181 21265248074167825201715521309824481459998719266747764229717781886227231611017 9118066332225125308905739597973089959230376550033994154592122294121989490331 15186570475860826031673108040950754151687362083088933959461913325908255884231 3976580102388272614519587048601600668887358014779794140313378348610930594135 76124275112738973877543786516580280887942955363918603126859335554556310009993 42848691555902715267142526656182265777854059174538800210343587317957274615340 20335169503304642025016040684060400741873080928346851898971245226796576919458 8882650242596688797867798763822188455383301106629294691562783618900950495473 (-22784124132953111560199895325445692229370988536728710049004061181976984359573) 5861450087373793814725072937361938850903323323671197693826246472970713356762
  ; W 1729199306187301182529537855472831626782396001778705838799966368377906975986 4852491196077347748361763879352989572073065817494420128247113136417659405199 946017733568757665903643415862298995971090145860999010577926036524103241189 14592869213536137050937369172915892973968236522195339669006267354912039623110 12969202891134772427939275396671415614304627070852172155848471401760671033769 8782622034015101179188058480158266596039542524995479641605494443399892915523 (-49948566363540112892545601113789914464045149664503468264737078993557964466354) (-45789406795409335627347302419741334251962504537379764322503224168151627016188) (-939159012802115954600618291982656708791216242733650583863245696350614775116) 766706076743367682047048650017915096480523368453554275530389125991948528032 2818976020611908324594264358681922339018524882952321498272920612030110995963 4072134136889704977525056144229053381634465258528306058885357176079196511940
  ; W 20168965502556389918594541006303313753918371399824874297198159865851505969560 1223529365851211668794762500845894563115206216917348923267408169546227686116 8704672787289783893231317723576223848881160664803045892991043628501864336913 13593616115198577892428535207939165569077370608177938044404167288063346633111 454179124801861795783358686894702214310210333706267798672256522988158613320 20678495227861349780323597471811758137155898412407286779280058073535876821961 51983609334655806646101738998480261410816373780178433805695686803756197627007 13851204331353043200452074005903924449004969114601683972748673874823749950716 18516339923093736064421349377090339491882060857857388727133584364034760066691 2254847199540795494202395947848907306366987959711980764009306534554108351483 (-7205085513619204880269597255042667503241371496331561385172931677140054996011) 487063261924568975536612412290451602218337596447585659725906686116174788084
  ; W 15056116395882272283230090228845646770571108777351428162014431264191202991833 3470104596163221477236435824672946606161825496726254477303313770344968830865 6351995932797762565763780542947004124438816941834008812880772902674117458768 10736195592743223601625934689231477644833913003958274726753621827264040639817 19843750478410441292298476348570502957173492108267174024633886335699842198345 5991227312935778281784304026251094569272030673300479967868426514743993655960 9009790246152809644362552204668177418844348233131045654450061356122890116962 (-3844078391490427186631200297752803343566393493764608401416753764177097401704) 9806406858459954069207580616456744450674603337933041860036346257165633210290 4773914380577159492006229973220723328548316226781186639238607475556736587597 1165311835414739509975877978159092499298433967749781663136643832884962826070 2338501589361658711196052117550498968569815863589200670099154773839523505282
  ; W 3323906065216887262877429800383809270857539270666196673645030466061930085057 21318863543489724031356669915739961686507083014459217918901812987803283969828 12449809347824824073929964793537538272792066846557360436674515403760722048593 6833220850417336253699040162630430029311385334883328197502640595056151302508 12676962405547438761413333211314096723026960849353574309063316773424184031811 12628908397913110544468529427854163908017316685594631546736530946916541228307 9492312938374760439429703903723497183036321944445783577438463424935639849253 (-7817139144975750539326802134690151343431932813918644812751983810481660239559) (-20259533570237964210492478034211479193376050236879168374550441109913943753159) 6474882451793822726742832212536434313020276171271804181302591457042847902549 (-4727448683111529731116073090796110698246351963490466456062331983185909424151) (-5346492698177192214974179110638495396898297260183086650216494004017148850238) ].
