(** Generated by tools/genwin.py: the multiples 1, 2, 4, 5, 6 and 8 of 8^i G in
    Montgomery coordinates, i < 85, for the generator G of the bls JubJub curve. *)

From Verif Require Import CurveOrder.
Open Scope Z_scope.

Definition bls_gu : Z := 13934231206179456609531861524301176688832145779573106624316168925992008684774.
Definition bls_gv : Z := 26296985896507828905076576787672864468617442505140003907887309969924199500392.
Definition bls_windows : list (list mstep) :=
  [ [ MDbl 0 46211028671320687038485370850398111894724468471281799790132161938246307928830 35382051894256638467403790129988203270153004627056372670348543299673375963399 51635456027742534877846387824958435270634510333112446660832734823899755170837 1898707136241983368313151918770035300731328430218082490860097691364154808128579845 (-1668265270351997863052103215027973340140745406975927734651601653764409826447102693) (-18901674730209066743146147113462086797140435338486256555561014289400635885883)
    ; MDbl 0 4078226645298394210438442723656929559825119746537613079152762452514286818817 12037347407807013812681498643227588645300173342344348369572316643696717588513 21677454930714854034858082641764448092493151659708710589922982976670526808660 329092312598476134445986277340741758084157623595047334393388109447432418573258584 (-12993212824984927291038144366740531394035910822339993623091547106515021954665013) 1815646168682960446454619999050738220167733124114922563081604164243024340605
    ; MAdd 0 2 false 864505503362120892161907955027950740436214181737173224387839208289311166373 48240745394110648040963244611833417855056172423827578338760462196604600219794 47306563604348770201518309874147028355653690093124373343449609233424984935858 31273750604039079914929535319844036642417211172971041753161170955073273317 (-583860857957981338074061542565408382907368610397105334287319374903569953044223) (-596882128791384215803463011313855112498895564076056031443096122074396288987)
    ; MAdd 0 3 false 50359626649483019303159391897548810203771430462039906358051778033555355555486 16030789659113596197589520887618346534925496953264922969692017287031255941045 279824000216828018966803185696615452603414949720618848234584709518684904691 (-32948115014373824501250951436656467744907149993655893265097688381254885902558) (-1981247994592515288496877517706652155366162107596724430701078893849098740695110463) 30934571794470336040799309951238925103776085916008298907041574048985281850305
    ; MDbl 2 36075549769845925921252994517216980074711537026297414141355090862475725582097 40562676792077264849015397911941675108416705627869258852188204987955468812510 20263290632071469691947217251391752040341022002797120422294772367063984100984 1221878516323237290562295794484944122810041163585982927678816992743670198740253160 (-1016716222062187968119530874630181200813697300162619879560212958655927977178418598) (-19625245816277412087019400590446473089035044786251258332719996323647241326681) ]
  ; [ MDbl 0 21610283647708093943333139790889857545552876075590963747663287093016898272703 35777420837048952785633505405402099667174441739130712171289920984830443274103 7009632220113835028419466481906510841068928937813355944647438540755161604922 684280275124827295480871465808377343617211973837323770603436130191606851550880069 (-364833551683507619245397440428080481687694779224048138463779007559723862327120697) 1972137170776176435377899083164612167188750525374205245507408005115576950055
    ; MDbl 0 35711927149617653060048702379562821869343679606954270044672384394841585736106 15975311589041246330029537185535810944785843722455504802191591574166501924125 30558090834040298463657428632314343969081269085188122840668037294478807248206 391195329350546233946354096001075881339803530920850843591196472952524720691383792 (-996323583675766951684661143327734622671447402509328653448558143410003722605907869) 13486405643308104921153360371635737664679015709826049980574510114465997195580
    ; MAdd 0 2 false 24392015404307908681565896343344740514332028888566864626614543583117312897497 49650331752068664538873696705680311960521793771806137076715487124849338000502 8288523151022587545799831950259532184064335120103465843826787659619414076943 11437501305752841584212602776169920998472964466195015532659724935485240514159 (-464803305341755252884768508660482478413099111701827541730406654725089214816709175) (-15664878440831086000151622864496562878756579920288248811837626419042797575886)
    ; MAdd 0 3 false 1938060201528966503669495430533393776417608465526629149548359449036796290621 40870070431123424314864172746932689213012568337670907072877598014831855056232 594239130260993794210886016787366407978805542282378599583326655711382013280 (-335884970821301041180386496455417522347191088591820519756815530662455817121) (-2934326009368244069552077970936021034332949857984515076210641374436085459191010) 324523524558626195021373906295634774549998378207013814359040341968941618919
    ; MDbl 2 14164996698854223579632833288485887029327263710626991331882758195031561600240 51698166972683532690411524392505293512982038609851982019406955336010121049761 34456363952481440238202496545574313979584619167327307513940161377820856786151 676325719928473774894714942796461786926413931333555642646206817669467486169824592 (-156749726526664860868348564357737312749146653975765842015361485487331816270976221) (-9650151292277387981828159017248137278490276533755776878368077611831365281269) ]
  ; [ MDbl 0 45962692017107667496058799764802521964559548458970961918855420373273209539452 2336040219066958029312627334017970353647148609985058719072839971675464482466 21603382312588961997644284291725475594135049138264873184155377990819895478237 2474603213646736443344388906729296965032152888341230474192107220137981926341342568 (-1650383036055856289072724310787310307475364869185933398720989597073921713835367462) 43268396335685824642360204308154781888859263033789238633959063805320241082304
    ; MDbl 0 5255638149512076742931444102730980629318788759607366466838805789814650336899 16226138355454263915226311655982635481303876369447117869930761084201151844085 3971967810119600423191740103889329306082231661739946935264467796269500153382 177399260173901407567871106400537173490680575466638133775362376085342587540207309 (-21578673771706393842500154941730566790508115306662380194193422302472410435823711) (-1392201988090266358935704100311177955253718887164337113350737424728028504700)
    ; MAdd 0 2 false 37085724679302068445254432862905718693922322949956193143769772260423431481053 7866010049960281118367492682274531387267666643611699373265311491033359182787 29225852259240297924543550816427231358649542260680053848355854558697367419670 25087897984373117012182175247863682390308896425858797848942703289931124730043 (-1074452884619248376600524895673199108772834360068630885324676982344644297821936767) 5912772802698698247101366914248767409977633711161122219577293531022358353134
    ; MAdd 0 3 false 19279003992933238897158731364711554261656791806910459276950759982238009092136 10742283589757731561678646087241165704871698563715843230633577830342726360537 11314117136529646569823163848458926785470757867016537026112840115936440442205 16115690364846174795661481807407442624216756039930864804313474893944664916191 (-290364168857143177148258312485836175827199094666479946091636725024055834123942207) (-1057514323415501571720084372786845069533466638147722667679353167322872699875)
    ; MDbl 2 32603937244129283491612331647673487472966998866362686387795485781850545088461 13893771829363896234788488392952703086187636249945297239308651775201701870593 39396530069481001234727603777873128344922339000223999327380619024070291663685 202354064163469186817381565619540635859171365173804371376382840233519597388436144 (-830450849329638598396736288001125892907538368582565839053869080253170150369428113) 1450234817154935894272593984852026721568974804263939694931507348197593935865 ]
  ; [ MDbl 0 29208819663884325334956850252608359331642848596211163079868348300813758861631 2246224431717723818398653573757940742445768727796988533321151205802318953060 24966332435119665284089877960333556140730512225246336098916315949859909844848 1797953598991662237854788670989866450120574332763253622795447655534211218961149920 (-666502605143257652652502500662860509248165653074610626195303964708632714279151724) 6488136420497409596268075573558184285190890161644192461899563276998054094830
    ; MDbl 0 34113809635987761311617371733455418082382074736748869995782659047040786646600 21819150830471176724370082901964778555582384639099068332588673604304702615703 35633187895670645676451012471839871944867527287989310124160492613967851481839 1330726780554364516113171507527313881623132286287593595282251593018285741489457857 (-909147355538506053370796371399171656548669677598312762503613187090575066902926945) (-12733783558608600851537619275035586000098357526194601422448530283867359074999)
    ; MAdd 0 2 false 36632087422062315220870532393869528066069033809826023774041603561229257870178 17084914231634459193291431530254203143566987931273847098918985605113948536127 48018822669456709545051848200948552084998416462426675572703951048597772860068 (-5536727964431083286130378562579321005593742041953935551504092135266316964802) (-1048327963390946798762936123416735146301388326866765967957550670683732737731973097) 3307372450371163966866668047225230783872777360979067580751254242824137804317
    ; MAdd 0 3 false 32380760318034632810856414965223821872506619951620796694717331551423514765846 46091300155919599201595545540949309765934054485483444664297002636437906428915 14643606480331201690204241715580012793899306657861491340714075593679619216510 (-1970628256389957009103346015218152498634893284659989742508367617311060686837) (-819120736619516721031852976507563974114641925429639426008776094391193169395307717) (-17912332485531557087259684999768582902765943139404073016830491455877120117402)
    ; MDbl 2 30961043045010227098920292403434049072464612771997632791581885050449502610694 24047107143740259560932682912408395304772057028478837491577611534384853162247 12715161806967807416425203794470574357790017857148386003834396496732149121823 1723776499703007081039519298785988585494128898793850507640587127908487507837145696 (-748867534106678772975263261574682822529994269966695308892231903708082322320689863) (-1315508725412636525586773426447923533616778144099753026174523961816840835246) ]
  ; [ MDbl 0 32757250536772615046478959991178179998053672264151331221316373612403018784513 40785523305093300243158193179324803515018962233430502357081930820433798765559 44884324018666732619945649209371684375072100717565817869160871242431190136905 650811537763673074282738812821781846654681555862159970822082202613765818882924456 (-838279259694275865520228080551705634187619004145806357054321741211695643626866187) (-10456667118742064072289222968563316043857007646011804026465808651380838305368)
    ; MDbl 0 44772574583658451143332227971889779071408960987092966193166698170705150622924 27623277103594512832997717405228801481922924923904374136022438547631487136778 52183977535306429589472616994866394324202651896134209457087204066734835501350 3139957379404381170325459918455488884392852216637744174963221586749072638463048240 (-1566022414061241373868543166511577864753404681270892444447859119447512513785959994) 11238634766310284875609873424529641796135747545254122847582678279842573081453
    ; MAdd 0 2 false 36609609507762737739733146470412072026268402053515397365477709384627312050979 40447421766209105144614843343855058257286415144848190566273450251739837990743 34318180166862209061350754201993120819309902723247102339630750516126452150572 (-2496805580652553409434887242496326414796736387411495516121966632458022941794) (-1047041823390610120300633474760870475492720818392838897617407280033823114474319758) (-8953544244305637132742592826346881497054791010789150184656909723293161424089)
    ; MAdd 0 3 false 48215119514232180278500782857305141952439675541982958030854343948940769559114 29125224536600195235993736384755318731288937121923608288534494817093159920320 24226064273764781446853714474802107252697210260185519039792220218861611857046 (-15080193225580925614103495431710472087387673494196052502298358926684761789715) (-1816102397520791429433881507563749898515328334958514831087838320564855007405562032) 10410832102374428114710842573672086037301184713717131408504187878995388865508
    ; MDbl 2 14427753466169476186578129567261920270071800607860834010866062438984443748538 44293976813862550782063221874403557773116135213948359778419276713046536777236 41156152140085509793770277986401740673469533714058953773586402691632612391877 1176402233249378572596372048391813435384901290257064494936068201771593296623939125 (-162618990954216630775686523275037544509025500831419642134091362792209720917103290) (-4586950150540923769075531128750482083180758168939584153002534764393742807087) ]
  ; [ MDbl 0 50973082003727422347866100021792465023963584770727633905824466275714792533608 50903121817573391857790663610555560537852752628628862855584950730652367899382 17906146623940459596547940555580057528608960201416303579026046103978651029418 3277889897795197532308415181837616167279291190200794481420291229282137891325459777 (-2029811099912644492994476251100095522681957907288289061946553007211703614542344224) (-6424771001218772664380474471813742921132357828765221371465790419831231980351)
    ; MDbl 0 50973253339398209484518908234516390802147674598419279393034165405384452459796 33919613487778254176469987184194518892341955232172457844543520081647665886652 39731210285776153427759916959508168442334567445615079282508230975063391243226 1426242800337384747501701827092345630437976588326264602100535060727290970447475525 (-2029824745531751598212628164596590774730422602077611099028981496029553192211288554) 16509778272892990428891834316808189474793627005524331254341358672645157453572
    ; MAdd 0 2 false 21619757789202101019710499684496048528633389541341850174577014257323993903332 20210635756626977965094314817039738623997607024728543435458184445386429789116 5407711721389906366995493362595553362298457615458654063776065518326144043681 4277438329731927008363743400245517383598343759970378874447432377908666629749 (-365153514384938216739337297036282926659453189326633105596017494967676363110933454) 5652328240831019564958130563845946966787540059927839714601603191213916696965
    ; MAdd 0 3 false 45245249081539558696160595899654144113471867346804264131596110665682583319136 18114300176542265111777936772716642821134757522764888471720967103863718975983 19328300160594329845976726991100797814410060694234193958893353863341419713684 20780749080873320482491697038725061662716679558513396803657904310406584131548 (-1599262682087021649861451856896666824005918268946971056549557877233694755837291457) 1808861302736867901355104745744936249023533220120035691194226358459098208171
    ; MDbl 2 45305836251328433293714054125628144959229381542488914733530132643611348560523 18479913917442224508367197250279999763383403335548790067326528420150077463103 13098764913177229218380771117747206147887079233584106257369751963393268582933 2812547995309880375577200664032453212337467941368944981818202325115789449619642385 (-1603548642568712487833854879785918267015529848527051891857066941543821232645530525) 13340265575183407131213028812626705586487432429027380540914250787034335287536 ]
  ; [ MDbl 0 29041229684394354519812437379588762221578820593239672080689619410276456241812 43500225132687382981140305374542290219627645788759807836858858832364050844788 49320636901876306601424764085607598510053544517351938646456291905866567127 594379001535521609052877280483384311927780794253765750376549186500257277608815776 (-658876229693663614923533256778016326277221398039966451489082794647644337469749044) (-13857318150029599859165812573492353687886390610499349988242109578285405372560)
    ; MDbl 0 11361316948748956436946159243994582416807567850113094296118233788768203907046 3804259984018212447527884227172687167640553802925802188089148926535579520024 47156777232421158987225550529421040831444036543690418940315803654631612181951 983772071849464661372790172519083262239604694975465752514698854030547293483217 (-100839617050851668412178840681553259125506150011279368670830098570480277640056722) 8600951927173352021774893691018393812736100156813881874050736953359426616082
    ; MAdd 0 2 false 48553258231289350204585872995423552331800560633860701488958099208435107860059 19190793256675589482944414134036108147246444924919523859913972044477315638507 14876631905957958823814956264804261928224926578374940582751458257751750435085 13588994419617952745518051663271685138110170943742924715128060786763146939783 (-1841664831138332849404003789011811992004068337252771531190935304242021637181627560) (-14247236663383513169572285506290922395070356209693058420245353913287820782541)
    ; MAdd 0 3 false 1575997370830227952028388826640780133384070831853701415579472498487223936826 34879311261172061424694660419164480316192157131694346813970612771149576356847 34750601823767949892600545117035799221608734222940810462212378654771996904296 (-21365982085119583981686226889668620972097721395065403294142059768844437504) (-1940371172407107244050971165306719981288594894879508183523073232994560152651691) (-471529521434170123800689497866824613898911472871921723877542376160506695517)
    ; MDbl 2 19726561531143189832090150555245166121902160073157272618622914557565923278040 42132537677671989607581555846526685960385261358479547066373640995008251908432 27228031081376491484466061648075610074467869408893374916450360774322291720164 1453448299585061479030300177890214843998684072266141808381861438617984259224035425 (-304002125071967752402804302509821453437671571799367396137461379838095625668616834) (-14419233507239438442653449354811678275897875439638332772016501212270454944995) ]
  ; [ MDbl 0 38847981120698956386726691656798026945373446956749305065271625941532278783664 33641354751329332901233325944092811958896228907379765396117549956833960387011 9797947852304861357928845419058690110425693285352107921069769711102727396733 1652780618977198081918555311755420027635402796381735935106688145026310221779015233 (-1178991691354661483101889415976138424610341763923496328323068915530278357454555237) 6290832620095903676916819401747209985890108279289198472740431364060744530319
    ; MDbl 0 21422733556437632881945694336785482220655167326561911108318955868840477930843 33191289590775091650998836363266417714780072474735941333124310239572797649223 18920187752910567947653918576013228447114999334982990910126364648002344539216 328019437092979576912372918330013994157107078328586159951046029621411766651058720 (-358528438115661744491906640952113677321652729465269720875788898542801537047375411) 183874608469632197338326366281672192766773113747087682096207383223907956295
    ; MAdd 0 2 false 7695754430119302681381782989843464733303076653121990718957656258372035939592 30980203756390129311369609929525322900835179614080735914133383397980155310852 8403871874353788049492049083187643240550449195183001342914581206547525471934 1312262822842585409360815483547808934923367943131425410520379842507187227060 (-46267521829074612142804027243041002872881421443006419534336506292295017121781405) 324510147842710410683066434714102643635516365909332726598499065223934703114
    ; MAdd 0 3 false 21021088662598807270467588540954911065701393433877564369470446552605660190891 49830116996017972693063088094567531804412733808779410786411217941877196157764 29575400469870256396000130382991640849463111929266637272123486671922791272987 4470874174812703140089139379110705513440442133582667034095288953029401832350 (-345210696845829693582799373565890025470209628463925654456025002547564126550720638) (-7556767121157493308490528774484772531854390115642344331761155065547312303001)
    ; MDbl 2 45753819393596165693414124572285315419917659401217787821796117298379220401522 46046505998143642195734512270368181248755135069744294946513308035127142110309 37076675811935829517674986603491662883043282229867570826166438568867752012983 1352623302665228631182731540427052825985623416278020405557160539794818594509465392 (-1635417134455417073498273974566079994873981308773591856711260714441034931993965061) (-11217038865165071243671413865734554637887363319134726851279041233906866129507) ]
  ; [ MDbl 0 20661391695692847484390023490549800399224157078790329339443879604996325764573 6355775697509781109292508634338455258681812413468660355842433590903255318072 20533905879104903714844086601845771032480007682855414922484231796241009395985 1197038741166544890224745846388494307602532952432048053328673758328026053223500024 (-333497804102011406174963700981393671380385380091290514520185207337458055824370216) 15639401892132667922168411123698590508409106376978518578582320595480256026641
    ; MDbl 0 18306546776056306560413386058583095216542439036443525241386106125769676409989 23435267168152282943028824011598986984016596333581698074957933050780744967799 23820077372030236935258991707845699603292495893222443808669169829611590842574 587331830087830506412613599479411626983382492290113014830858797581007933694331977 (-261810280385261060849239435894936597220457517727769307436464467890341201572861773) (-5962835720283545833139049585306753407808982095056391565903002051895702085274)
    ; MAdd 0 2 false 16593910638195150298142215145882606538332296670339740770871163316008267604966 15589208692370121373104578602892079233190466242506421381457722125469949677433 23536673293094602268994042082162676185200911467658659531093392533052377762847 7155575744862389706774289355381884423534742388790580863158423504496235534827 (-215115314848901923824591151127795509910639295832886761987152529009625138519405799) 2482971682542714602636850746703224520955621224480690047163640628712853101895
    ; MAdd 0 3 false 44951808624791586688664497987555648217258207879323683355530503103609654703925 43415464870637662987366040807373038629326913171804996239509619078732171595602 13107745845024369869869589359703960254623114372273579702461013852579233882629 26110188780962152639130554850519531347046052849604158091642334049555139778628 (-1578585745431589243003855324302700750109063069042448550913098466450166719530039062) (-23854670839236103589093015874128004779715771555754311487772763395605912700177)
    ; MDbl 2 17589131704310638763058874270125438593983350603464048472050838038369130179154 11888058693380794828252327092311351650528607425792828206778994602678603369673 47775183534953510093173188529010009319472725710273923799504514839979957423337 654654634115648509247699496089341294369872962095213975300153996991475501769583536 (-241692201842733835339224114061690819374700788109923212942647242135514009784959689) 3873404801608689646577454255913181954202620166495107848670029699115155603461 ]
  ; [ MDbl 0 5467659569672455341481954288265319658723931349965835338615660531962632824067 1179824150377951488487397546480063005465750885749494786436053104007907043577 30030209508898408827009496363890097687610165802028584592070573439310145155882 408146678460429861930027372862588145175361026219575894238963557772169435574088304 (-23354833175395758900523251015699516019968406934058597100643106336200351171689137) 1116582509165791678139619772623989869046633470242810376591183714488600279901
    ; MDbl 0 21546808324644983589131024379798281289778818121156178816301595080800572798039 14138030635813632523148957245048918811661123203874107802869325293012829039583 8970806088096084689072509944892269495449794559016655962489676434661788560670 1010986081995187552790986495009844113931888121573149840894661082096632317680059560 (-362693467143596556349534821947636673266814674551585923529228362615102924917593111) (-5324751240259664732485959347452511581929139090063298142171838005735361041522)
    ; MAdd 0 2 false 13106308959275173776934701474958984383530020879117666346520805629086256391749 6735966277670360777169082318255226512895806366654476062597843791474643131780 21861388951018746241897706518807956798760309304745239640545625548484280061484 (-562378854719941257402777437775704947453002009553579964120759233032112047289) (-134194476213675878881633394210738348601258418609812623581858783605592075065725074) 1850140616329116718419133709734138413438821665143896604445465203486114080061
    ; MAdd 0 3 false 29030427659140803951761402605736747117181096040861741457903526958680007886203 39211252351745516095180481781488464538652749940792514585955795797726778968862 21392225692880973442857943064863100459254365339564304234885553573506811389531 2852387714860521570576138171926414561364967569233825379469359212186818973802 (-658386176475430749019159572684879456000834735738614562219647230433587292034390481) (-17979511926417898624732925641396186731943756934713617201417315507674965483397)
    ; MDbl 2 9695130106679941347481744765026752573673376677441646804798914153582213226540 40520311364803818403692000644192162082966289622082042676631211150046506890067 41073874089281612675581592701796894403802014735767734677554798613421193150776 135901887813567233761671473585185745040846077642472016054001284496102586986331520 (-73431283574909487577582932978189595965893753430017835884067110365561678514047315) (-4877951275233945413162558995361056965554336787361488561946825192497129109062) ]
  ; [ MDbl 0 31128818861217782719034777983336593369720699420640344240576733352490824031361 31751808557059314481652882534438065425010156987119120860635360960298664650669 37984666731552827326560544191909789831564604246551800838359938550767527275489 1997802549891874975870584893192088633698034322067322409311370321231553667375168968 (-757005650383641141919270401576801335430544767866543026797384035469990930104021593) 5205465431343424101860899101932731145634690256855975578045274108387799292301
    ; MDbl 0 33048839610655567910722851581297791249408517304912321659799162613034020411424 44667961424757923747940392596468405339202915300962702172322710396288352533595 2615542733542877752773084461966864798375748792864595809714329886071131374077 1961467602935956681014097978483170563181619880146532052772462442643115372883574896 (-853269588918435185457063666954759889634460517846420669833275371886405858329148343) (-8140683512683509359508883168043377563854646392320825247297809745456148681630)
    ; MAdd 0 2 false 34725927628140150915718643359842166523835813929809947164764026953045316280280 22659434482241912655832707635951597394095404238569594557860508983929596947274 1271150554082871311219668833138893597139582918018184982764522801130037642738 (-2746802553171475693000250426902122807155766047772051062524339544698734827003) (-942066473159083527002985974373815133710534171175047230637487005548668716877796346) 14575259996238717752523674297883806310066692562316917400247904607649434758505
    ; MAdd 0 3 false 6832618996578237700580299567927279842610934029650098887401374651397155552628 9765095367231950544301025945042976013836022181927891758765162690704772881910 16512849889190679751407958325465596319958103488425942096192996326558311838021 2327348714515736725044154734120197236391082288228372080954593011538091986382 (-36471048142073566377753416832245522447643883743216684863749156771401030390730453) 1680187583239414582273470983838708009618616456516665692364276372169909671641
    ; MDbl 2 29514230796863470644556024024077331703664713373469882753479499280803720867257 20126663034057943686594252663260464864722581086233802740360458667436605344345 31035054202265281040454603895551014711603488497338487263653847682689409061286 120727985983556235887840039428637820423655335861971572233830019006274314987409696 (-680513546270995684464868355646412506612801283809935144496795543976008715794153941) 13813396693365481967685876728903447618761794836588029611415762625291775502799 ]
  ; [ MDbl 0 49496987237104612115708810421291320227910905294903177187743893384469797860973 47236850194745602690132897431709587315407436039379766017501231300756167135706 42251864523514231782706076282061922205303657589967490724739469968881769826575 2400155056628180303847972545846915279510925521746596500948301781397465454677024680 (-1913953433017581845025366319195727013207183796960237289209453959206873419175497778) (-25590735034105303702587204193944740489391313687953449153089144917581487407778)
    ; MDbl 0 21787567610287179748223758794041146379515686843173165992420858801812900008225 45061036029945315431993667374164624364672488520225403280146882617511757116802 47039786991386085569779646034240243050045602003718368774415817217488158555907 1438457394100015773489584816448024160774825057155100486667625210006608040113528781 (-370844064310098859646548490484415332911458225593684293803264279179242067555349052) 904069934270772959015442161991034370341081054240974505315534533833216079686
    ; MAdd 0 2 false 48851710052072996132156552775200225126727425292234512414915179468831619197647 48444569093848573677084619983123316266394463634549632910093842195720453708082 1368398643166352522816067160544889768408318325283303085279853811774609894149 (-23230026310367521725708453262314601977468987629190325371681679451338966987466) (-1864375460966042907410323373807819828550447045156505837516053893189312077855975059) (-3152257412265196527631978794868962818812273158913877168311754872795164812632)
    ; MAdd 0 3 false 9108730944587826312302009993701275826715594851150942229489463988034467995100 19520035449315812509877782994262043555003597443191248602067315951272560859011 48171007205386226955364053945379004807786168632258507167865915021435713359419 (-4919154802914477823318185310839842861855394016256494680786268318125726481949) (-64817098248980142266254672575128315330797978016282706401624740607817679679614800) 5024533180495222119877048695345767920974048383452198905134503121655176956964
    ; MDbl 2 9564606518221465505184168056224715506543487978864179725437188063725040000184 24674342213953186907639359050154492636121304855752029778090521605771513205563 43659752043461808635290392665326813686832842683760901371943517450407757249922 703085353460238697725805764767967295496505393194578369480786288023794656720554325 (-71467411541167726504218979151529009286710708615804194676182606917789955302305601) 3718650712059070658001526813795726866144551825622951213326055353079883442819 ]
  ; [ MDbl 0 26551363364426950708559407016385146349853386647173293874557302694407591223986 23885073675524015325546412280326732985220101985170728446980013975797964703082 17862615803355238750542153290396811919209566714081195322287624303130316775217 1811257827563657585237416547576127669883705683256738555291075327528704246943039192 (-550741101663310363169416433069351618312056358287984030851402386439566732676225778) 399653017823263189378944388253652726437921041669324268966756371314449285279
    ; MDbl 0 7821579032013469962924246998517103521650031718810585107843699443888892356476 51503453330197795088118197630627671858706655366211301712741568691176016169795 4050707243055523502416259138467638862715349632341163696454681999120893739663 218327407989171210163425711708613675496235592234372143798309344259902593761549109 (-47792826129012299483436258987080947400094010169024983078696112528438496910214745) (-4119685968503795264318367029132514900618393244449452087453849639083858396636)
    ; MAdd 0 2 false 44742387517134854366137369974444796587024805083986441536444483381928939900958 50949799376431583451198423441228574054775645321845102784473947848757993151065 39594675130699692082263675288426429600722517564110075775396587218671643446219 (-22892694787570080365600161743572858611133915078014168588986748645883548765155) (-1563911403624404231946918600967566219058226559929935436143620637362068954800367337) 472420831483568164205204772646220183065595148873689177367792362874476629266
    ; MAdd 0 3 false 42332413928930386348996118459409596556593375832211237801302604559423656959054 35709562818251430157840633815868082853438153329281746234614051710213235409992 31674388672899219354089728086487080249557326972608768733201570328798519227619 (-21212643539542816943908480473032518246238144705038970865003725792683723465947) (-1399973788712487162528314373048223883445040912722372172588139828616246533759463662) 12303713825715639924216482127843781082600175863641507477701141995829018875008
    ; MDbl 2 38616472750632605096477619467215913479666113872532887991715080235971070661444 51477122505600903363908994272949637479780103647283956092033525870378521022541 30483888408364571842810452290446864929935505773974249558208993742636590480868 244555189857096398618452215829336371566233444421805547320122598971985472853131144 (-1164981534509691703987306323462106406409274568727537169331637722829496530872315669) 19391372169371043780017660817458489029280922244605712013842490691622939365 ]
  ; [ MDbl 0 20825534880437929777975767095307392428061965739479076979477034967012035074088 35574653426913892961992113068905423247616120341614041500126092386786040505192 46686313358147973275640908728023990042423429846504328592934775734501190765014 992057248254065704292511058235442782446695362461055646279782155142044191848432560 (-338817759052631803071365001037621823670283133438055502690515779831818113078508804) 6315855764344739262071700400806850082111521935431434882447416850591640400910
    ; MDbl 0 43732002539737765367897129537977682472805241707897566568534731750659119672984 29583695224624806986689481772820378775492317499344577294279474806691577030256 36111541243685263294787689640916313062979497893926529314110049647780879141525 3190087790386618218536823705092253872616165734909451626620546441798211629920990433 (-1494075574408707749209263179384870072560298438977973371603524721535786866276742722) 4996514284217600882886364324176318279921848631445340491640425192696274693845
    ; MAdd 0 2 false 46445017585347166874007622612748993079351705619199554153012007663585453738139 67996839345770181402004432268291549631011084221689596433045106939974141527 25124095788827936397026802990685305324966492055989546546175595473868599673415 19392078642196651564016117204444947902801083091641743059669918717211413826944 (-1685202519759654962279847606389870822474706768979214126039110929341501903421273210) 26143496718032775390035611763888181482396657246614487390537560135430502017607
    ; MAdd 0 3 false 7261934690085412524848609196922395619696454813848984434497069122894251759269 21840508350741658728928856641075324341759493995698460812058267600356320310635 41016424061541329247804254630543050977708380338489354879810191530017159140516 7119738381706910340933426118905428924584092995165169432221786304766385263601 (-41198225850429002165738847456085929035961043025330165732162796882240862446577013) (-3015312629127092180755011459600447146607448246415676960127065178877408618191)
    ; MDbl 2 11266093402702302046861017105521969112359098634295737866039028213373308442498 40864276523595432641646506759659111019351586468840787383428851006636769574254 3049954663727299932803557493788108842920672105332067013189248197447350162819 635707614309342998862532179416660330074875986308888952426017594404969414894846481 (-99156349933131258809472468343915784013185867891818476286153434489186605059727968) (-2423685732840904840576347017239677831306918649719196684754975440748060843796) ]
  ; [ MDbl 0 34502093663332588816627064910704433142022171439301670046684030332605117486467 10778776727518637717324599675616552652205650244728713313230411128790923973582 2211061507161323570032306896302850587841090532537468943433063556238674121339 164511004201446733132035141986459013416973566930713133939399610753709716625199053 (-929961000738717854440038496971592256487676842126442963138806484402317022643737296) 19795850234322269636123482998562566265346461397155069595652123440708142253282
    ; MDbl 0 5693453231814776803393964600729783556562663461335437664763602396934585447102 29065817691435846303395790692069266450588684039531866958586261628374337873430 30841888656435845131879490743128525891551714071318439922076577834783524207359 19675562551012681118821739500067249198201484026555712093315720775871469536077525 (-25323594554934374810611473562286911686823189757049544081567751106877382819561924) (-1985595017316178116669695488035046765147993068748708158590674298620096392938)
    ; MAdd 0 2 false 30012148510158582447412106291251273388731246432941937237252718825566372077298 26439622376843082347868278795079909244718354210521289697130048510029211504783 12147741847715936474129776642495310024945229756601852551121550424397577163560 6752954870671013627612700623443807933496064307446879939378501931530576103084 (-703668338073934498250260165322906764564094629687172195680254037482823474667095845) 1503126695892913361803379580771480924544270867510308018397470354457038183799
    ; MAdd 0 3 false 51486039673120311098907570744986256903614248132874715936409108723958758849983 32225623540234798338003641593505986085028564932272699556454339384788432365282 793472705176031636893749151454467547831914915214484745114741047043811055342 14163362644188833943698052634749164998919842638413429857606250653324423584518 (-2070869875353835810863245476859837178526760549769403111267559174276286649902221029) (-5681192207666614052988116040068056420650284635753584223419801111911191189763)
    ; MDbl 2 26508435217943245600069992436520976164160551627751272874994087543253911560700 10835344273479460452658937164891882961776878788930618575077679161127575818899 16110910643766115132658483852425620858203466073809273634553163078062301260083 1277454151329989742048629913451587837786691151571831985902098035679117595728954917 (-548961668948305686962266692254915027960280885507228932736748602271923874601910017) 9216234533672398682146849234622628977746756849311232400562415926439776252866 ]
  ; [ MDbl 0 40622242565635966830175602954585496139787049211991813618442929061498429559767 46685209657470551496713608681527473814513945995846089505256055625862966910161 10185222345308952906713897013382705610314313470964537328415397221832096429025 1022564400234129688407882380067154410612197368142553401851851378225314771529916976 (-1289144579173606644846508654475867840091038409082342875567529446759474649719733309) (-27773006986344776010001144462958784572641457598233733049585268545849452564774)
    ; MDbl 0 23594905302519549023526039748311663549155080359638411189685284998111461800597 22833972232021015581288976396077254235303508254384056087386793845422545718020 42428138793982698300973194408076121703971771635080536846579204933968473187492 375609689324306423331584323038394108191870536542407133894956337729475042193013456 (-434920935818062892740598347265740552642374804222159996143724337546147075741003660) 10732493479356476351989148965302416715541719715573224327047867006037941007820
    ; MAdd 0 2 false 16209757899494090949481530081192060023216836970363864653640004945870168368204 30833670865323701104050966472974404149052361029155326082108242997611741204802 13633065777848788874478645388428727112504647339414910183661791883394349098787 (-3709194395716340138827593284409279960865833135895388516501645179360058075675) (-205270667011442393120955179601480421813465901726469085066938606983191674752608539) (-2472985864766549546426186054675141436238809544159699869475422709957302574639)
    ; MAdd 0 3 false 25337384193022046953400950841813919546126289681349615472193543324101942907072 10739716471733108789936211556534049026098891809010172481754484368815349480570 32897890738730332081738443948089518698622901630649379124502986847757207034521 (-9663332258359075007893975980544197545739555906315099360944478828953846003024) (-501530546984235428089139031059632970611100970129633124498585809545681870600077393) 9709540285674137852233309929342888958443848162093403331990686455453816935492
    ; MDbl 2 32701554908993663524010672419883483920099969567280941782083497705652078525971 35424661991153071671338585171626205208434601857954673134629227662951187973396 37183825092845414253398217612216927769250900995633490040943067090122883154597 2167864792735943145300249578141114777081428206634483414139016538368536536502285729 (-835431108660480818419168650637997734114060058484170113642431568911089768960307394) (-7852164784610563475135220643271364360275351819853769143263747350894252250745) ]
  ; [ MDbl 0 15817910308097811716764930231204718102583254162327818269660371729941670582136 49245679325330143684914714779747735452862637028908333679937711156897057526137 21162187157087641592589446671582224256868620396217852017441241460651935201446 919053795296747928640184156852075341697132318682078677238697731287564427815351233 (-195466372718492542882844261916513739791457710690984522610278540623608500287020195) (-4169275554732875165604526586937646796923729947246469965378091180171240070563)
    ; MDbl 0 19081009599718043269451480821497811207915624566567860367058064566987821888701 143500192569616081079807421195964625688612542851641928262391027813980552692 5141837482016216803737162595743984772948870602329020734297358009255442352068 631046311174839849991239599874077909812575876241352442179616062880289688084462568 (-284430743530648459076970936982470981098505340112182008396423240861422728702127884) 17867903382372102317527697162889757768869685451718803791740933580348932287687
    ; MAdd 0 2 false 41074426462865431207203092380085289415379818322512284943645047760388609204397 30434646695498024974394995942035778355944265562503858574079043130575567523276 28518397667700073877601915461508863480638343063757599425113680235131170860514 27636679677424412035666282997234038393006013573563664957885667033462640465343 (-1318004376626436290039142807670803789183055669018741809103039204878593323872248954) (-23727866949012395716501331519360915464068252062422280760014440418078548798110)
    ; MAdd 0 3 false 50020760960318849644979806115192911222286447147652672878203955022104796268731 11916571305762878247661329085577053564481670864853426521316726476450331738830 37109068238010908543693235072020114854861314405225349449306811729544341479280 4760183013226405871163534424440077736133126033115001190245628490165867662549 (-1954674400145610864972422938297888707793754665656619354339528019912984618494294036) 17665161865258710610371701286402447897992466947965500438662987792599392823864
    ; MDbl 2 49057005404034243945818744565840334652810295522665514472240668036028707127193 16165487810759661893547541965952777198339976519603821503030441481440602514845 3036943874185841310979846155365561978201643482209066605334179824944926689790 394115225800227407182925258710017661925130864404446399032783107236510350931561121 (-1880078159969042332144504927290482359855919280436190711509838309215838550572123979) (-14989560688056681841149535930899739195339051712894833046377086072227573423299) ]
  ; [ MDbl 0 34398569768703464439067428623633941102137627568659554231565556813062346220235 40979792182518297042561987433195238395211402055050790070413417321430963527803 44263216694187027955276777038968265926513627238016129033230683781458395201536 163237811159117564716983947835587656054472512515356243209973884949342697022513312 (-924388657724607959879419008765466464330837663333800950802442724629009162158759835) (-16278484479242385620665668804519801826956949765481752036191556910289171887112)
    ; MDbl 0 9635425986110549709376116988898401879344041111578285425636232425649128018405 37757760530797949277015144449218683367853728927472787413596201049766467807459 19019445388254217897417420499863147358274968092033949632642921582365837691482 666469588672878279403081309093147207044215932982482901581332697892031845250708280 (-72529665748172056836272045572761806557328320767594121007729971360384616961705279) 592068834578810320728166543611268429896067779784596008223711229783530244254
    ; MAdd 0 2 false 26409614999251345770160855633292965686140439164177098766786552618046883831553 8108502008662318617405241560141369205266148263451685717837568983128418422385 18944730735133673056676424423616377592074747836086879005671215672726343931304 (-10875066118197510926650772611927984859101273225982577136250757305189932809450) (-544876373395411289828875508562979829590753352092849461421431494519553284822521079) 14933011034291171948123908563223187038970577037110538858076780599471982479472
    ; MAdd 0 3 false 33111804667849302793312779988999477086022416185420122419947634093704867607406 7262120090560888018938220538925672285754898179670030236763567952514752164428 14317231178054236657718099607671044878236860194713451706267643020480041657245 5087763657985714981276735555729515854293718213032892786492387013145890686098 (-856524005653253059220633833746867875127157829735509148593205265549109291964650348) 534466768276014597466137334834369641975716648233755609284224007485760748961
    ; MDbl 2 7398100231155053830929108878419570385159807710554392616156804427497044875991 39581631096036512913365843178026498047733362292176547813934410336880339869677 6567542943888860077986217930713064121588387082961169553023857459178070801804 219929247685398222309330091941854861985381486261887163984466883988820202062855192 (-42757692377933911192040263832743691009441848324384113639746383130739954661028857) (-257327205948667454141710584006845250241600162045518249376684552967150191948) ]
  ; [ MDbl 0 999439372384992040177399400996603826593419163599805146313256602191008233027 19783124286628152504978908747853353889248439789227674160647523927550968670682 13373850967805004628070277933086215300747264276380224164308243467586201634482 10345285905672974700066518304823322056587476617026371451834143919891698330575120 (-780345167105918666673262134221273322432258813219537326917219875706823394820058) 377363916472620659631856774707432575507279378131813992819526343516516689083
    ; MDbl 0 28029779925087853564509830165048041001234084447155947362111946742563315346943 26823856685295525734830448359572105107953071958274205508949318067273177368599 47208107794683509610113657890124473847038977143460897932700108933421244102079 585728831707770742126347457198200074938082158775028672226139154419917974117219013 (-613780677691728206798946074334657839148485213653781579075864965291191400184556497) (-3763648055591120431717868648695825224322349916436919776748748432060866450484)
    ; MAdd 0 2 false 22342917201820731899967349380896223936249061044898062421498848017644708702206 484302712504588425666732399279519330005383562587889610617474243277347842942 26393516196752526345847056876957853375811691913127461020975415296107667121832 5436085435528485422882483502088034088331305997168477247403411778354061899911 (-389990105631296489353093120986424524370804826708057536666480456166211007865189268) 11223279321294172723029751022898687988249862500784569041250513347603905155687
    ; MAdd 0 3 false 51853907327109226702134206466182161772217181717438530153520072059392907792285 50189926155809322369821010505997412481566847569640941171678997930023022908274 33085007098585173363297778060476725149232582351151453283811065324860278866983 38663400505212272248984546295642053458142187262625455643467119333592069149231 (-2100568317843041599898806117805881875208821863849083293646519538263476682789189635) (-49153957725644248911778575842422662700662446270513194640816210720543098074995)
    ; MDbl 2 5091036571589051639066186978229349767880400194941753936570763955343620186661 25749760629318980760505200559999765144799858578635049208067749199601780315913 7999133379644808909635010229117570893814017150100197262662836780106817340230 375555605940300615682048155218518049422743938165424404080016807507563805439691624 (-20248192925856949100762186627820055692712552532903591171637921212351919203454109) 104284753217394771590097923553081168920137001340068897806993216629564226049 ]
  ; [ MDbl 0 47243429507305627591013432784855787996507947631359189557369702902781666600680 10376492897667272598737540837306977074358662248393037547003358358577510656773 22332155610082264804263546985221826966049799033535848527696870765539573400195 590494814527018459141609607705552289911178706471010634404530174169504895406822040 (-1743639382235674572445103445185142882810857183121093629130510367991532397189775897) 13850934840918785253994023406133840229989828462583973141307762587875964745175
    ; MDbl 0 47083333106918874047267527077269293506508880853569411105393812425476483534169 27675488357325184734348443268077578873270642704915037184009935469724409499174 20976842837630474129158497958143364626415951838111391992429459464249285358848 1642870402943117419614283516726823680232443294637895520123235734263827388080319160 (-1731841872805919129760842837112720005337633040366458895582905084195028941279250422) (-15533150975775441972341585186049564097927038748887359117340985121328478198524)
    ; MAdd 0 2 false 39444356095236344242928679691390815264390889851314720919549224139204474011379 38326511460840089626155154495026614594231446700043861438502429649900676124043 41672732326546675345803259230399497495656299126705831032505108734591899867892 (-1448609182020091035664263789640118515784628674048256191972995110151142761677) (-1215468136374575703015679878618851204185518400260381634491395494619259524431355232) (-8012124269319401302075381624093215963244886659947425606437037509415007351507)
    ; MAdd 0 3 false 35043111624678299640092349347265486318031372028200889071206736319240338067393 13119588800199315668772630882664239719310197694534720478100409045218853607813 50710114661288673191578672952647865057352719593837227449730442032275859680692 (-8405094447128186000677209663005342840119544578911133712467980350290430991956) (-959354596251399539543860737241683327318092982445377179724061024740710844633136159) 16845890367259265807432721954762646603483649627482300800670387872539564100062
    ; MDbl 2 45912041737813833579704263500123233989608242443621816696274445471355705309470 36267490133606624678858444304998830837547690096605962562207053888431104450287 1859513461387833011282408527026845069885036216099727891493523043570940262320 1504815341711770748010057244526471954622791293292445833040253973628301281773613445 (-1646747639641395272518501886037905300518682923088085046325288687934034075507726669) (-7523023938220265109851059184185189370349796493304954344566361467157552473406) ]
  ; [ MDbl 0 15267220085193392121914161448623102678392422470773158096881613961876789321460 28696699899266198855464816833283925770398543670920928113005582615615590706404 27278040843976911480652047031184740721608431299907841525337304093184296992086 44432351654151397168134085643302759745041111250443348321954791745519756487688992 (-182093217174330967425759526753134406093359985053193812430523055243873385096146180) 2204309937432640059268314005405555700903291157913931943124958603184582772598
    ; MDbl 0 17886207509217752525739042023723757397771737709012401445429879386325354876086 51111957036790933128442108878424013440706383937717143550430445523039039934211 16849651399306018193953649872521568405831962013363306438755433227266115321686 762363531347623590891999526451480496068421766681094987505733552583458045118991841 (-249925383084004173032831420825156296509843150191373201352387655041440922993823325) (-7645985485990830057868192124394729081578313867787124550024104564075570377398)
    ; MAdd 0 2 false 35779306658950524821218236942697873670921211107538136909907119283608659492114 52201121724492747268822345393315296118448214494211662735229921299022314142897 14839495880552904757743486245066916784148069182917928505886886317137227507954 (-10129033447879223184404754012972309503941083027835793036190531244336418954690) (-1000086759177812209634720456485822331859491236522057302091230804393870481779761077) (-743185028060123430306240469628126110145626138496868474756067002221259641988)
    ; MAdd 0 3 false 1120595676556502544183369729892573684160936699310785695312500361107222017938 26880080771858770674014815887517872354734121699622207161816487561225861006000 42980735887912643549970141356605751488624246530560971528428318162182015708476 (-340514173034361428570819153325766294168050160618848558914285987361773811042) (-981006131070967523632863846093327727296506277212369985232430571851565254392674) 541130455488073069674226361146737974609848748418054567954782594088515040612
    ; MDbl 2 22320026000662223337287578452440858378032955305821253311144769247097727182424 34158094021158984468695213810183447303211848045081605394831355566109700716843 40604517740262254590996914591255765161527834556147699407897122609906558242348 587759830452600739891802570888108776167123928172062237076819512357991599016105640 (-389191394463008583653709915503449028075077611921357518343054015028834401082617907) 7216636740718995225810733878400922717944268260399449997051991242839604806846 ]
  ; [ MDbl 0 23245100419776022140268417349548913619904597809883240134592923529280240640614 35593400943800106203917090816073623607138128028962123897817245751199292830911 27607582750215481339297438900522916781184889148618097329012270420520549819546 1474786908838517288986677152321781166888405212133563708090080557050936634938071192 (-422120739124750249589654595834961127592659027533109181923594840753157414905694631) (-636279139779081164432472564653894099227945824056431286510407380575552247742)
    ; MDbl 0 20766563436147555613596196227741248209563286407723086621425615263473733808365 19069561773641258503079093175226464208475190002880771527001616537870094007122 33282246998872407010948103740602596726966118880879925649240926483547915982885 895843171840654324069472885717072006669406706488618586313963397246556360479578896 (-336901622604729190903302760769216126514550118827174909156489202562626039917843062) 6544056968435593513815180909870082273124744490897973998138629293435954191658
    ; MAdd 0 2 false 29931483096366517326404421988437352426154512317564746967653285469329850311065 17129574120419678582575538189113461015993898232198906748764473321179690393364 50483191307716102242092011880254788717557269582878476289889086412718487904701 8612846575121000675854590509793174266545544539987884484388830295747370006954 (-699890839987113969174859130302625690805372310015245506817631666896960404292389207) 1107385114783139060333491741396652289126871950470069750545136092317468730668
    ; MAdd 0 3 false 48619203200531259836844262149833576071058937872117437471293842685565419924617 35060566492363279649638899706635466427354684988861102326727523273267623703185 29010895958670094432568165567997867140084550606187302331851330802217078578855 15789057901546549003923444262687763455085102754071362470776804255438385216992 (-1846670921797744496978200372196390318349699300312598475110964178445447848867811350) (-16625841731583226356666490557529921590333908797562365391300283098516910320201)
    ; MDbl 2 30698091537662101166138776791924752148872728910404210576255984531132632452078 20340743079952083293786572927974299110475205661956102477830149889428664108455 44990953801846440440552815078091026595442678571233314566897662396224182362566 1596369819049538880439960828010171869472478815895126068400386010272486809018952517 (-736201317049593263445225797886429613655642170448655886723348164337101870184243549) (-744201178520725905303175617858645619423081106181475565485530685115610250225) ]
  ; [ MDbl 0 20612933140036202575164588484458604064683014134275923476942509691036462015085 7532464897980002420517741436815278613548165040190454265911506963564274094290 6055040367583868859012579459162873095230464720529737788613236573685854594655 1449025144736447264007985757221694988177223321986169010537471823670072791166032352 (-331935288797493473991138768763423653283854492036701208431047403232403197777208774) 5035029565582902969942860015151637953844610461428874750273745935784411168908
    ; MDbl 0 9779154510351450318034225795813346760935553015588323400883019405056650673145 21359024985293226364069746346231441145834160342818082406331389874804355192685 12675647703426655341880817184288243411027002964045893340765149118777019106245 92520382764279795353227474608845691962695015829417496195889598144188356655973197 (-74709607120717619600503806488064092234509187161363588236343802739179198237022679) (-2578617539783802410170690327609551284245442776792002200032707113016556031975)
    ; MAdd 0 2 false 17737271573670040553634147793460994886420727046910967689078835609536575497600 24479859383893035887169785404785666018673592415192877748421695514718763943390 4155908775024563435373184661108044523786744998248107557716128421075889767012 (-344450104690115104875112199844610615628965072024671778059741005867510505217) (-245780524994707056512107184843062707402080282268678719940046998836161994758832884) (-1055672039029390002067236901419639221331589800895397137139837546874053989289)
    ; MAdd 0 3 false 35853986405202982168511729739929841559694985135589705677257520160315585931397 13502230815436052596611460760675208889140549656039756276617131111993654217402 40602179067767737346799636610840684178232556508772752098389425442408956568700 (-2830196295864452217212393061537707282410418356031078342014938869400387933173) (-1004265944084450207275364798809027281568001472361231115839445833561369752502561445) 7506153833426073801158474112356516464233547761613867790952739674676464923348
    ; MDbl 2 20307578644881591232531507916973471646863399131446653813292199958902157984447 39684983453758567508719745552234283859411542363678630347377811428378064451937 10925947904388930748272464631176646913239871248967575645978314414148216654716 402216904825073285629411414527926165485007736557901159189280825344199597236419272 (-322173729182625005551234986563627938264886837880781141329002777826535161034969665) (-7097351605141738637815009965941883574859170556172950741581429898267926187085) ]
  ; [ MDbl 0 18783983247962167567979639642391330849974077913669256873091658220015819676524 12087273349587873927433552078051083356581379036337583309914316944194550045579 39845734478544328050874083116212296728822357216677771277150075646129593673352 320754432180063646538000090146664346438856163316713329866109459695595774491495496 (-275644429997904069072153953356778776707212632929898157419812115947438568544240783) 9886264366667186121426464580844076390201440092112958085934920665958025377348
    ; MDbl 0 51525216489654542082244849139127790226683153867962062015973243889906393560832 14123286204415881316878279133833599995989506580205395596491336370280061008652 14149793209368555475452826126480288547311010604787069140067562100783375474857 3207795144526599074269692986355157195656837293411832609324487072560094019169142424 (-2074022611765052361373936018266402635536239656140176067968209856120066574902612516) (-2000653231596991311294611246829748388306794205020141574969781681393105993265)
    ; MAdd 0 2 false 31723840060702529991972922111657888235477119750464495882607714366091982122379 46488468175969237551043830787816391730373779643602224069729843854262694450108 30688800868415450148678756290608655782010278035005386020617801793965114392677 15464892928933471426336960215471414007491428255092742517853556358142731837012 (-786222267586365611945325546538078080016663337252557067572401984277846230921637391) (-19581018777162437545069239391770610436327660747731074296405099771946512529566)
    ; MAdd 0 3 false 21150359113103578628749310067680435012647202582847219703497999101535844788753 47246777911096104684522659086676082826867602193395739331844821171122301374411 4604373700292196524736974383532633650355565874636281895332695803741687977498 (-2744230826980244417174960736560220642315704957936667229319284752804334270754) (-349469539643986899189178226652850270785633961478446007861828144200712672762704238) (-305869276775298856820524276152540635631956499446725858626599371081081358718)
    ; MDbl 2 18460583343047272421642043636049871418976232003617062615223125208837220599931 39675040493569707927478340363845078260402125324407519394428434240926637400184 1702896241878772897854851432381821802487842543371087299045891332274589551041 408142188580682057670157688843654181636525964364797543417686924726369579922755449 (-266234711109894487774830569124778940409933436580347062033022520015860718433895158) (-8995755063505615490098400960894283010452411598308354518009334727008043959630) ]
  ; [ MDbl 0 52245632558998791525254526648548950130524912399216459554684574324891537888971 28554445723712466635376723350133075720845374691304923541691010327699657721688 11148508126114401815971491070191043951297562108685161854213095290493972033916 139098768387114600433133387494244469097325252052859531359978398842586115175578361 (-2132425267763136375599864942653998130857904695216777727607632806753675385366617134) 11080248136281572736234818664896791229820926409875087345860480971161318142243
    ; MDbl 0 25347788015942444142290093696936932904058167071296819684594947466758425184210 23831951969778297567260007106273569657678811552273725048349478897317893870226 12066631940631660877982070081363869287647040218313574894208145311752460836907 441577092126750149357354080469240552869098041777407465336736421636919465634285025 (-501942500026580112972758248474011781240054596605759472215237517805982200009286228) 2282879234522998475996423251615682908911330200289663774142487326244665385669
    ; MAdd 0 2 false 11271274490368324751262422606329727283689272204574308023886023822074033405665 9306373455796605615688040761327113606421959056874457041419875685370701520447 29346906725244599886894014054431459986082815217591290351911520487867680479776 3405527206906727064139112833586246831314235330033624379523442874785014301072 (-99247571593199273715465253340086583675088442133488981565520965852168351841654863) 3122323829166260795091285916794609865969848525109442514475687835478380584104
    ; MAdd 0 3 false 17292542576841231666396651832184773218994017119019770600755009212935930171584 18892932170793551384217771848178080922643063250619974447465562572002555905817 50211661319273201286191178069322647128365618713429425851690589009708744365582 10015117817690594954650315647702130712135364838982826136911598327375651572511 (-233610061540872748451088051792959814933759464370740759865128403235736313603024338) (-3161499149023674135361672651562240415155945524601105006600563881578792055726)
    ; MDbl 2 16244625344492305266365272523916783534570206196669814565796427706882826841842 42089162796577034020088243321727062567369500384227502275285335106452343616991 14627615572437425982389550568121950608095822982127694172149654731443516744434 306299066736396320793083992169331965941662099198755440339726635573618170272543045 (-206154697658878003203055603639027211588807535495687846605525281707917765742931477) (-5656080855449178188585845373721271732773535881254923689435664563403042977767) ]
  ; [ MDbl 0 22871930603637322991343496058260640622128232949191756707086859589131804760740 21339479031579565810332993942879583944468319145403795921738541866014616654826 20786638873369564015475593622282779536864505775661563839974704138769647590487 522834685779804832205922283744595849278063354860286953227604373131598079983884416 (-408676331079215922757279330422255195362760887182408448617456322082761277988570090) 9050775362009583970073494381691150467601595958306969147482133176451899450283
    ; MDbl 0 34874391199097133013252240201695797273753293772762691008811534709097052231409 38032086505517518891361126643445939039000329869257254220893350598827477546839 34982967194570958807954710067892649099610630983785106995355064557236438884679 1132673468250262845360983515093862968133499930120239282185187742226659807778342029 (-950138915801552307618310123059967646078243298422254591960242966579567466614774449) (-11102027404612376738175285236591814215866102364519055057967105698818976101691)
    ; MAdd 0 2 false 10317038379326618765769925355291368815767183423242753896091758938886352829440 39352090626123161341692283155142432554928916688068996398553877550067147455781 875282052468897789099677769558042913587901915153669469147360948157581538322 798251419718320314611874485293513507224459830694209085500047699485528727125 (-83154150036875096210730114742899126379298306928059154075052356310031969923107421) (-259717857815365853282961105933354899699014171342194796076237772918971784537)
    ; MAdd 0 3 false 17624076391743929534668351372816750664596545416725693085591102055997256295594 46110782993304799314193525577215317415053606701174205827839005112737945765550 34632766347612224750332623109690090777946862091439199071578241256558365902938 919949726417040299831578758563685138176801264979941028679793387418845832356 (-242653505489824244352579294001811558213871382128686431803870679171615219331505476) (-2271645322781038904537274587380669854874375633179243531188319031634164061542)
    ; MDbl 2 6330230004799022948020022354405349812879585412999016914086545575487883299020 39273439712132675246733555665270519299959413055131103351683889153733126551929 39257311418605325593098302416566230630494303173491860296291529384280456379424 346085835056368529686452379788048322563879499509454719561522497542623743111266480 (-31304935747687352200159169508092118302490303017636411309514219663574467169489513) (-149860210949551159250651785122641574218609216892040505592994777740002812031) ]
  ; [ MDbl 0 15348044847160068831465181452200357180084733037199183297491934168318397097981 11945194471959319900046221206352118307778078746659805477540169020549528163974 32758389785973189435504234114459012630618226654178807421792591677259656341454 941495291935709238322669718103621111895307579608075710396177612315132278002832504 (-184026325951791235118402078641959644100280104743648852518879198559558044049836446) 7999010832555631988361201850142644298381457258595228975054569569034382076729
    ; MDbl 0 37552953380709874234487280975737167495700528877154986095750669875274418602090 17394291089263873542699025270111779989753635007955605280114433151319561903383 26068717901660102353158591561935625417320705708002791837221589881977817295668 1922083811963203484526010974867097212695167888230839716795222776580392700234211045 (-1101696659856529547305957077023490427495677704574238156591468752194880566332135861) (-3902474604518304816349991175661623522962110057324767188983092327179765418764)
    ; MAdd 0 2 false 3361619154035931172094236605222421347302360607504612830392557582120097169385 39914976462750364919500834040511005852357219169211777183551018813167294335216 32587352051851680462775076307561868292750758510273852110668024064929683665372 1402653523737198273454668919251545403086526985466203213579305047190625509958 (-8828173418711192037916308295910071056258003181014309978833444836239679207385030) (-1443781896663019437523668972654010696253682797616286410702465899265616030865)
    ; MAdd 0 3 false 39738222104036401032725501666021407523688835883854664303651906731046837942732 17957328184799866049696632127866281646898699359110764892782219496943415711282 41405260242826014683386316785664834163676563930471979199538649370974634111168 (-486184883894926086821589702326947256196510938844205889889492795509408488472) (-1233646418084553521660253751511976659611840101865770376231217461501707377997423325) 16640475652162307243852276792797447737599734839457493530003654451849947208396
    ; MDbl 2 27304468266953186112173000358870311414909030570064001892428678312379916343784 26439158102886831264458543102878204739893900640905601331286423883108890014885 50005870281170832492929180998848455042446755625952481279266487634008486937399 1112151591798639209520869725734302535333097157999675873821952040791114848134280592 (-582426709870689594346570480269471252784502221089930238477754266018815422656141269) (-4709853388113786579314108909746911782393828475610626426692068408468042458395) ]
  ; [ MDbl 0 18159867705410236339533984264254847247998950946250315094080716153637664097755 32471939608721339465868855875055924270628126486987712296863832401441110585049 34354931558805954459077803149072881884799497414690409504330594580847036120464 1418893319147662550457301707027773406552630904513502111556407161064262016731103752 (-257631639492183771230525484892887210044906736144994547693994238611159260937043337) (-2089304577747739869150230011679842615280874749013830224370138279220661473091)
    ; MDbl 0 20608830369451566063887715123816122306985410770702159087764212733217503666787 28734607778150222223945842798591657466281564305686788228869393745934023567693 23930333256056980120671353305154018731156980937652194621958323768526548215652 1106292447138815230191057614688240206336141754064419577669659887009905775810448568 (-331803166037593265772820803249909944211777864334328553485289637972720924417560613) 1468880560748773601671146830919529688714879070135044248034652455801478027312
    ; MAdd 0 2 false 7368323336065626912905128517658158165121742654960218604031375499973653139592 8710666158062436339291742383270139081535991155313287487424394079050887828573 8613718616624687155308614523310354861399369009209929785409787118773820081372 (-322558083612014492708952341073140784735191207833299655082239282634466415891) (-42414190932316702177711379447869367183884146792004912457781984215461168072454993) 2813777319946362784553712403444134794051064284650228289075663078407201895232
    ; MAdd 0 3 false 25319836814698892597782275335305205711991755237531595521105664188320933332296 25958409364570151468830557087662478395866235714508073223526324974167443204317 40547449785560856169519333329763707797420272749574385501287804143467067510184 8560599427671843317058846765183522016260173504601800533500254121701278039525 (-500836118642534086980458368169011113798165215098266332955613293226708768833577697) (-8328459131311825152855537824700443138069097113479898587270601540169722173060)
    ; MDbl 2 23655618444229269862274600574939515111287220769468674441688254247014801322508 22154534610433128618788643395107638454709921520075732706901900044740094270515 7455474477757671365737489766220678896116657145297240177465299784581611764717 884524934724002433199923996749965315840979983381597367454420024730644007823748656 (-437162045800810888230077269672197804653953037251009939753167267236326735132086543) 2968496276085125938032603423429727507240675231194235272468569732147832245735 ]
  ; [ MDbl 0 39970660692818972135103859990735415865437128562469195174807267346802128277744 604110222713561059135089044010246790632045285414796849912477477569306817057 43509335435510326670304326979887652067909413751784771538384418104755045989124 465636095612058662183856715654961869183395375713910393384372927699991785538959560 (-1248120425427753363872094263038674783123250236170808358796428544999804245250297481) 16427392469581621760683714422437402195276485172131367026054059580117921585647
    ; MDbl 0 11704516168147280976773697123779118940554998014003754325805371264942159817614 24084448111776588252859872377080290381764946362932305978682125110707102187702 47406725539943378346004517963326187359728312590033168326746252102584284120012 795682413794373888618289782730035383138200517480409407654069121312460415869879048 (-107023898886979241253663105488193764882875422278911097130932485173911045163945994) (-5241182559425795107256088057326074485923158997802456712285894282333021297782)
    ; MAdd 0 2 false 12973790878944535629873655625425737736463286399651818017739286214854885183798 30731767358952157818147075824293487085222321254659228857390323322417849779707 6101404116336004499789107378663458884325471209210522197828356151975155154571 (-477503123524846041858254373352177847590166183483814782931818025663911829187) (-131494510668012838905901845690173497599028481907961073161117019390134204629180534) (-1644693247331335629476400628331816441705904212211297058731773606824887579621)
    ; MAdd 0 3 false 476476128834236507172477115886268101109997654784116236165374342634769430881 40766659606900550025855101834618826669051151070714496058794721075841593536032 20784354251548717502813340542666510704723808181248001349581995785886365503591 (-77939895967698992137950441371410924708490384696861158231079682874914363946) (-177360184457573853609434430167637122854244468484439023363104609592962065984340) (-91185406853650985935417380806312933770852736833657655759612703539022954999)
    ; MDbl 2 48094774749369400750035782592876053955229087419099982662606709016097225520385 4642641832233969821959068914648541207523361790652258323672206288691920153347 25168043658116439848885125308435465442689115369227459144342594330567892764474 3562425017418364120496445465910193233207826304142360413023222322452497969782850917 (-1807047741732916267186129005790569177605782460725671534230620148689691454959555701) 17832243490026339941715450189600209029546744170809281351680170093035841051053 ]
  ; [ MDbl 0 51925520295911965034803289342865507040547053623855455145841765893520229390311 45513082321204149128468789528108627290021356822514210996841786792421630624217 37101373858099420734005501216067372319458300153017762768514630157024950872256 2041899721893096157770173633266862214491291076416534440135547371249249781458324696 (-2106374314559992184978720246360273010157084414906611336984701443408942254333043109) (-40472651214937520467380562523867456766764025147219652764766065801306756302100)
    ; MDbl 0 6796241219294806197440858763120598858168333555110020920180834926880655360849 1600751455734574143786997876649720826685991365999872611850455351653406785636 1729645954739664255197452138450796735279122869533618395729623715976154802931 394088019668256313685006532888939582966564831772028613274553440000999356403362616 (-36083728489621193564370688673889388880792118170187172232064783436908164533224092) 5691500181249672132469958870739231570556313888231996616168077838832751231314
    ; MAdd 0 2 false 21134099245406292707762451740724769339192838512778435230002814583677150335446 30122758189905834016406793023574847020844344112359668012389996210705639034454 922011485236153552969395502496672962582696300864144445061634190363759386001 1226023460004733855089411839808966642862359250397137187763059098437673554851 (-348932419282826159739475680863460713890276061355215119980753465971193512587253071) (-11495696772198889399660115660385130312937014703181786461041995104410076365520)
    ; MAdd 0 3 false 11141779543861146334159883943455600434423472934111607026958390508198899199701 52226699326391052760243934550178218529976676779813532839158093517256897466881 4417785956860739179101021784921445264192646784018309398867967970567469317727 (-5414114635465831083310678903299396618485226243509327145464541079208857515960) (-96980173927293059339784891277924364948950068461112313179685458516927918947582016) (-4696731738922658806793966236334094184581616627285913304424221811522727207735)
    ; MDbl 2 32692988043312645878307298784099126802849221140667667367813467047280397835147 48465247256527865617132660733331187106110598542407853338390341393928106738855 35140412210025319072930325347114292335774993800622385230551292565012154359175 88351999789648451191052023700643155637089066490391612041994409954077911252160073 (-834993448210010806261665079795737135703938001622538473328583412588368694947429205) (-29219315893062589281405863194890136527750319795821044655011839164054146050523) ]
  ; [ MDbl 0 19764117109901407476580447011683422613410011513590688367099161154088086808905 3248830307686573515382937246216915829341174363091116957680698455487418990557 12141718264961866162738524768717807768363118226916798622563148570997511992191 1085280207256294297937951342527777128493077293155266438265105263653334749505836392 (-305160750065548446713142116298424804070062424063560410213002605943475106751390833) 17042960699756824758171137940928676670034181525416070311628093817881540748948
    ; MDbl 0 3717924660198859539917613493364532394809050270689400146892184155790500849279 4428531535252463171369384143118178865144242910971119326791121637552826154561 16596673197929862158266440006857497649295003114774598682796734661105313863798 70532339102966991082341175717653084267194410408779693404730271239590661685689816 (-10798787783141132152736509001040600017481522574735786959747034022566743937911297) (-83645791568950054577649235150736687991424004174961341080873090339974813585)
    ; MAdd 0 2 false 39792733086565914924415154548917406606364306776697684374993929138586987651421 37850856814671836596361054766428147970288059624564625155369805429920929886528 23500889443142497503805244656459033117557533564657152801900150971698927460991 33418747543608171843492377806069752446708127100668898924963060478328498435069 (-1237033253130131072123086709223047528926706055859941734083771424132578087285285710) (-25363659222516620008421515531682205234011026647818199720665871852357823651992)
    ; MAdd 0 3 false 34199001714577566464219887749298593658852283287587806511973601009452145123357 10697806094916924566163994971673655965631819310776756638131872186356205803413 15194886185609574502136833522187980289623195287435647423955430207728885543676 6922771017130381708865898559518696351458256850482945363427805956267050211235 (-913693834752472034880061720968069022266092630629068953892590396229874956525656738) 17709387418814548384974383118616614831779512449864150697803635565799096283876
    ; MDbl 2 43986675544460852155422808473522979769062222249842216782537537157060819866946 42512068782673693020978435254289564270619451213888916508281967072215612764019 17059200754688606554757371766693161790084952290638975455682484768311189823060 1140634338257140816915493663094532505025096268383924801660589045826084251683209704 (-1511527719988959143721543468960532029399073040291150461785151643916792565362614279) (-31946986502903848267372571782693914922439698370244038872450020725772889718702) ]
  ; [ MDbl 0 45905832054077844953309670478868234621222160614936948593367791987470080043071 15026869288932972761369985159671782010729333705726006472043885583941290481765 39071511205179045415954472516255474559514041617992211457851970632350507692493 1223677781654203194448242885298634913555158847633392177491885538864563880383052840 (-1646302218783567988356328103034487757805620152844872655234257912599829376255292753) 24062360887818450942309453798738114897610384334621552244769365136027410451537
    ; MDbl 0 1277378958281457350110493590411272508376405807226378450019955545798309771466 26435978361230274267744740012191277934285538361297719676378386571694005982980 19356517777876034021070879027676122015756830478532533407289204472235598903896 77993021090137099016059308606386268545667206352399106938322397180689390812202800 (-1274715751575095980943403633966915149482410329846388352215951816070135495746912) (-277934826357278941745858931298988965563189420939787069531647176408140701083)
    ; MAdd 0 2 false 22350407886074872442315266041896036462538773300187126013377343501330146453106 25192727750204393434727949002985202542144021093805148442400726240273796344148 6737391846598557776734163229923646520075236028839806021527310862148250471559 6852315841638224533293975261420377552804821369816503592126046523736112248690 (-390251645555854397795985851527478782849969700522697977529639593054957975647828701) 529926470536369359923115960108441443896145747298881159688389897947905061249
    ; MAdd 0 3 false 46947128357579801326998648288636656957906994671573992095060112573420423757858 38624721989981013065912247131555699188549368079518939966685616868043046682997 26972351111637878475173632531389227844904557798316419478358247795500208956859 15506431880929850908650885182605501834439441637893596268517086300483000483409 (-1721836468208273876321264915829436158996279721600019877876554924459818147368406094) (-12025994713867153813142340465661292561107794599581338608517938032347567597220)
    ; MDbl 2 23948029836438091139670835478214160779713379939730556230240821915692705067212 11687898000946143332113265426796326610618781432546986089204841355400733680194 28564508446236790579949763918437562331696388121396208192057320282976476209241 724310578873491949691836863688701147183388562220866937309586049725125041742968129 (-448036522393713679220436859571506858988886289331700948269305502255531816857025164) 6735607393195779360623744346280875805104071657735385444353000490883817328615 ]
  ; [ MDbl 0 46158200490251412211063112497252488484846792157118883890280559776475574757594 18197264161808538620240050798770398826249528542209323817248393232472763929699 15994195985224839257701086251491235106447325483490004915164128092775887768487 2060065855348696036809063845312776335721836078365678748505640300354866233340195429 (-1664453148153412109951233353751225247627172224605069017766870308073503554382421881) (-5730058424963086130662634408706432683374690736978795425356582923584059294746)
    ; MDbl 0 26645341695575815313296334013132559528875336355836581141952604470422253666679 2130369019053015695657375790385708587796152614220580808766023467929148953113 35495245964150178389006794041503517153825942304305030416640132539320637143678 665886018187908522062117944069333344213380669045500264607922984691780890179451248 (-554646688502362330177301712256540028012544385590245395942083971138045994920415269) 8164408615969629533251701628418017212355183975208940322535820975773340013633
    ; MAdd 0 2 false 11164975091622149201210245544127276428396318401372523783303964918780501711697 34541130551695810958385960477379453437928215541821938912851329991750383430671 44968891250112824297146350042561131563200409304698597593912321552002173599633 2035048955775090966684021015188395661294331102172370020498244150425865783838 (-97384391192614422598124813277307976890179551567141809830997770546436923607342832) (-6901102422795430504296458486809609036014541812953325957854550895129660203749)
    ; MAdd 0 3 false 34872521535990718352429835270694738980234231681306965138519157752608754502856 43400614709314176615495299732720758545230574215960763055626029456430243629581 28766705999773186005690496265522879471813835281394105102704304672093809271859 (-15198560940031148586616934444917418381431537068357459838764103875866816537840) (-950037042077188824641321288426894454182204645511392556448634037162125538866768224) (-5892007162128414480656472569450722938794509975527004504397653441246312970804)
    ; MDbl 2 38999728984702545451838523267542597837499774324582587497916859769296116239053 22536937264621157462244382408992683660816080388271692763461342901429530341063 30499829831204899979604866067656961626895260080111602137378404090500967352989 2162896128882434813039639028819319410983651301679470304016183889566495844312986344 (-1188220428266143271765377549363118066544919827893614121470824704677413224782181279) (-15177597940856322540609123676137263218063502247178754406533988869670689949809) ]
  ; [ MDbl 0 31678425779069569481856029640652078248001232554151440409056614645049895605738 4865483694899952129512257015659424671051616649705257444338250543479415076659 35975967193277775162477769793946101347035064590282532172175680645035526236493 1509639323823523079381881599779946656005420257960984579968525451778058824311962432 (-783972844934739420175420739243892472966865184560787084474671280383292608229792851) 10675970000444261545615296719795623152629001028986216618748150794715921546590
    ; MDbl 0 29551007923979707771282691256072084097666632552985910964893632494365638549719 12626937656931395335138247279481573372063995083940401622557003306091625186168 31642232002090308436964742017883085905419110970354722186029086380335747212293 1661073933840438830490490873233965159019387969937946350335494310670766068208973472 (-682210553142843583982656533840757007229299010451538071177480405435398223095661604) (-4374081423597463750649528015472290830884817345116967645340532127732588542789)
    ; MAdd 0 2 false 34516449627496983843704983821606817661512820810350442222143607707564619801217 46900237577799730669147115822058182665499500862165313179149453603004032657533 7306831029262906945830186105872970065490702472337406400875088565228710734995 6523358313843864632069287529232318832325774416512545706825813082085149649463 (-930735056042775440167809895415190499428397468501317309974190146821730943101120194) (-22560749226283917120207066057702764928901676281354414229072138176402873426461)
    ; MAdd 0 3 false 23492054302828842993511049910273059869178779132684165215225909848940574271807 12529614956088214566241792600271360854928071551838978548941815386895872781219 29386909283693247986152666892797026212046337279092440833221724779090463998069 (-10915121985506950476606462544239854993893556395869196044635258500898989094868) (-431137529342129566780125217734706362988945242189382748186431729597431855194405101) 15398551666289438251818925396112681295950233686995252278660414752851934082718
    ; MDbl 2 28389236522975920998451839631707278175297081688085766138262165254458364730337 49224688506254043934453281922209305717011469811239269246258336788140981836900 19374288035221683123797812821911363687605920216875206895053228534348648324602 1403548674438659749653127270137923442320612459475971971795899828193523893967643081 (-629623983568115336852373363766396970516707435355037550733150577860739690375909978) (-19814338973085771275914541899062912993303152763472830921105065911989505183083) ]
  ; [ MDbl 0 50767137421978988598333822510010547331988430323733045870467619797141650146789 44527180409588640665277808403818039255176001008397725327694140298676343796479 26401920008931265366677785261933410129671685018377298374069672600494238723225 1536920612532108855922495949385832727527420436537020164827790240588491772018465745 (-2013442298609240362436914106924846896021939053699985751244982023908065002959660845) 4548012945102857636355892158511245063879223169271375734773512067550244091334
    ; MDbl 0 30042919681733644827109965162250136510057554241126435638897075952568634027968 36031472051104444448112984984153009875705185091230562914025813767873636473490 478866142155583845315142698615119205127878081103984824106465264622971434159 1239427788012307873472447892549363822808450402121291166230386246610151281796720640 (-705112006747581878372370954877390899007783756168148198494671084726594915315409042) 4867581269520779995941242129944054361831029999907809293728155944007443100536
    ; MAdd 0 2 false 17499203669764693664393592096706108756638823966279753241139612344609870883631 31996133644070343073032632373164719003221278439888690535787698523343541353786 12220352893166158849180038352550764131210853049497100417628174786312698833249 4402916534469727350422156946390913440501308118924794529847009110556202005059 (-239227117952556042056930581438543344692243982883765141461715832792518730803953334) 1346696482613701691299282304429183684438068946173908089059743143597587991832
    ; MAdd 0 3 false 22495462751453022847365380614930520392600946078702909994906110716173860137912 16001521450364555453868724172354957773602315943315152764737989950242320822784 7230160215401178474159315817035337974285019556061490205010207453170548344924 7391205217214830447368708138736309344880869731469131898594641042297322536855 (-395333574596603782238296393697953643263288753756928027980489940504823487688948896) 6861832698048010959711409870524917612379737809495615771124756599063309360627
    ; MDbl 2 15298811449235149687186858740076404033236325173221034882331172974954697742800 19529810268233018526628473179196727247527264491612856774418663496734649268056 23991031000405370037539230342799412869428744955406476180347894119034548462373 11520854988142854271575748942567733611577937052915836054762974915751664395093397 (-182847581724619931895316166754640221102957893653579033289228643864047791526686846) 4814562765893454578068055428403944579610907891635550108495103703156355887436 ]
  ; [ MDbl 0 39549951210875160855776976602098192732282315950002326755636832067946667579511 23558212331402102608530607960696722589348184508324911055004543979727789856346 1152601198519190550457732867198951964742766848773488338098988740686030853390 1482535456145915796718685489716322687913738640722668684802818672611068533713656249 (-1221984622303282708032406670747731370314238337810049353786985973523906179967246928) (-3038437034263587866024558547437178122743564853650432514447565969500299022881)
    ; MDbl 0 40020826751739622666425035362113798833999774701441402650165663966121980368074 33601058457912048295337208228378980473360186894592562705490522039342309529816 5357944983747498100216260551221227116772264413102692971485200897335960048290 72104147624357768526344883055088704932548683009347683235823277446988321033308341 (-1251255353587888991111145839078270793935048904756763158582065213361160555951186718) (-7665038555780462881353117926911333302209675949474240420759240098693855131420)
    ; MAdd 0 2 false 43425566810340033963365942172654441238847124447303373473134315672628840693108 47368744601173375955893320122370940826160786891695820195570676638684817637237 19839159484247218517575139202026192936613522595158619791787532251514668624701 (-11653318006517136846511745772286179435253009506876600732239295253759773458051) (-1473210576386357838663263690046595032982775424132352078311888537773917429188944359) (-11401918485029818765453684121503850203923170553586082398358117246829550691843)
    ; MAdd 0 3 false 22401752965766118455560116070034544776668038425286696454524738457432538185326 4702806707755879285989624008279187102845856273718950802969623901591254799212 40885989971197464250478861965144211465276361929873867442475755542592148429975 (-11893401753548858098471518291281263490049930651017019641408725161916976282206) (-392046737420824792763685524724307663028101629235291022100941952148221959987693387) 18227822031174065263428105886227285333838480701680968552411177240118189183498
    ; MDbl 2 31678970761657469181754104895059223563082604715092543822723314644109604746684 4611820021081862385952537675844649386771202665854780670071877754533553231022 3520565534716159974506314704899573038176279495312616253438026567510754771377 265264366225926421150924663618254217895665550848557599736207456491708829737078241 (-783999819458535848999050444109170181178933500438784309768832270146958211228413600) 17513758162249463518769285509723317065182352957918839161560273478930502118533 ]
  ; [ MDbl 0 41608254361170578277824443807595132473110104547612621237047335531222595622451 8689955896325862754429944465480221657322006924622648160234368320351294011176 10454109876037226313875535760192453174648714748664429673019617976886316071098 228874848564599684294834992045444690719707033911744927515134022938897666706433949 (-1352486154709300093555222436458306913732172186477390964639439934542775494060038442) (-3236030947320962977869639651062930616214198907555674161263993773571990607033)
    ; MDbl 0 31215319548864306258638935960589157781039104437966999247645271867100152210308 34293979864922532421261028741876227259102925351373010362127272826745537905950 7668131431731633238485742834029613218046070944243817944946389371442304582173 509873402597649674364903246370411331729617888013275188032584048631734036374285985 (-761218626759893660247088278856423799465792888355312824402817203535536341280998320) (-15242194151374769328494056026634456072144978711056917619783313981079357509551)
    ; MAdd 0 2 false 23166657907928185086183726219465518906795830807094187239425234473707533391372 2096828014695471223451320138019107746670184198595341882292188415804162342775 49986636536748362285968098731484813496391431292058185841760171076006227735416 (-13113854603820771228589829889565547464982638343139582048010021140872347952340) (-419276583536082772381738130571884645160770521729212470934629513580979419633056645) 14225001490537862152700284469397595537838021519751633296255849631770890102847
    ; MAdd 0 3 false 43657827092378111300137248480128227037333219700490691380639469516768741463165 6643297382800308441876463389565867764520388829152018830042557450258673119690 30847711400474220278956066886659335647769126126242443110074974460947300229098 2093968791153411564776468334830622430358421821741247050804071056368727071138 (-1489011560340912078183031596538659604104247617173743882927077673537367605684132373) (-3785365894830549613639887967027307635136328914467013715753763840205915890153)
    ; MDbl 2 45257591625101052386156943410021254079158779570231736326661366589710309795900 3498149779590546243973209212934203827728253905959043554573692573005125180444 29872510401270605603610783884127829709882658691896508510654484778663882908494 542298881510696183116757374498536739631487548725119430606502436632088530786539877 (-1600135333339362208843750628068598763451631082479422451913444112738811745026129562) 26579991219810927533353578582846914723687269618760031474424953410653092316941 ]
  ; [ MDbl 0 17064740388244505882860224130349089428985415627340572911557192430406245792271 42374679686662069796728589530313161414888370852671590044049060554667081555705 15153248272677269924820277242098540407926814743742331624027751918111718030039 796481367439379463659650561449518794932314554327984269297200626085339373673203249 (-227495708086923350084617211939402918331699742782058890420924408210937800987609783) (-12651984692623227395737670518102454988465473684527198634066099043313825602328)
    ; MDbl 0 16342631197593745074273324739945278530975645095412737308438159897570271296798 46285662995129892627029757476473105953564815429857940709799724839805338702763 52388051393767077021047696483816870031004092740667216439421024309201653464172 387031972702079705245236802742527002251973941786725687661714705894690414408738824 (-208649715465652645051363278072942382932132790322543190541117784206740173428748207) (-1218931840400637027009674428899331372987426629978138322328118253287680003615)
    ; MAdd 0 2 false 31410361212614746045450018888325791021461383701622715179380652996197263063123 17632248299019552806522658240092762139769290338235935144108839914789712032516 50030268882840242094363688842211904578539124247145245660549100030379091856765 (-25630758350099066085612958453426981720555843037315252500232256145616279892543) (-770760940449826993999421375498634306936541429031678550855528287027688871857196657) 17164090473817549164937592482217089049006451792765428379794316896945262384188
    ; MAdd 0 3 false 45528932370140772209025297826851726318302030957467062774245004902759360360363 10995669989207219909962731839989504282556080794278625074118913036801857171537 52083677206200316466976682564651977074577105744871027644127796202431646840809 (-12272330984364873962321596504566279327607741768619373311173339225881162300105) (-1619379993128436547779226162761717816442373126640269459041902201329305741921497175) 5762396909128382789497584953612362681573626606326884037909756150284497708331
    ; MDbl 2 41663761810900309877335399811791535342530843044614478818206767828986305114095 9793118606708597553258838478452022996049328635988129890314161072766187825722 20328786601443579007797552001671751738790777212636126666558872370980476147989 3410438053792038948889327835392799370119288678511355359756102363910570809940505080 (-1356097127289822823221698844425573844127347558777488987540585215184203648743822870) 28995733783311123546995496086602395004736959531657941959370066318164428331518 ]
  ; [ MDbl 0 51795934538407033993838096332373257959007765533936494263324516313760893632520 41051787678005382114998789368713858093711036726861004078331742221668277001416 49583937052026102471869354485572853520334242086451357280127210026252225603378 1645176172606931493526399420981965848232694370317078209738629432436925007084301717 (-2095874062898596117077850060431255553064363832583492783841595530794644442301010494) (-30877180395429920325456475953720650483321200784956857754589714298889914766519)
    ; MDbl 0 49887211364806709523222424207146047893159849722122075918968310782903366793781 10672637148345703579570705462050773900530410392859208183260526277125289617200 10901191089137564759608895210962282953504429978800793089810360182082638485083 3864959097088115547647545017434698937322085155999867245759263243902481609533133489 (-1944250828438819779512957180634341701651787879357310360891074007298270553935764646) 28902561433270954384148820747753924147143768799713640804930725946385953999595
    ; MAdd 0 2 false 48123349163038474719305465095474703946042482095551627728471159417608429518416 2502702779917084916187604547256186922022150769530217284036362111201797851553 37086618182783902946041626040448041214177310181192699513735617665609555088975 (-807183588205782002303975933979247151654633966545993101083773911030130140058) (-1809195612013545637236015801355186745181055252560158077362615773676438507981659917) 7498007860799520989485906349921431066447782055721931650842579867458499359238
    ; MAdd 0 3 false 43903607173161488076336846587862224525804594911800190953949309104739699316403 8246787447282666519177832271667846707015586827541726410627077193521067714422 26583280985806206902640283786751830796047272863833560830218685049988815194044 6104132934168836661443775082575276193111531131954060403493468958532755844661 (-1505824102481283340948343232616241171361151576178736921738515731860317886758805495) (-4809417902593280515616275315203264106849131577989562048364157152248509073402)
    ; MDbl 2 35232514078178816599367183608235513261990775141568831529899966607787855263169 51256530845665054077994247828094975902222952691078754135513751384562346517994 40719277687036969700081190758983026672690084584708934115210766405078055693233 600103466001368276544265682445928357787238329546616233432677481103696358417294489 (-969752939709025247977449008550494043273894513098848056536269478160226866788426320) (-27268975701513605490036238485938761571805737441592012245334086625537998851654) ]
  ; [ MDbl 0 12534876964810731350034919490302488812195095395654832681121067225749429348570 43152684341713871828121936902673178514214607570958213898470543690003053716813 8391476965413759342136985116704866339426053884592879752644248096660848190804 797637973971719388455719855100986689756914304746557489750620398291471874086595365 (-122747876465977853342322083248218439189772263114292662879118769397391281636374451) 1937237025785851983961406155090012582512805102423350100611996137605161581741
    ; MDbl 0 12480889946501294885148942741504028853176333773267315270993013735482883086695 20862195476812484779411924715242301029214468000252008900715609272247928509065 50055476778586440856892798982836498382594140979433181961940270461453879781782 163745906616189187978776380855347015685867528869050148534889237144441615321179920 (-121692816849405509425098012186064439221494247036860477054484286384606404476533481) 5305625918274325102360543096906728480368958865258839320664214430245600666098
    ; MAdd 0 2 false 42676025175738697044564584631364412678648077203250053727811538256091073376369 28317166243339785127074115986984218925232812838552827659552028616260006740790 19123064566322436599903682991009128699245688735858005957596489354338364620298 24737060591987645458841658431297957474283622196111495260448047691635116800950 (-1422793137620959970318130726969270506324646273771961489772800945212134148450468655) (-6067382666049865084692853654301865526244617120795871765030784943373704025085)
    ; MAdd 0 3 false 38214988708880027644813618783892303834111938094871732054423220588621066977960 47655761709393587771842909152665686723933835504593844098217985302146958834914 51900181006335068538363420752862941769312329176052681360816998832018930756249 16718087689753767421618354812257082996975557324357753856608064062176012632185 (-1140883522397245191909761991459604866515979295970915520361032245897677662973263620) (-14093866172971071275395283023448102446918440253394162360164146480955172493699)
    ; MDbl 2 17719338549157591232198248935909917433237495535477929741329418938121821024408 29913346514518621680915750647053991560995991421260763337425239359493055555962 15865799952622733306840110431037160721578925071252978724241807898802949729777 1385832506393318527227050125186306952433876392301399721983427351428600506358381208 (-245283790190212877243076698097145841829169982304899814859198994538703275614295950) (-3058600794990700179093055669674122053799211928543753753501147963038235649695) ]
  ; [ MDbl 0 23009319091471140710888725019439721803765595060048864948005886628800839675293 26441208523203453777361726651782573820085149797003875674455864061069134046842 34939967130216523214837867849221312780077522691899848586960830233710572690970 570438134623300580459448106213256430258360006322657850416195217266703641282911933 (-413600800200328985257967668005391001945375794100559364450000306139717321896788628) 1523604415964591292452071914335836690368967307978348464367180015326241901301
    ; MDbl 0 30784226728486929550938833649077699356222463093968487042833338019787216975196 12386512400424828401775141776058234074319508404811419457643357830766978496191 23046920262222074658349572524715151511546928008052261854135622274362457127281 1680602131067855143476995885353742347629478421179678153773027323099009838344440597 (-740338499668481538282626998704943142466612679488680517678878953765645166416119797) 8251277404993977830257229974189751145191594143768992387631902505835674257065
    ; MAdd 0 2 false 43749461957168588130782613438221296358401774341296259653866892606160803725606 16915616060681643884317963354089624528613771059125503128817944969947471907019 48262321159082023468698885871961071976109469531879862045060463206023326212833 14623376833956041468198770654032504649414553071068530469020760254860531142210 (-1495268791951601333474056521388700547432550248453347359310016137874936376515039126) (-3778822182765288489164389167032104151715446256326711297722118743822073189914)
    ; MAdd 0 3 false 22124716119010619162299346690745364827760371694599506167150880895774963937322 19028597306625616858072397079597351139662707410235341382185999843239224056042 18063567093710744222899589282999912578097944056095286779886081056529911555401 5484243288056651259543256058362589457476070512505272795962440569012472390054 (-382410008795860615192741673965994496905788847760363131981576080226304185613551297) (-891548201973750224891777065655523780821492685550337680503052361930258857280)
    ; MDbl 2 38366296010100974681186013946101427565295275083622930041043428709438790318663 30547972223593793520586027216945990147096307900687820230594074720270008645742 28653749220551041447429984214117412057946472692766356826522008577161805250855 1381558769822759651997144881816317564780845022360791113878156522241616516198925624 (-1149935768849764963398546463869369730861662622421893251879536369722134835239986354) (-13288382070941180821143098446928574881847465951806258268830435922973792983073) ]
  ; [ MDbl 0 32362413089853166341043648366059077716610197675255321685610649500298180876685 46511539681470494742035177764320738676214614094838710699513378161335736311450 44880664114229362013548579874602823534602168270776732447602057157399749830461 1448912596688828470807346000689417162494637624847750309150537872968772729386736477 (-818192757335075703659105889434032434552366160682445089150761587822227475633483292) (-9852406634467881946213569537933752784501210843371314110601880940218691205792)
    ; MDbl 0 37661545031239578232544653564352119089714453810886046974290653171444062468198 42898549301660809896101607791304323920245438857550364131391281905757741707928 15732526898676397994948074361289514049797081909878016961493075236001708432879 2641080218594659154424574743490227078529229229523840623148383632950498967841909445 (-1108077411402424965391252854924379598517533278041150685253138318510102219389301342) 2594994351332677443064765910222993353185508287900671793333167595782723171232
    ; MAdd 0 2 false 925487440160948624386641614371333084606078609104509579638449611526116698255 31492846733819062842681979417483980619657196840394509425939186378781005790660 7940412452067948664471907617030009106412663299123454950832467375272206868529 (-217986329518018266307598353097777598854355194708076964314735004121287897262) (-669136769215173135400454345877875625326753536887353735632493166457394310703184) 201309398145725020114243665372235481606394506413423181097920218089301746764
    ; MAdd 0 3 false 13536570577513618469349971685576064116267892302859805020925468494025884370991 670712682858292032539074451015624539839014751743941111433047623683879595654 35811335379805864343991224567110094095871295120586756942337659638712681546148 (-243923848926722724040234504647151666012261465007176372197794023841359956928) (-143149930141968648552948613076553563726554535916858478053322105199507982157825854) 7956880504749048912529614355692814401782039163781537223618310650702013635213
    ; MDbl 2 14560001398310674685220628966811637582263308724804864074361825083107640904741 46293366894738347525241498366074407470245330922485555019416692048683987245800 6975728284637845336119543710319399853794796763680807529027708794003282992522 358006963524500919892240876657250294890819299724695633373610590116395099166406009 (-165613856341711853149217409738597293274493731850192729958181339735424823526045054) (-942647543063529572230045422783980421915616430735319308046098007066197987081) ]
  ; [ MDbl 0 34268751657392520100445257643013307864529894275492957140351972784604052040975 47183977886863695499134402913283478998275749958824242402155388614625782663721 47919500994257667800823466905114124971733488502807918447236888112216718371341 373623528084469008597403872999435011666560197266616970721233551369451217877052177 (-917424650232060488096421707731288606977833188746563480862001683535436903723473791) (-582046677213947469865456771245918951048842454130509805743347939123118471526)
    ; MDbl 0 27671670214508712981678433261286407763228804263369476719774395576642009153061 19773634725321217109828668029697284360841742956755373099818185916822297623530 13466220903516645527202755288526223541352041317604919884133157267997280960129 2071944851430087956515199861106946094110882918440051405656061093003692567236585312 (-598197485178859896513298858158559015740962878536266871619367281097199874328614306) 14465096156009609875276445339858192582250634249774351543109552919969608247437
    ; MAdd 0 2 false 31652911866445619806065486789417824429944253752246588222666828793672902590068 46719869849243079832756184004165393688713161383282513148298763350380345618123 12117894728071962142718744999234902158561272718167062566194983706620911743383 16008634208483638421695562924029686168166697826594903306914472011656868818959 (-782710524649094149251687817746572122864503817311205250684712400995154719241205727) (-16266092682946575022528745224847758236532851479267284483075519194742278159372)
    ; MAdd 0 3 false 27503905108290274501433879064927650815722086067227295158866297662219719137517 17491814411817288306044639825768074584459160802350665535094943001358274817082 40694135318180933679435000288390563311702289481701369773656601239517733244025 (-223711280681897595915115952396989620768116701100041356606712363357687242010) (-590966085876934840837943159961292100888048243480370658166668871649734590157480851) 15330833338167354349934687927257492601004346711751413580524448213900798622253
    ; MDbl 2 6386094890164971055251180730806240661222193631826384907852454945667327672253 37053030452635050930066225413164328748369457063496215195258790614534491507254 6798818917268988019059917814652667534178990325788227302840582005121926788297 134386991784878797103679392476992423554942255508067952165416440208433936469059389 (-31859911953948883502414518959449258296530245176397255616529315559426205518432304) (-2104434423775625446954569206705640325721723856965347256200378573579598067046) ]
  ; [ MDbl 0 41157337038920835812300572049789831403182223946645151235835969827892054962194 7282866804771139660434177563338994293176030352003935417554790437775260047306 14527572257396772766133192904094378102519207412025270284395551987872002593363 437282998847616439064838198649595691136468296266034196571730198420670740924081173 (-1323330649020000036945004737289542758208927036597215806507459636016595651833106760) 23366839112855815990971393615423964394791442075975802403350286350455543137404
    ; MDbl 0 32701120244548545842729262526128872292668086970087440247397782221031291752085 15446085843327244281338644482227628734296004756400886337199387096063822323494 35857756096426680889437715869925700935019104043136917019388876598531907091047 742268930519703825086499858518353226646090347355988116559034598458383050868851661 (-835408899943681902027288478487455903117022875898003323427370660768170818253445536) (-5090911641521366571421198034010413280243041428828331533573208202875285577030)
    ; MAdd 0 2 false 40287955802291972171060687872465836079373046367796730996103723241610229716323 21649878573748206111510281451810488290041029893793328601733133375642004537168 35344429867539112723353234213235241618547211456667804012291785566450220294504 16601222474785723501210816417710546586327948866480424950870685698250574101710 (-1268014735560032310487727757927122476210705561921413450585871221332598075503409618) (-4766548217132497834690040312210298978923811684282047496118757137138404883981)
    ; MAdd 0 3 false 18457066396093393911256670157147916361910432129486440898406443760737286623030 12915450030667082348621257495478006209642272969849603374462474704159937610381 50952625555957579786006185973204505049346486961111233014226541370453384762504 5421803221329394470981375023419160563149642142397621746057642194709718840099 (-266133279411027262611722039533192972404052155747415118804911596930709796629981605) 3074458603258997149845489114754454216137692137467461465285561848793722210354
    ; MDbl 2 10783690994487819416208963384813322892786812328977829880981834905908241407366 16352408111774261814250499059094053814551078066734938213996651956318835213561 1294990266748034336850039240137846908413084022110719556757045018478648500969 604176998984641241641576153911015343041607265800556833946610239074461291656188117 (-90846605810357126951651007864304842425876793830060343489126613574856124869241815) (-186389552033110589705677864339422785260778319232515288263036704000930271426) ]
  ; [ MDbl 0 5629471681887213659536595474457912483652670609176883244090478419714430609687 9141655588569426137007894878878020336646651120338030627650766364757795274855 43242267818930878891320016078533125032241184889002750427313615814833392354449 11405672521520375431993503747600980879085521427435566544088577504683844589642224 (-24757632623032307743038370667781169015814600619651325704028198400857997977176735) 774140357129658736521602483968258262446300855802403703085109249770891289508
    ; MDbl 0 22058710543553691430910769493793499780110162570336238758950741863551796578861 1125308780895587708260635737037321018336869072296174696176942188410292098218 13851236645737407648205690554304059986078842234668251687150911680982640419502 1490369003429893992749062405314951826599864303424358675897296891321533463541397976 (-380131693357922392720276698546930330050837600163810612712480068619493798364562718) 3372314722632877683754725456015786826401994312626964517444098091765464115962
    ; MAdd 0 2 false 11986076547826874807331263308326074073616422226298036000606201274290974863434 29058834444366272004735580925632352437474896185590541057555977223139703085607 39329443732909438853183327606186831175087931222781865462182587820999713994897 3480692895307166828925277867006507791322046860041773392786812017257105589915 (-112234901670914006805179580602102806921648220771009366375170759423328950780143964) (-6385196694721522997576433975840320111168997508003640755354512669041941225825)
    ; MAdd 0 3 false 18374245712376385889634621048709174099807541124444217588435627382664728243638 13050312154859452585972027467144124667595161218628926797606653691177499495770 13338865602456740963309813583594103869875325561213313295337475755180885692491 (-4452505060352380872013182337261064747315710861066596098840472771413394755340) (-263750247605528271830174986892921519579835279614485580964149263273788513645560332) 5609604513266228754626769035176933036171493480523345821579270782029370415586
    ; MDbl 2 10269361611898067983447153431535995531171959143895567826423944951984054463384 17868736466904261672997354189313748333852480452446319852515831067732340074704 27656496125450090401087932844595149444423407251672662657556829879902747287387 222247031922488863949384828187605183910667204542608500622643553831886453241307093 (-82387387218384178695021905556952388197032310983587342117260832138581554181462822) (-3279134999769267776823269587546623710262931753423952281887847110172408847001) ]
  ; [ MDbl 0 14357027727977629392398219371326539877875896250529010830054047457550266222363 44813391865043232398548009683419963335990336038430607505809767821794521509251 50831336183800520166462816398537878534526667268687042719100516558426478323198 620409324392911757527486633403550981975400686278112102474311103449370867499547401 (-161028562056641382235790449152887534904585368927017719174075685769536979301888649) (-7377490380009707637020660322445789025791049799104861924307960639708399741242)
    ; MDbl 0 2128112581842280165576921146457794594689207628781389882109693706935598723086 49062011085078471554644938795317795271877897008332020815240834660500530445617 44438266564029104793171719264485960714507493559974009810663895795867794532932 169131729060516597382703756260587251220946078948747972340831874488181379370289224 (-3538042416712075735870011222895170137436136370060855742656197829487851800542025) (-172430420726589280849080528356082928789631524918077838930238179705369758662)
    ; MAdd 0 2 false 12592483600301028090553643109499840698482399543793528205831461495508991406523 18888004128472609154369549227414772833156314132693915796848299940504367341321 46976763247206785774002564823692921202759792196315108144917515887465717181428 (-7491069763919502466641991716448494865000402887274485580918007809098801801458) (-123878695784658906891562436300082444150150953154931265890256697801236560850059120) 7246292476046463632158744213206036774435407869614349176424329737922270730496
    ; MAdd 0 3 false 10392574827248553012217551592364044595503572460720389388140446121574258309829 24675909679836384086789852530183190841178120730847800109266711715185069651261 87392582571699642028695510054595173642927912976643629190740765259053823119 (-202014658980433677786213578924585351802280183753641114402163119674607572804) (-84376237763676953876499227724261566823554673505241545664885687978681577861426044) (-1147139078630827223744556523248576693808149177077707867361268622515861077639)
    ; MDbl 2 17041271130240255978735172876625947102663901275860687414986338389090534053548 33972142568194201787820826466472311893546186765477974490574282892568303227696 46167328113226329672925355508422949109026687278294524289969918121827113194074 1183350703544430656847593238391335067462305539785849817565992390937596593299672168 (-226870385479318828328508353341857511243796210848381869484502518599461959579990996) 4904095523476354466942596994068570626114782736187762583625186446377708311054 ]
  ; [ MDbl 0 47240491677603393348368814238605017038091770193449714117060877295988075303588 9877709795823671437482617935713348518651367276822164816261489680273751573704 14828074713988615226066671932428620103761106581971024374430091494447624632334 3407700338715318735508956798951443164592604307501741904768711616237748084863825153 (-1743422532766917419078831734050732283489771465247063218825719610397606554397749098) 21707139378493366792884562061552165024557617893574108850903529612739206840376
    ; MDbl 0 15750100879357156665693915401901680835740941794040157325700193953402897564281 47244116907616064150943126834654169468723031227718275955811594508738966087049 4282407652380953891771372043836988979860306870560107013760708913714454190455 364903964159323305332714953264692544140706719429701306214565136977569872277601489 (-193794084446403023598607875285559368640109895003469120360111033963427398551675871) (-11223702847416860200642245330569720343607312644509857445768635555701658275518)
    ; MAdd 0 2 false 13655685888506171734516664694172231774631831625301175223608462579474877839461 17628091905675828935988889876364874866290634401157750866353362897862773061089 50262838559734611810144816796119582566931633738120236044465697272749983061672 (-3456372418580939322139628668310142929478799430021528506675526380849622511104) (-145680315542362780168523162188671191770271921735974252069598685423550754487406080) 7712794596102933379542054065697253545080017778896889415332213462803892460841
    ; MAdd 0 3 false 41744479611316024783166209415383509028627795063426383589634385747219570303087 7623177309240012225672437276218564901842854338973556777639511218856658529547 41923865055492132614324892047381940381534854224195680498593038780285645102039 13011585815420166566151926931263804417947817693707273724020158977987623229839 (-1361356720062072575907876972139801957917275484873222820424739922067361043427358370) 7964965817562859854461658648944497325351748012741940055621604061903229313611
    ; MDbl 2 49737471309325462559646091651451958408394323743658681712405742408632781673725 32973859944504810902732547852703962889068286878942675342288288260924764865540 2058888702308914272939480583840158537523194820360529493680869338205434498240 332921739464576936358735978092698394413881571829564202413860857702535875728798960 (-1932596727445775580207309468265410463031540795967324678393539799209412409616848700) 13535894917534191095848921437105308369388583680927519457022978270121087524410 ]
  ; [ MDbl 0 26742801864005061153240246925296987023620176435576358063011588722387727687106 45652518149766732435151398932336244637216458150734215313694792647213313063917 16290416714621616738423083212057564445360464867912926736010935422495223653735 86090955361681477539036765015438854970353107177830978632448053645966778746780737 (-558711550573617060937275515021856115781974462735047845602675827250311037888774151) (-6466237917310504787134823674273029853569469239644324877488580534080742110649)
    ; MDbl 0 12540094111267387814102139143792697084840575268899947528472787212428852908564 51745088574611816913063074095518843145912675354233776622542414679599250853870 4474475981001768475432315960219460582861872993642961976566267353043053679907 319300086323929901308977771163149480138977841881341672699779356551652527382285392 (-122850075621154371999134207593787745655517322327049597558466234135077744461852170) (-1457044556840427063315739948605556626578269188065028233715603698877888732318)
    ; MAdd 0 2 false 17310066269299492836734406454201030208697246104323239226718210123344170579320 5651040707448545921156666736923884477099224284473786987813611690252696818293 26933282398255366621282435301025108661930590479458695988028919010576021614303 (-6196734782400668535770690151668494338081318793948988334725627170488367595341) (-234083766905044165872887519615174399554243861349170572054153442965141337924396905) 15216510080856850852826236191171135181777740048131125674497378020742048029110
    ; MAdd 0 3 false 20846034930707064897259257774133988368262035245489395091969923008351283723020 33170868184502346916323039576868983674905751607078359504665093588743552433918 13638845942893493933240362488075172666473519989123570732405065511484185510099 10862266383822192817154319328718539435662361389179737246401522034659450251731 (-339485132039198812597579822233856252031939033144568645176462262456180254791964601) (-10940587583552523685508487835269757200148534330680052613042305971568850311454)
    ; MDbl 2 51931748690396356038296144043896002331782005108228153979195308659141230048842 31598032360833890304025599697278992812547630380527428219684304151346410572587 2322444439801916042239117652389407117081625284582148912557022878549803712570 363213655661351024388380527491048170774737358870035997597217589353158883793859701 (-2106879658248832340443284447737480864925378854661807185642665698444053648901947545) 19953359348935205095128567099733452201590786237237406478286945998884414401793 ]
  ; [ MDbl 0 50416731082549904511465953326603286983952930774431542927155874898819125748381 13786271564860596892390731378147737540965523320399361326427697157587157263949 34351063031774725909726758915527718865597951026157658379326756780606529097005 183003515177624155349911246662417573352273816466816988325212806844437328063943912 (-1985743746308624719890080089248531475889881787863512921991247891410185988870327753) 17125884733650379973878819096052925615913155902623518179115297891203091991231
    ; MDbl 0 9348332211059600725759858770016974477661531064757164361600208645591872934405 5700414298472635738875808880281769264214101274355661767855262725685634921987 30710902249797054971411437478963687823473558232288226997684047230801693334720 501750210237286346241337712479093212408047130820018717032316065258210916855992760 (-68271919195796630608425908744445836228744480274368359719791860301853912856220419) 1441556561894897315820209584618988974930246873418495542723171418713929120645
    ; MAdd 0 2 false 33418256425852596885720867223876243845228428972434707364697259380136011685038 15677988744447449078411925383887772106591789878755123192598100891585489667935 12095097791530673148020009436783356197687080751348238590977061747365601694685 16504983245465541193790383659309632178922657174854305983192872427135000436150 (-872451735314130631979538334110418486808248651377406141888370821387056676584259999) (-6358874343758257693076216956097623686252128263687761275243469628472018570533)
    ; MAdd 0 3 false 48527959259311863081891373457917389691616583150296639117300043155456083779238 12693511977555931022232733043541565315323637606069176081193473786241376453699 4084192715457848286380201627245613713869720689788527788209313675263885732936 14733562192720851887365437285138442147882694407194672461415116754517260988907 (-1839746109714914460176273308651851607944822197895732710838445903256116094804739423) 2762051104713459793457519177776311515653922424188591943916556740927076207619
    ; MDbl 2 51526169088181019309094194137698873098724375020221089907281851634068810016603 24758280036081799752749682799727740083267781169542040446827778268785729538943 41843697210026420468088064434589329245632256581035248064007132318128232261351 2472433325832434941379922255634014573216003913817232950664254961573435793582106152 (-2074099301560144135762105045029775229959230139385860233409902896316526167503053035) (-18727232246553959974215307832875867662838784527817005135130515706390404451003) ]
  ; [ MDbl 0 9875339682263820714058175482131030789023291770747603561901094164618401535778 9113554181122227153824686776882331445330317939944871569941103873610149841714 10904346579409179485940895559018982965821750796243891245370807008869078615428 645668375706725451336346944989679785659159930700867202187754132970411815825327728 (-76186482443239149522027187801103648829279038317940424855043262765847897003689026) 2946398463602056950000314141650700386492236647783960904702286638068814710991
    ; MDbl 0 33693491638060198616951816607670607289637712422491611160446482368324796726706 8976418817120690913251851750458375700287849184961764085426255759758321184744 24402928060663790954602115664146584886306413512254490321687721489002884450967 574054456367263885451914667697958151343419279022772959062543434164172950026779733 (-886882069277446980864059730966188784792180478617083724476616132254681510414181726) 88118472798179689918987696920628903877060020025848158225347316283526843225
    ; MAdd 0 2 false 11113172005845749352253825406333105954960914574818840084068996167583933419201 39035309700665643166310198899583215427045784511201640566712910427613458524946 38671967222593322788986975563000738342308227801460739559542354428937059353316 3344781367965013454697051027397275783024959306473450160970910011173050462855 (-96482802338709117904917173102770665105589634365720146667704730589683133401455743) (-6370631243935938617065701117718241092531172177082889711020364110007347524645)
    ; MAdd 0 3 false 7781186226472113236334842996812549343010523941881510612231962735680736006290 14923279326293269998188139389820292526192803392356866902255983253528355576614 41759518106549788967419520290698917588717749149589938762991056086969426220555 (-2118630159408343013631124429758178566254847236497351267856672708736117364185) (-47300469907706962276397925691191757218182599017755479580627210927326325568700105) 3578088436871255510421966151346127613541029672556594543764083216661273901993
    ; MDbl 2 3734341268864494590737958795106451003731549027800890995244980944609090500374 3588209281473920861189166279039015139760583789764290331762056601816112920701 37266609743620579416980813465222871987396044081117454984703151593193058037160 142388146570524454802552126309357159351119995437800223169333828469802196143445553 (-10894363073536793624322174470908031930974418058836065092627631803853219753381855) 383733716030353353057149254672080250988571726979637716506235488898754562035 ]
  ; [ MDbl 0 41555073588455705615505290747712993334140747651692103058802249784510990176719 23764208226061289214898708574589714256597400881966072474823242821097750443027 14027630034687141563950964838694077271380054850575061931669185724503477425987 2419624122654711816075695796192169900491049227517066023954863669633478673316511696 (-1349031056949009555212408757520524307825603421610247644273548264921570747043117715) (-15989341611306767696514473543516349194632527429391623888077625282803749071157)
    ; MDbl 0 45844818875766962904836373585519130042362336656704008084162199898536912371517 29925599059573890294725407064591604090135658435913875373841279604837850861183 22580152884769787975420944249419202072904672967934077365422659439715972013174 1004829465123425198190131805629712478254800334368656688974973068362993273775045696 (-1641928945273502208496858579540999476540881557826980278633642300526277400696768715) (-5386919658379026125825507029607590869501737551281231392598748445860172682101)
    ; MAdd 0 2 false 28552001551260127895999128653332576230313566226042518131007141399943049768540 35763213711136462581417157424521751518702419780381630232716740843068234666657 13419041951814102828538999443698024959056347284420494747850891776776721104991 (-14341044014025904158441546662990090764890421222439937010852092102692599125482) (-636864371574708455004661751620371582266585033578418686403480266131737154493464031) (-3178655491691663156447762427789518376898768949132681087206123456022458234125)
    ; MAdd 0 3 false 41482171327615279712244077582042060006102840310950848823940635167263760185883 42814298607851023661288355877801456557367125991204962794076295273748722851206 42160734321340650124698340825816256389422935265597005918651963142352467524131 (-25453738337739684430758446211324247252601821029952960466173323576435591173909) (-1344301856036660443789176842551485554449651428472095764433000109420894715113923594) (-5578133496469671620709042031819784504123142645336357944078120192183634870953)
    ; MDbl 2 26750224660576631977630238419462550780800418325168428758579285415009125075096 23747322140297928857833259025974893761691774894705350375234152056209420768624 48171775765816517105018215849592429462919901223505687839117187840097297999303 943803799355803787518313717192419040391698650517045197258866303483197616216118144 (-559021748267703606307083686059257857850550165104222178960284199366879580083485552) 3151855386296401428763299753408792546848588770022348634802963343078993417899 ]
  ; [ MDbl 0 1719609366103473670775418756537103826163770079887948208148294562099867010033 49962554026041667648679430503688302817107471978272070164048362435327269131057 49964139061141364348939291885729149659055376753232148798592411041019889533512 129459683128815097543069842044346167711281013743124961084462170484816650821694329 (-2310114150239111163714539664642660670371496260220910946892490193695800629715351) (-859715950858845818930599197531032333353024296238157772208714959330897219008)
    ; MDbl 0 51015891581959131506194089213441218042563625198193419315301174623811337957552 38069599144810659631619003827429587861308238373800073786740977047913674793057 25518692842231544554353654042823227888700915837475312643446701483935121569601 3982752283520053599352656545256806061073694952181478548111855582442163776627705576 (-2033221992213148922762261709423950028504623272517151206254606460212817113197677253) 11570889105667579972801495983678551522165034795449358756208123517723862119799
    ; MAdd 0 2 false 32837734477930940447859428228608684251234942215683445525856054968500574309198 39728352196398124012639752183942258449091416289025511818236746811819805711394 45384024103212683621549236159990614606583089039756812887220731423141346888028 (-8969262510119501125467127044830989247461531431023217733834470220416836771572) (-842403592556370758854697482629265656255899650595120122688450500492073332137369861) (-1038786748396361708986454879624276526203865620984809406437353044379204681835)
    ; MAdd 0 3 false 970620434373378740657382263673967425735941853783490551231160936067267460102 37418875440274989893665345178268495536685735644416058913974593897966665710377 50684963252978635097263976228028134256047089166894748945989682547097606364306 (-295818736370478880583024921105978664150616386033279138774565674938129071255) (-735991327667632743133882445656280004038925353131735555841817162518676418465101) 42749841110057595140194126216263803741737431001473660265399566103349197800
    ; MDbl 2 25942420322358530559537781192927288716314174258683699434939584583534177447490 12284365205941476948688001280052851599361830918180657033862164914109241349793 32965186613481125947716252931001789024283264485872535921841240458574094695822 1034445373087967870879449849298046479571968236819953112569452888998674954755200472 (-525768810708018474486215406431036690572199929144347258449416673846664929647844213) 12757131920052461607297767052238485938026025209884916219555180305141480361649 ]
  ; [ MDbl 0 7482911308008869114459315654612479251687941876137387900113017965200586191105 38655992784836889444952415413014526471230388160399726563943965224026718443685 25129671077023260923828844102618004797483698011525112924960183326116088132610 385424836685324151700009901602887076438243528982109739933021872478781686657460920 (-43743651404783102836122032150558941698709539398494411417642031486148284089372141) (-3763388130009220038704605486747371547979615383130462935266665099718074120084)
    ; MDbl 0 36091673756895364104669623807480373229356614524917999962019724931049711392215 10878118980956562524295652010905341263641734465288044754606870280425294791734 1578472503005154255170861486668736648085636989040832123787083458448998258746 1417176229513125613401120354379840819186604373562041988027776850615312926676610832 (-1017625268929019374119686449513089092306594453530678292486486391637928662271549382) 19119542787099978882423208702757531654338384649544660728830296490223963600893
    ; MAdd 0 2 false 27106892922339607661051378404202164369218690218575645173824263385537695793183 18974011760410043403051268160128266021767716931531777650835999310168041932549 26854128985972882131800407473512634199619751747982801401497289815040645917103 726963471398160610364398406523923315269430735366007503849050879944384026017 (-574028317222182001008904904644267363865132132641051854208622931473916046840328418) (-4185197595166480655206081479072388683148809214693056742132184845644312844538)
    ; MAdd 0 3 false 13215536588376485188733653506305853469405942335325490400902649638445655677225 5525726400285282713053735859798684670724898323594856401739682385959248114591 10604809881050240725135712723862063780645663337758877493156039762715897999405 (-1686007309091761900748727887911179507066718155683137742815739469851244910563) (-136440543073032247358594195644668056291052059794821659573513078638149394818347915) 3389402897044883756319176552077529584529723643735018625104516965820859578234
    ; MDbl 2 4201568186193850764439093610416454598067018305630824143473237425403983410744 8159888241135273389548868635936116419468543916705911301080835031462589521164 9949209597758763848768899896389887913252850261206536177125937935213246499419 10368977310057013645115310238189300502051903844785571795605301540553767764166789 (-13791028898239627453951858886285923781696076320628570965317384032932011323405946) 217805686679660112240459070546494897273036918851235946967056329505365772955 ]
  ; [ MDbl 0 4925346493504323081948470337814523458386307171046716038911660311872632619870 2761099512787831070623524894696101352449966538227661767376574222816607271663 40452305067722287589950817819677981021743601330838047558364280747383025720684 76568617909691333002424989552306796555444770263793150647678331452938577739059505 (-18951666824177848479506315734297849177607000879905429856046867208127277716877081) 507112831501867760519670824841386980716800123393582247948310545454133294559
    ; MDbl 0 6631842884297084101244333820172564584772494552456253020249248877045553666123 45344940518032507128346536791783864429618760461588935855218219224339497158950 3304041309550541105763210927512441148857581540996530101017286666138772550705 419161886821051758743318253685611737080903197480901825408385852090013057763680832 (-34359140711647876273172907369035954499051047209149386041970860651776910386517738) (-5385803936970155786931660776950876938859594698860388790694821690005948851130)
    ; MAdd 0 2 false 38872222396917824018340876695189295348294904306167933193530354155413027567259 36025134204387504094930831780128484791967038304587898161056288775647778900088 36326140760950058473686399611801493100583691067938419006769692637443411925754 (-27566348747321850456168852345296083523866843927170138612530679255414512371176) (-1180463540316552914134013442883976491060298305859448436333999966126190921569646096) 6909040471056380613950757556335230352378107510070288328486923192265035583023
    ; MAdd 0 3 false 29704758029162353301170975711363508028959281362736016419677795184893982235225 45774257367252946192847699365559366272942380451614515722725540927649031579480 24304285891826633241986428602715021810678223173484974904317837377322893795251 (-15785574017731812645659251837914010966290816233742061608318115544779814273005) (-689327928566283368783304400823290195614116967877797409193166932880703038561867938) (-5522847546307268959470723918856107616048194660411658466274768741747558086285)
    ; MDbl 2 5285947046926273819703323119972777468303622970989231591920735990716555091413 15688008540380251243020292206888163371647978263115968263362248003652034398506 46564321554864901497164018464069049049204382459428715290889521934184653914746 27405664043116403134687533077612595929520432184168550388283446951341259197695917 (-21828276827152492706813447908816855361947173482795108808119245678138380723071068) 2989651102124225280844460304949122202254678969115091127467789192837274620417 ]
  ; [ MDbl 0 17827368132218568268985777168527343939651354409697830741852297541313065167002 3009943571163944258935972595274996820014950273734445916286683171831502117086 40102390023069753556098533187611330832641195235426886251509271790142785402457 1297027127003266346869646686273698208822568220081053649310275218769365254622806133 (-248283753249918337728641424475279743021608096637968699948613135197075334305070532) 4310341548711634539636330608011019461114932623601282692915362059678590776549
    ; MDbl 0 44424983785073730293901995339480957570611717261918104741243581140346921260136 30240495285984079654871010975904761919954994553193321734784406846967693904357 2889782385807926457871406093008045019856836328453234937275431721141562893179 2783565515180926692332334967142452515713918772468412546796567573379520303938881093 (-1541801246490535214774323347948392137899901346659744407430858435613949814721119395) (-23070403885684452303214147127988844697290082986250637447640220505714157555884)
    ; MAdd 0 2 false 1371793909093078775678697137745995716519929735298674175792901652310771471505 25123604196711590348660536029201229412873594842768251823606472069214653841011 7250217338209393913514910177321616880984677446845425369202880785956965593955 (-380712872877668140338402807703581696439519076953856449865353491757315138794) (-1470115907582718498320905490411431819179853938911529313116854100517443318168072) 133864839793622412083315275788787229260045490909251938001451196525061491892
    ; MAdd 0 3 false 38982928117766324685250554864492042161546430089367853146643687336835767762320 46400055676597955227167974578577928596407743537862606077397492809343983828649 51790406371989058231817881657182990929833548753247657578256008819600104568820 (-7014799428646850219333325508138454086322619152655587676744662588920156941607) (-1187196891240515443736490661097559697982171046061924314700108361167111546785770056) (-15817765525443183412174524074053137878227553106840204382156400934550666733495)
    ; MDbl 2 27882859518755438658327277488355536216806847752007907674015208006305800864052 4961102121546400099506878212814597653271649521631277492196420571422755740035 39326345009634456836883325213633287605270285862213502531392314077052938439848 125946682666057310239426485274021082219672454133149482031930223272212570997038080 (-607363176594374498027802914465140780392841054139713095086099618775121946305615759) 13442357278662623672966799234875890060230857203753035174359809307240415200709 ]
  ; [ MDbl 0 51283932620920472442445465443156735356477311744971719423581829554847157312534 32373524147429577056947030873361372006552808238272566210019321847294880654576 1816950556355014914038874504955681255222959391231253570580473085292464542558 3151148950295101612974816928104249272913470267900867594111544097437413916258067624 (-2054643499037772221725943846674540008205044968794617754638859137970569417460629384) (-26810209602804554104184180525686566616870116431485843802957456243691706976100)
    ; MDbl 0 19314164453672779405439083976850322693311402047998194769819985053414272917360 22191468908515235370264780445322361972455620283307387930530599334229834833527 4578648053211064495129459575064211721717600081692715650600182531962046608165 54890544875262094500709032376955638149278774639743041107928395166387546387943361 (-291424249315961967929076785951609301706757262413302534273606087817553678799981657) 3750445447968034359738850367966213330700633315146566736809236710715704096109
    ; MAdd 0 2 false 46266137194808263711955161351152414854905741026085786426649166958352985653361 37885649940114530409676284146063680700559813001155866005495899469060475939416 24153766674371527293222998282321683111034962195363920071693396740076995485861 (-15202998157660659482457036809562852816836209903150428408965520087528564476215) (-1672246590697571749994248345401181305864757670603591876623514474731747603261188568) (-13847563911979333904853760183027334838187264238453376138482378922218456683035)
    ; MAdd 0 3 false 50805541227694463692214164488878877329826704021604978218472779005513538251479 29095261333043221321926169619826029568036140773973038778556563472016676077168 44450713114586092820343644537068742779246564134666762225916096920203972205773 (-31900859211613900156582563648244850009413430719373216504001772792601994248422) (-2016489667334768049258249912746932804968575252624141382758735975159000750088176785) 8517078227310093315890080391803977816982935375250432190172987810324161688166
    ; MDbl 2 3225807479195531708008320030615121237363822294442587955343491102418656502983 27611636899969138195795783871246559553090491534575009127021238554221936443408 4181474190983329519777785439626009685633194565581655194599234080660437392046 23105185077934227778394282130132975265915853828542674216336865056896738874620392 (-8129254602166925835399923351721052371273261921390628546295307819644629878425540) (-333443818510389630167385463981287173568384320464571245056854608722326958018) ]
  ; [ MDbl 0 25603999498251565873035417457593424978341073611814126818897499775222812457486 8646554547445318217980413593954791475016310861055177538189868725510679988210 35110378550349889124899783869733780591925312590015255540758133072268533704164 167322480153881518354904447692050484839622427054364109046767927015915710769008481 (-512140895530489518890926938626533250040026854861206310525259443234951488459049764) 9260491169768121018561673099981532759505349212624973749954917547466405338386
    ; MDbl 0 8642861189152507561405336391767166111622092179983411774699310425943725396293 40190955637266851123283106175502211644371973535747708748851724988307751090465 14894600376463308135307179482345181443651235833312217662944538725372414773388 474133673051509425483503434543507734920062093394710050337861234146436803954988469 (-58356456432362464870362479806901783254710769544574686986719763964162964504509291) (-5199376934278898063643530944462397311207127192151786592014327622678653964059)
    ; MAdd 0 2 false 11111940121900341978613304613183278859793933723663132737109438389692232771057 3022390020848437767049767890116668207172967669318559848074365726689368799017 39324995035562604464316540414419987680981228339402902129990355433734379569968 (-2665744323257875567017191031359582352968653112549285595123665015268354146339) (-96461413480940387562818311095995367414310497619501103978151633667030491655185376) 7876570652576532215351614154015254153225744119931019864677391532663049692860
    ; MAdd 0 3 false 29519088153340396774447796815944818909300662450922412754205343341030165500543 40290116246248724053489276432049907054987340116972541928168279209930452076175 12940675400855008135979548802176933877431807661516584285245137525288701571184 13842662944497471699407221241760907740964217892613882726166718372822249869595 (-680737558132145059143652924843536173668069402200641020224950542223411905700112846) (-20980088385060492603608154217523326797365231737776036155982442368490360406842)
    ; MDbl 2 23773884320027304163925303400581859403835425844933322066898144111204001367518 30508128121013010991350188724964436038913999193842453038696816384594269911974 45696650336413046587992813050413231317657634715319419672391188522636580840701 553356952306282051928054080083490979937125798062051909184155667803338961192317576 (-441544141527034073808626733784727406504634215531437862190800595884127579661762554) 4390094005170613775204865159336850177697307512600105499339689163929284528673 ]
  ; [ MDbl 0 3543112923337236456720420521009721547071279611194252146446694653182722694698 39245733786032091232394806844561519511186505976980323187219310320744743157387 29751676022865419997723398200615559328759831561506680938278479105908160162665 253025680655024061617541628939924665761728117628875743796761145511593497543866773 (-9807172734316903191435073891178054973436954060034000931098139713596351820779881) (-590403487066033281272681058018728599601874803149680697896128454563819020280)
    ; MDbl 0 9041077834694457649515381136594900193714439343742202802802426893419488350392 35811197853517135014759628024230524725532203196894568061641737859302880534701 44455725604725722259642551423265294036027761369127363954907935379099265692984 420364978320669908242216012272580054068391234046172311175791438342590814480938072 (-63857844168083229915847774747656617625805048318843625093385925964766274050297541) 592188202985360046874707872265131633677216623250789412981382927017259136751
    ; MAdd 0 2 false 42057103190908914784546525299538061567877821285171244954289936958572225202284 38293104750766686814174938382313716546107116510297087840202866497188727119514 5318187936515948585440737912767648696123697169029539858168716164473447516117 (-4253419061351157063925154344675080353030918823413203969273483527386750338745) (-1381823418447971643822131588503787952454276557121554077524636731047703078867259695) (-1990656475919146651049026078370762587224555451479685574238651079103392285961)
    ; MAdd 0 3 false 17280808662645024829089325961459422739232451032872016558937161536975342314098 38852084420999019459696219887801556245413917109101039980781611898044077122600 32462386406718220827342518069506644004688066370331115923512284545483262618789 (-2565623080240934189745854288895476711080219241909438497102744508583973049808) (-233293135282816286418509286724336881000144136679740241384922471981196344562141562) (-184217784013940733639295753562600259326079067072083885170055025434646497718)
    ; MDbl 2 21804080920493899790339811069846712414316623809767829009996682027363789683173 27501331868431575916000786643571007495314536890799177791540753747517296609844 36509004072883281548083398818805560742382102010347872775349855088696709429010 1514573521379600625890673647152980853125717695941321996393846841130410363155315248 (-371406420227181312223699763518553950949674203587749268444629928484529880481539828) 3455439425243258395234587835374090980411814209233304806705952613712550371059 ]
  ; [ MDbl 0 26632894842544921621246410771996737215087282848979645367806277638262563814408 11562194956840057089196049661487270347929156009702386285512257727928241293316 6313805924050927043825237626151125477207712232384568210050122237022943816239 1519268600457561858664667346070543587983780371345869149931852293684229739993955585 (-554128624710789515952178670196722935304542097702885295986079984735023376327032174) 8095704626452276072880620636647126576573462503288509794465055344663041830975
    ; MDbl 0 30106081023889358052689752224135050866288682912238484414329426056883472260686 10252365264669802921753172665737154396811026063865240368721346298566024333320 2807681684563631397384583116570835842454334549503671680575673840418180221785 297002750109010809510186269554902587076257016141626472063432484731561776488465105 (-708079936401692034643266727653622215008256392012950222353927477129694176233535266) 752039299587771742767405703426490540789544222691982687056286960849760620864
    ; MAdd 0 2 false 7573304215962326526731056751430296654788870259598975442497631139555956580779 32679432224936354929399586270578132749984809708218321621233767829551855143740 49936446875515246675085629882450026411015128714227296114738788077519534880482 2491265208504227743989667490031206001926618258753211499624192008898741220267 (-44806873558956633964506048274909033098787678119396778863971585019672426686414430) (-3239137330970414741492320576321228994860751700237410098195124668600271804919)
    ; MAdd 0 3 false 35584674591383929923101919966923215800978994247240594573244506345359539835928 41379757823398593784891932986613295239749396400882251345846818360469713439904 2030822762642977685208131586573771711551494375698736616452274138227582983667 (-3514025761415323653062771765207832444975654105905348438500199362166571989232) (-989235820650520241020767119288807753796455843867285026795788262437347270381603602) (-5904321311055934824014025697530116219288288585395426166944415938417958536757)
    ; MDbl 2 35650115495961331049558018831440351719429093453516336687443140501039520497488 26457393437899252778327557342859174471609679891253489747579969335689878033350 32436831603405177675910486243351230987232117887562378247348725953204016500434 156397332627781361444695214791316898752784247783242501927089559280346879679870817 (-992877613838927703098678889782667736700140943528179788391818184065497633836722136) (-11017478473687873378251021007815676942576269769177880336871456508397764085643) ]
  ; [ MDbl 0 25357798419579201814576132159491578291252976128273806493678775581923105371527 34892730639621468128967059400968616208450500319379719033696986923850609655908 49863796251243161180937851639627714342248344676673943725412631511591816174159 1285189997991121895964898439653461988564586004993354543249363512970747832717319285 (-502339034761431216790481301316861019997076946728150218175637017546517064085970102) (-4079298374406019828422674398730503687050964410139574476876144458385368688243)
    ; MDbl 0 32578291971987852723574964059412319632507655587820811887451554753987776427669 15418198713809125729319754069838423007483519294550864375915605160269470971312 3369359083445143982921510771860687694361886906085806887000878632185257635217 2538220814880813136151773321989461241944818398937008612179041480568738287851079321 (-829144948019068697672168696397483020975574454478244061134081438445175936982335838) 12099483130165692554918409179394502243970958659671885977169742404246301485796
    ; MAdd 0 2 false 49701075770629732720538647905984886032257837225298514410844314556695008357746 18198963550471096708154602084812637406431706714168072118926287819271898430705 25477780669559526444686574096775411897993299659111949418127664582703184058937 10463444189618582138194623059824065043435985160665214110535702691642456744587 (-1929769395772275120798271478453000978985332759696928534775591170315387903669551481) (-2635733710663804661132671973197944666796126163415993454323640759273876549564)
    ; MAdd 0 3 false 9808640574446230857656675977521919815514540012615790033090048436311091738037 45625718442844541985521206623934003379802587759133097459994447485400347674503 29061732947888434525623016624729427071925362996231835059214647637225974632255 1544819652661633845969993743572986967075538259888913207732214812105378990336 (-75160814500108732270755020157064717567470004902429308511075610889215375353307172) (-5130441324079195747220518154219320960617225942741157648909254508564633105286)
    ; MDbl 2 24596404378946923475705876980905357947219042760309299721234025389719707069078 42222840680673120146143322546514897826327646833072906707851700679260806729525 10806732550330636108571437894764152356503050592273527801395662501347141235608 129499582518935857637454146088339081773001470208845533334054815609008038197807473 (-472625429986804788709683122316391790598988477107399745375454315988306434655132199) (-12573411063474089963455023509082068143563050038365957449747567000120826177303) ]
  ; [ MDbl 0 45107870038202854226502072253754137136687118550665778102886748902764021438498 19345314808872323613461548376802926001769711912973052205957241457799043220964 12300975129881283578489064444913881022613181586629983804995485808428388705327 761743420782059024291134342456969352238534193639246548187775363052206740064014656 (-1589565680338641529679713435662781679713991096430688641064218048164046177137940064) 19680351674769778624612351469171859674702156406867329774611095366191138831611
    ; MDbl 0 43176941441518506812290123399370042747927559700903219453883528978462463870472 41872516324532600160340134688321663534766752438078398268811917193434778547853 25880215286263222506123557200873724516651891274961768780163746118443018716570 829863097387970158246297579994889953064045026019707272214477335758300332974607489 (-1456389656302374657344021285865390960298348109789197363382435777165391938260165463) (-18549431232614302422414334535746589789323216196699575046886559952619795162385)
    ; MAdd 0 2 false 33288508510351320985677127408317777087332513695868909671835986042946108378329 45058073238686415249846566011845595427366967818840178210845504872950220918657 15600903514105579757861473711175809876648251937153836236197675733307383329230 222400699365059882410136601695102616641312949329671631839962117475510687850 (-865690218924154898109693532954935995345714920887089633525249785853901996489086217) (-2022326090541170561325475053923117420247537871895835120187467147562936438332)
    ; MAdd 0 3 false 21919248936228925670560709424270440635424557069277700225790205594007926870189 4573509666200493992791784851782702265765547584125177921414310728569104945158 6543852459816381801640848048887247120028489001217960253805628796117230433528 (-1185184151568706520285894311317283139248176982077718335967172504563866744102) (-375340280681307474340772844497995067224882826175998662218564140801434669683884642) 16923360658255071781712367823460732093569507020388167937795074404295093301081
    ; MDbl 2 6050373418388556419064065971787674519772511501163644893281086635227702233219 51653097576561509390467560260219636300026090942825727476381149624622629002566 33957249312694338156555384447952325353752878311353459796034322563731379929460 244755199109090892212701535269450167061533810604254930232384715411212664102872480 (-28598166825771437899693965964173665927143391956554152206293039866867167687317126) (-1128543552024785426864836314312493564406459391394365917937287063784253235129) ]
  ; [ MDbl 0 37298148148994323085956117207422806633740070326538656379170329946613241481764 50041960118647863691682816793987467667660375240897775425960714326204563446236 14690765184535382371991573097381213219183903871854215593845924399613981827208 1979051536733813450212039225038869033581875786011042959498566335725840657738409221 (-1086796862110119922843914238137054712496125974780967336781886216688724765906045098) 1146017748210734367780220861656740790360227424698138901343013552399948397804
    ; MDbl 0 35665409367742209191379459353375820708898087180381342343841284291514939945120 33230634372741868605649754814555146087337656783387629024266224910986855165044 31373715201468443931095440115271245121138987083715801547798688016655375112500 818787987076245823461469635445974379770086864628965445836951208698823918353723041 (-993729684014477076757169806240240862974416837011560346199916323965208651118121006) 11434591541377062997439513315757836073123392218402356372294032878592469706564
    ; MAdd 0 2 false 34397919869056373739134956287148938138882729649402285940040208829935296686119 43862025990085972494457800858696108957348528554482906076099500814017624886918 21392049160551095870997263014407580737087207938476730478323192701001780231639 12085130856674073488893765157596525621443198424247508469788727900895860447166 (-924353728703353524485658513779519812080689539249590278830353616931543280312594438) (-6974190012631558048235714443445991765685081199309714493960357592200381470665)
    ; MAdd 0 3 false 27671401283379019539766974275023519858486318234149086183282582962784722675655 1361613227308700431760124151274497315712920812026535225762392901020703295844 19066157156680551761381916268791411423139485346074701324031776858117470282425 4111495566286753673556833452488690216702116403321326312484602606443625952163 (-598185857897782636437855313040939812898314165294967143906903978658951569329367030) 22428270193646535880771767909239584361729019824810906414426191280485674519262
    ; MDbl 2 51643262910480803958984481255790404336701093718443574277169322751443659503693 35199845669839480929055711683351590113929689744500234032826755886527282054507 43134873056103045776092227844726720868960271940340945333680701507165768502502 2531595379760501511478230660121504871608511519611133243859001898951943648929158305 (-2083536842725622186582924526692005938156480782906468812271379852702725626042727161) (-1939445015509959555896008604018294433681745220586460021135815287668657565797) ]
  ; [ MDbl 0 13345474766381842222439810064212162430809933407757885023005069338457082218476 23237605539639336503200001695862604377911974604682582044987418258107580195306 18231175786199971622277107727653967682365341155605010384836876960777234769023 899498849928843414437040875953816290527225557830040049802926882717700689281963544 (-139136762395905054325491507495151407681674159619576060057344158476807571989943042) 3044514338204751468562928656454174666000603204844399646442159822420392661127
    ; MDbl 0 48760195000413194419974494714106065869941215782972120331649975353318511882753 51033685009561017603725605794570615408836413131529035034045740394860937899428 34921982735175944648243394903075064656371832875010451824541605257736419109706 1388972362773834330014385337152639573121827480139230389396711086808249555093543245 (-1857396847332843430620841071109109290834392701838703079136944017469264864571982206) (-25847613884077815762993421879883596721073045060684743379354294651897299005315)
    ; MAdd 0 2 false 11647733285385362176371246288445313401127680792427349969709066934682153094641 45157334075504274936344332544544066569017143264593213050226010683269616573549 20009371836056632619420596344776180289746291769042774268721449610603139738990 (-3517216731803597457157547667772994733205818842255083723911936848689936491589) (-105987993730636034093394333611693470002708713693911689083396200213063380173374210) 1305330904511852932908114640814535708280742594662014071312890629400735229711
    ; MAdd 0 3 false 31321939306029578883488722426605740989609268198195575696642728233927070757448 47511127072790965264075992965907681440012656642692281470208959896527397267408 27703759043787257623450095572541310472491932376099539424236313589447400766884 (-5947985924542649471876803066652906116760881329578615482757651246227936181256) (-766427578896033008068799576058467327655197226600282675681386005984391075875142314) (-1406009934109843616774496277329418388121300778084888423447749322061894448362)
    ; MDbl 2 4754303062072283703887061462031704449886397778906778784573899191284781779577 1849276569453207982061833054283268221333556614693442433150861926091002163023 22987686099105243465448172480297042746170895067866097116653367207082167688019 259560723701895623241482081575477867697660994262702312297521706695841246939396497 (-17658245932598382324587029299377686361138807043330265935333499962784048582623069) 4459496153578897296477109863440906376052047652070087385168277717659202027920 ]
  ; [ MDbl 0 52224896499190749893013188749930699048397555876490481027206222789292716586935 39427838458392139655141416646797046713966372733461656099558260303648913056004 8228829246102959664349070094975932026464350697792725710955435351692104200251 1875757638107666181575763370929446947519776629390019239956868165292993575090976520 (-2130732903416503624439245761993188805221274639438683430087127756470497982613525224) (-37427362443818441891903999197677256932970289223753716933890893643817756358385)
    ; MDbl 0 24640494131994439289503645966888888974020848516776357066223574781986940423181 29263896972592846692119329638155731464233107619763883188237467410496534257323 5160230248009949086191802532305655656733520275382704984660437165528548400681 316893406495769248484035024528774399174545809177549543624758540935237704476857401 (-474321337605568337259319659415359748556329969448070365706330375771412671548916569) 4776205979252440485780967708783827094455059824627268694035282242104719948833
    ; MAdd 0 2 false 28520551952511516598456363769955841554747095180661368930619675311816427294348 46479483007075870262867579339996342309071567432445419192607475511146936652370 46946129069899065285523896195037934854770673841040784539472322654066686282566 (-14911167265823071785335026495842435370631868498695291509219035367451309992826) (-635462151277419310712959330116094823747724909474190213501788381343155712342667918) (-9363780317379306052417084108894825017615659413022636215449114133376071092931)
    ; MAdd 0 3 false 6248234583350484599890795019621527957877004102679631601952285126056201304006 3448062085654469045342763178091815801268946475565208473474656512926058245372 13428088226944933153695051393786717276598428744610172564451490684132660998371 (-5318114714292155520759633689736660215701744538654083622014435095338959161695) (-30499202897553233755122248256480243500348452820376747041749062937806370698576687) 5127604173172641627774695324675378914625383658714991234527264457432107982427
    ; MDbl 2 51588640952277242507244154870513440421856390691252042753876573068968535665408 47573203238289588103222595027252243341634884095345683584299103568899470337290 30926604526062862790857162540478802388814674814188227022396548227379061583767 415985463343121987919393649377874657794825421957048827153186080953536502767412568 (-2079131750157706156566058262416050647279450050144965301924862019893437274686947938) (-18013473101606072238911351703553624729171914525058694971038809715425304920768) ]
  ; [ MDbl 0 25678667515682303211977789705322479975495307882008643015851803919486472041005 5059730059577682373403721723263000692669304850435890992806344324190677986102 13108194135904333770901061235303846838561590215725894199927353003010590250608 1240948833506908155358362404325565061908820364228547187655532156042231636996349357 (-515132327011847958114242658025741450979141265127457202839562767326446068617602288) 20819512195552728433780434863098392184772257665123007517740861801082137939005
    ; MDbl 0 46603607172563296729928726396721618741610951600988494031323160933797905833524 48520255909337361090476343366035894290895759349750126627338892120702659352615 8443099266524412374980224220051875653203093916406487720578019129756682453680 954480139764725812600907786340310707084430360276435254297198313511620942792306949 (-1696730639106957611971451823925844132549507385373418801075403676441144648336586965) (-38626556102109693184759428970726721594006954089892964178384335833919351879700)
    ; MAdd 0 2 false 2620407761977480689610724764938537941607957509082883782743440511729169758343 8516417798787209152832883022678769276620369109927138066705965179431971343579 4424492105167152730789146218032262232041790555516874387399142465813536225961 (-47327600844398755530405167252275286819762226532329658613944881799179860274) (-5364281880195068674063413712236923118754875950535675402107328578028507216111314) 1999134515132537818609248866166993541374617871834297004396626569232772650939
    ; MAdd 0 3 false 45406032091796702799553105151596159502102313062499759773825154854085638212436 10139975640211002286959993537868305393029641164131562512937319958048705304963 12625141779323921828620120732257535459168596791185048509899243393873689305206 33820617032624846775333130723225096477031792966347676667640038042350430453630 (-1610649121466815300485620554861257601028959078170517132954766069959448955845786026) (-1405894708620156500120548635009271340564538449050214497582181728346172947007)
    ; MDbl 2 23297379882585202872697431096456613638852682889806359058449812256174780578485 11996945258014960675440372911047412191630820956300633182478325985578006088335 19168644076574803557127501435270983575723331716142009547717905125334115752409 307470248244877771403627567297704358482545693452212137121630297208204325608805872 (-424021618140966626701751668176001036480705220769602220156207952033980710702877379) 16227390884040501040477561854222163716524603073295089355647531268515027595247 ]
  ; [ MDbl 0 36314814565002510529213357913650452456978494584526109905289074589073089907980 36061077569663265692865147161490197104536125571161913100921797492410715837719 35656085789812296122564197807473882582495276853499959810674603515568728041969 1087632921043477158114795061952688294553667231187800128192247817227269124681119552 (-1030247331332602126810185621591513193562222458882284570289029079244478504195140727) (-16665775094752966288445803252493113011655895503773142692727963391261261064746)
    ; MDbl 0 47923248178186194314832252179228964294778213532385354855408458983667591524181 45243557543549728510466696542077636691801157878990220307774554829693544639719 32623293814276934056798989881175259660120619581817254627060955241923076383253 2669905233969285411508890110205886378365318475656480213100951437523977445007559864 (-1794181313497425468272327750170627408954484177979468686497326339103249674668466171) (-8392236521467129722974135319807436472514858640398151166266364426110654211094)
    ; MAdd 0 2 false 10967938845063645333643325475473688538578420440960105225004499965000347477614 50946333067467177370442814675771325006278280238346326629086943385942329145024 24436124377001381535360525753351691065622366784950940393053499748418105573955 (-6954147501790208391613131825597256698412870944462468751275458174057547663764) (-93977497693002183750656532586243694771290456231413660913230390087531369408228168) (-1192841599087543859655846423033429742160606528129466178079187513857616614806)
    ; MAdd 0 3 false 2792704610111292324684682536415877864110730378808152894675335491118949365287 30324650661827538181634411278045582931351158406758167412695628214675299151980 19499181649989166341443218033046800324762029038161477864880819941268155808444 (-2074422035165507328485567936122162195288899281938468367566751881487112038669) (-6092897055315077681121056142153199343567366203059845036296181090254111898343809) 1098298966692933631615900673554311476917385989160606143985462290642915357133
    ; MDbl 2 17736736467599555826028432075614104143748222781505670453673151530924709395991 42424094441865077550690405912182885633342916957700544222721576664797829682231 32375613267945362675439138764394328032653059065393312163379118456741296832554 904193972206108906068044314461286005968532489379846334981370401508722875018972168 (-245765695581228424149303055407570293387187580020551290917865406838371194363348555) 953699615915319859625789683901126875064458167699999176435461266701451212177 ]
  ; [ MDbl 0 28049401634133746466086270847844805266074710848014374779387283101530707524886 19782861551750739227208155509519746970464414894427819347361417663059181965965 23016428956033996398661148600486808588466062312114159843125119106536734322932 1418982219803809617594431290816218549804530966758607404078417019623542557989513520 (-614640309218792257551151209946394846902003988384684640935939639322273883250086541) 12111422431794045144416504585178684494143220196856070033970296005877196469630
    ; MDbl 0 7995441700734428632709252493177321962883843515679048751436871055231585512928 50397703331083818955486431213772584453738130932725936510463530359867713223855 35320800007033185373934302365676105371786931126237669899991962077168113372047 287553100377397709892190462953335391135378528862528228724362377653823679928646448 (-49941175267313133143648002213768025157514540955767031900369861341302886194368971) (-4668162432806715189568125237706397938866147003706086949819569108957933638723)
    ; MAdd 0 2 false 19296784978176511637853786729217138844981149254665948996444161969710439849341 36372994445534808573095847754504106900414521370752505087311343974296089557232 27157809357226282183428196430374059734825895406537729811213011814168872681141 (-2934346298625702750931281489172839051060963293742651325414426418964323929907) (-290900020387399467458148118030419485194033488449995929036926589781311192763909628) 5161195285519700405341586052040873060551157046230031084103372426794807291135
    ; MAdd 0 3 false 15243636876430039133308873812214551494121341974051176544207845094222124366587 47335549407227897706532531104844976696773389934106881731170635328869136884260 3180384954993745061889955815345161346289404952296918278468352014838006340277 1759115695865827207618091757641250605124952998612869055405636134463956489000 (-181531094455846930397792041995370218829680989189519674911854200188443422754092977) (-3186925106443666960999503019146874213621057518557467414801568244630965798758)
    ; MDbl 2 24096161427714734157459383013239834953107263085207150401612305420056643072257 49510856952230668426653782912214455243520385018190267283402390546037243752218 19514490590390312083349748379808040299994075106571223380504220839075997494573 1329932759923998539382044191169171215798274060060385192964795318369890227173115416 (-453596363907221184498228497808223399613508562426692794182925659312646009932312702) 407537653086922970344632507984411914116173251341190924295873131513361275353 ]
  ; [ MDbl 0 51416032787138975969075885843441537947791576153882441991595461689513078331771 34211670274679086924140440686263416756724272108814749185346628994544621738399 9662699984738253372604211795777199231088415801295643815742817118208419320353 1567828178024849236014789567728005706272552416320338444843414663279774964853273933 (-2065242074538161645414021291041184739703168877462562983228644910806733349926927417) 15001627820692874858731192019469824168011935830014341953177671196858240013771
    ; MDbl 0 49303240210303864257143551918936470240251409294123682516961930553242181376835 23525691114707311555096102076250465239187376114572782427592944755398871409467 16828565929640589753634730627328586561111600205113872899625090514807478248624 744417987145677256444101484871126407468741047071945969344906379306060459697210840 (-1898999107581192080755985564074041821036493204465644697795261955329170891045381279) 10047575169610423816703472672998249710453408755881542599221612675126306853211
    ; MAdd 0 2 false 28540641465487583793437827631683919829762195627878053153330168465665949687805 26432140094714422832397277327420843743428264846410144700934018946031637901931 14881205080819658828434830805905915158522865687391464706163456619934962803086 14143623980968593170339042051628765881818771070096632903145875513005697266662 (-636357689435516565252281276847087513445518214194269257061061733781747656922367206) (-1581968795201203088037876037844119549457131220553033810981612289959716673710)
    ; MAdd 0 3 false 27481606460408124956566766994008973528111279633557411390591345424850128971457 51390007685895389193761778885821123644456299703716205004935575775951054463597 25021856566692759712673869775058657251551239383790616380140379576812878163341 12095539783997168934992126434842688633059098035679351024991708934433528753744 (-590008228968000722367523557690210348387599386422953533501203263096840826213956088) (-13080401403449232897974551206574296239780817033764908071120609404470435204253)
    ; MDbl 2 39846623844525190518238744428907443165846328555462069438808913464524853166355 11877077117126776782105297759107543562576032499679405054689794362750181845789 46346317718920636105374119178035695795297875456945282829332920194682585686735 1047744998028406256176879525952434816701551485545302667243210570967850259138978872 (-1240386116629526485749943296378967822853444811095495896078217861068291967345413945) 8851915577292458327833172586659166932710030784008090291520349354896098508987 ]
  ; [ MDbl 0 30230687104206862058335197392682075417416693691437645407480008696137045795067 11858960911527157689708458176230413209903239947892115627795552727586171097457 51279925708802259926281003760091264673447598579909911886440171205376466890330 2189115550901140257164437497743051714393233028706924668035825774611151916030588920 (-713953411276503963999694650495461965819191530778128481291423063382172805888671761) 10444477967964936245207331088641260070354568506173866542872609088723868283
    ; MDbl 0 2918673862374803051530626900190433554569813016076420494606960494806885063061 5733349169578302507570293764441614005609938495446738612073820793679061836730 9628092214837856789833065903475574311443058995237526128474257236638926662281 233857730661633966473232269454847313817882613412882399768616436378469168151381112 (-6654952718719971966961326137319317693638361795617759581955786399300546283506050) 340962419766445412877199874410081096466352888859876695438976091084884320672
    ; MAdd 0 2 false 3348868848351486400757883522742151082508245699757097607276778601812396401951 5890417690019917364341773650359600997392822082614814391769869247760529286339 23924970645400899503221967660249230485946385827602524644996151502233084084294 392375240569101195929610407023645578501800829454786957043277160047447210935 (-8761331556976903696835279104010211214206820184779668241387799185762308563409568) (-10031335863220228716174928037239272495862129786168728057983402891349612518)
    ; MAdd 0 3 false 46667572283179849518455374948715043897916722557388158232888065477313542842446 14085999792883897239991222738508850356373631196392732810035173052509255066550 31136835931063208209108449685803236676997346340882176198891297198509373528480 5328086174135589327652849796012003429494553431224259657320520222658362121443 (-1701391481961142872099695647079763064944047323363202065445300322239994506647401128) (-7294012332411107864097262169050711398529374639510632828730470757399813963760)
    ; MDbl 2 20789466320937019245922327886253421055548727761428573384504965672087159874986 17987880105602501297209655444003914335026533841892374493111304028801110673639 30520528159624156820005930914526709216532079552765993500416546500155933753517 312744748416660628525839545790294338939612403967951048114260748683696222954264613 (-337645151881171278907688756099463732717431795261782987198395350702194662222971885) (-4858604101151874732641503868192527669677059679695344798235966367934057323544) ]
  ; [ MDbl 0 36257168045189962448038004075056506121128812793134282468611213334156305140752 4289513538670064936068264658707636651712972617702069881492368402691784806038 36443086981482421548326048756749802636136364586512098813476120697978341499027 1728997663529394799146522532299113016596273879853054575231847149342215862891240304 (-1026979076455657858015826914738241425402785036825970820986112204014525427741705318) 9471835397103887569553425113422116415587652289349078929320417166862299582416
    ; MDbl 0 45411415572087869638522138150713439996297153162278765439299595426740129396372 20916778857605853963091560331952147182034463859677772271778288687873052786768 48544287886744597653806766338451016736920362327288256750445546636765882781473 2585736146823863338790415101776208684663034668973318163460432108214093141779001829 (-1611031071239839623915532573014235549297741941136176299166815223231483190334919614) (-14399829366893753704021876533775103499164794693437680832507249235759935138620)
    ; MAdd 0 2 false 42870959892869225110683236317140073577394126614626357901669627492905432515975 8280061420511054932705756126955591145894387109248092175439265428217764232756 43187283471857586544455967758625282054917643012054751068945240837489335187739 (-2394633454825487790414828346232300435404479903156697405041216671408182179563) (-1435820837257876204717370054780155173951674531854797349315205967191332502247832625) 10331632772674677888664418657463139834259407983605677272382183096052569661576
    ; MAdd 0 3 false 43349920161919994867914319955606091426513452292569329795742741496293403462588 47897929793665729148238550187504105585899626282111897383939171205760953776143 46027967812212209207706827645569460559128209949223620233767510069856499828693 8025672567485598008520376069896780009116157691228957766491254495596144280802 (-1468082427954697953699813551420114370698863267374800172792127780699607428539361132) (-32752984959739964970517058926994008011221762680122467460663038391880894523076)
    ; MDbl 2 51802210555413990906396506809607459174296533013904574235878051190711886049392 37350296608644311972206035943298153887893376071033921570859057476426074472707 39821230419020719135308904103910984764657999546812282495685401684933554128730 3929099494933573919606444432293639755404332315596381976495634423092897478888505281 (-2096381999990091728006827743009994100297766256702912030405350213825249342993376677) (-16234925875886821326800387166198162774940294788080524335682027130008631112907) ]
  ; [ MDbl 0 46087670483064088684863605717010081187505686032099374092742696533917138118870 13605841891546159464089954478367018270170434638885487840038701040531548201655 27084435832541565245092371378068856164704462141777105784579319163059969641523 2867578742763602345263831543467320197804878247625108599067250278922707544734695432 (-1659370445536307885180853190873955312999858604377552818786143590209363078646059087) 20869807191103544285648112032936771495673270371648952104714474076693247893499
    ; MDbl 0 13814732440679221890435360658481767148094004735899606634582432741513767529341 38644953860636536029566225207281065254707962451447575749706024795583147747824 21932820994645119047788547146351975036698534833524612090110243029973812990533 584620408162875903131676874112165947219271959146312023058950750497770094936856200 (-149093528364557603091157721377275315814934560044083176205193104001868227491011460) (-6596793345203468569404308851782484675788161562660256645597342720976920967245)
    ; MAdd 0 2 false 30211341679719456784129042419045513785982312021061169454436545078667715296734 34941776192463067432115302513926292315325320119962817077608102465733496192568 1200765534996043397360490758177125002804967455226935843030356462433487118719 (-745926953015133031223714472860831844042804650831149754754770069104712805275) (-713039947913289348275069702848608658522984368978363174802091068799910442122869565) 2133614924138170028095377424584462740000120862575145649721663283120359968204
    ; MAdd 0 3 false 36650841689731223809181033111306071458266953726588637426055291764976788927428 52297787680261688770824567870467916769308954612246158716404179307994868357568 52071155130981639485765678203959522391809129015137638723648345868879621051037 1683471481788458906362631100006637454133290960539077344589065200630325243537 (-1049401648095722119604314652291996660302313561482196987582258190263680891101573437) (-12131244635089337136308961330518548013150333561566078657769840026134070321212)
    ; MDbl 2 29146225106366960989695249462077977975432161958158236711913660828091485613444 21094038739482106712459150009971846544455104000835624757552361932876215092319 48092584522226455604034621025434563174445872263558758241339069365063672167968 998890290072882873880812807040420325734022091327391074337610523505452149631635297 (-663649033262114589422040441986398671477681656447014198023586497083692132616743041) 9755590447102243831529015565275606625245446800404823240005804485950053632863 ]
  ; [ MDbl 0 34475438990275459657748450887267623026225543532053514934654420813095429272436 14991220096643473921482551041165042072741979312794767581775618823584258815932 28876852843746771090500667224960629103692071618001047660269316973819255218540 2590574115564428628389497814063696374786345250670107116608372477638054436255323968 (-928524668686902511523356601257495133727950440432223301356821073251793721575985852) 4012469537071908518600057828572280102011719563247737391726508813980090471248
    ; MDbl 0 12802964352689181591067577217140878668361658518471922360402534535369800116865 40105007056513724518698423113130365925569009945567630865960824816614938028684 33436174548332351711990866740922707791652031841698511302466995515023132629256 577662126917318850772528357250451084881447792023717802929542147087348313236656257 (-128054518975337822424315393506822171728818793645538217391865008412590213521026570) (-6131888103982150169126755093730173278246123293981028071338247698394568701252)
    ; MAdd 0 2 false 30399705056526016359387822826286722957994101801142276195170104160478965441420 32165457872590479213228677732519463441763667508149046389435239702520418269231 28805372774004650591784260841565403811496980114643948691436938627291276435321 (-11021611210770282345645624707676641896400698935256169971734313227997869599924) (-721959069579937666065802214545963822764287343233094661097264610268398627159251292) 4602954612027559010531129220674872599980754329528944112458075109464553376091
    ; MAdd 0 3 false 3024705235023927358262471992335862402631711216643818701290231937729342137988 48588747065559501925821509977553876117868583985657064351265293176849094188318 33636439552121641624405280986566590795133091334078287773383423423715923763685 (-638642519061881478967865278312996092968647009043801747700736548575553926631) (-7147266114183039926799634654806279460371410616412256891033699855868232930101742) (-947359200783392787230726522121295948024176602985426339162648771877298194074)
    ; MDbl 2 41943761032965576095287128504203789845937126967055542824067727222928405476191 10576903778966232730065433625447496559794750159863736959295132029990638033894 6931233165617572992444418139323382749874801301161425048142356060229461583611 2191321119143964437951488284416271911082385062939477126710426312598065894131593121 (-1374385540153477337054860439540214297728644552028243228148776659842635682260198916) 23619701273102647625434784277466136741205366015353822956485548516727287333271 ]
  ; [ MDbl 0 9179905702064659211476624569235013905348340480917615408845440346936604141564 10781076577957666536265905944013110461710187303827180581360699606122303941239 30468017726342505039170413258719886381013598510609645693537057810795124756695 99421547879684188652794024848572207993863311995928030438151441889879633793697829 (-65834005078552683765383770100885681608657032587157728010559938212001969179345541) (-35744364624566487945025728657863863049939568443705322477501961562443982222)
    ; MDbl 0 21018728200132460490322848992303328361806860954673366984312878747821370538663 28224299621273335851201240630770954431883725268946496973900942556963600948154 7261038799661583140426141989330905121230535909841386678833906980447732382094 1000592751251336727017880716147962454878121029534271910303558260705732945409574360 (-345133173635139868481935848944999342780372969080325890634161609401404580720399470) (-6992051965514983656778120323450057838366670796420041704925005408316063259418)
    ; MAdd 0 2 false 9172414142280476192714015469522399990956917223568727311951190821608046020852 42035246429335843943883701091133911416909104790018310473039529869005196410591 31495959615545571571389972953822217088401556990095038976829366631114864686404 (-3086993831184964097262564851252118587939896156163683675246519430072894612349) (-65726596973240619044251178696711543606454619142222090242419347073871399156381889) (-2415897959125673872307068197845004103111251259231910066869265705852398966294)
    ; MAdd 0 3 false 47636652028612781214548745655681459194514481048991935033771693307023770469757 27287891055466592334317500243575693798648544280916610049264886419509111177117 35715015473956044169822069465726754712910570429423605804252614375692037126868 (-28579100038429350122108594526592762763226073081496745565368057024415267447372) (-1772785939848349878734149447679211363123183341558779159399198087673781681680766600) 13397595328408889024576614606360318203340021037832878245441129229936207691042
    ; MDbl 2 34742007917001956527576339428627884155265834351678697814457747027319131957655 4418846058054806839851214163435616799669667776925376854295758798365372351187 46159027092971188459388967964032014659175093054626038552259290688290700804959 394191922140780965377983839207576074268723971634114242946889516483377907654147685 (-942939147235837487400914081281701218992391370122777443394494013556251105554421389) 15772584197345195182542076481661947938529417331091621565302298968484331860564 ]
  ; [ MDbl 0 50356403926234138958825347577307807803554056356157639467746215195542871655800 25458058992860841183380218666858105188166295103111958092394491103036743236424 39254969280450099565038908236605993569539610485604742173940638250051680054956 3631744778390076122890293667604833398736473133472361058779016835681278115170366792 (-1980994426006054981854811410161159044965104963822734814221024176104873473688961520) (-20204852141720604156905838000443779201295034987254082824692038516074889245155)
    ; MDbl 0 19550601381493231831863019043082381644115145589248275677577757888979886758799 41347586310059064626008539795372951416147360825142086109585313441351666895270 40247608531546298281236648669907603810827963886146980520899781426021646669973 1199145893507065969745964460373268901996218612047513102226996841439188775150840449 (-298602939317576808151620291625058058296364926771594485886612087222979901924550588) (-5924375509732157973241903432118490682967724571317135598766221735807183255491)
    ; MAdd 0 2 false 16932088681456320737362003996497253839362548757107621914429213119268485574378 32586569578656793115039113547022861337256007759739961052013239325909946914694 8810846138900333756411342735081831719132741032595029734781930940345110355084 (-11924673761104950423997063519245146943666090376006761351193819783568862007720) (-223972607112689173046056748538446102337169949466816171532588957185770874340260753) 2829023292552852037294759585524159369508189576757415609810173499903947611167
    ; MAdd 0 3 false 44073422069504007939906484744634797801354752100370746711633673416863168265293 36184968817787355170918141147113904723877646428405837721826882909653121775350 10610436498069996569030927206653377100440039614955778496900937737104976274561 (-23675545860813394650968796461645083230707335346656737211146582364119878341802) (-1517495393919605125308051590020511744512993083966949623699592433569941820609170933) (-3024527919313052206440775056572450383037074598807921134146873631684197365181)
    ; MDbl 2 39709092220175884113273574682894375798121365899324369920229154938005127188636 24404212223664353892622407474781791472518339984104563064681157655649780754420 37972781724768736750217829024079422653854063528690460008476417772958819667853 2497185948031599392036637661752053570827175351877372925405407278369905030623020005 (-1231838445626441059394448623478934823966881466905538427334704506534646650042718082) 12831024596624685458273138055446086219171837118649300534198140333503894208598 ]
  ; [ MDbl 0 32781467608538927638010895125103185147539154298970179995151784645330922578471 17277727811072089620388994467717282779434179171062156432874310387720139111377 29272756043041080892576237133694298158172294799765523021394196245880966727551 1944967041374917109410275724884228654066224924549240142598647191709195794062239065 (-839519178960336970134947908875216608184320514332110484356511822376785264219100031) 4455282135635465033022104795974211796326358873818641809542335121123795404873
    ; MDbl 0 5171335537117576288458354030674571543780997823350122879852609315775638721303 33222952619669201479494180675133781289085518781143523248107892167932005349025 38809580078364381710838440974767235479793817457760891849714411781429411276364 236538327765898736036759092934574228729812653562168290983081358595401889931312240 (-20891964127086310797282733683388789516669529678702647705481008417950977618960009) (-1572551376793695462755092702601065664797834643858141786215367670036963960443)
    ; MAdd 0 2 false 41285735240001611508000322548974731950605131140269334937089185314605655861343 28459285730562956078841875591788864982009976623120101328721796348250545261776 7349561238055421112673495651913439875166157347356076364154957334382452089786 (-6943493932804124306683107208635659740067722965809044206368757071407405032308) (-1331600295480428054792703392644649224668205344336092662231658242846472361477011563) 3750704823717653555672336950998458612565332040140617112185574728049760625289
    ; MAdd 0 3 false 2391221175058142904432237091975122282412282886942762855251705832966076047356 14464106890679113725220767197654997777672139726492262901259926957637362908325 1565195372354496946687366813248224473751373530671044234570582189078839598208 (-184922585991526447468693375511402465291524717764282197040316156180250335331) (-4466973049541571091695018139803271531241316033740260015612312423856861043331499) 638218927001543301117394157995899506706124031363510801728458400232095637274
    ; MDbl 2 5774123918229631850214126859068869665170490827608850288764573221878267872086 15360851322010047703469680028254570226737536894911828525192466859624692617640 45182877470603863178215501193584828945473052987395541426319198708809188146546 350192788299471360570177873758873248205537683762735502514972988098227857646000776 (-26046299887848010848816280769553728988670191324472885704749215721054209094394492) 1966935537705670725670897206881650771878635031210833280343767503172145607400 ]
  ; [ MDbl 0 4424175091392060166893903980463368343712149381638621928052405504614027805067 39462814641993575674386890068253955087742085967246848221539322989664738573946 46457845726686024668437766966742876442645008126418787212682269134953682118709 312340855159170295737604724750349721545837651799713913435957671049096761170950289 (-15291090163453298920923831296207862320635196588080128657203698590505210657793968) (-2033556327948894414403741846329630855392921302260075063127687356517405199789)
    ; MDbl 0 29574685237563189997129543515026176802817244082000485523403868475618000265822 7632241565787838014967257608777346169811783603744632367517406487792675949059 31223692570582752543238851752760009606098053484810095238645959844269428249129 2146846805633604106526120426348994077462479613267599863483365999249975652952792069 (-683304213594710942497919382465195459968083649366368209625570584594613389991743753) 17952960192158605908802743245700884127544197724975170672923584460575103719252
    ; MAdd 0 2 false 24917971634276089688959913572231939997067171543508393861178890315268994318924 23273965101527856001866686800398055709054629613941397561611551544973108890901 524557111268482793347715310305974223666265025467933728318461713836582877860 3672700761353717705211315258435854256326275613718547878892791485726146323379 (-485064186473658737355769940579874084617865683492195214812365641585446443296531202) (-7433079395986652150489953260881147312720524587933930283496808280074914847269)
    ; MAdd 0 3 false 30896735979978456200710028545026526080724369451870808482905947534495790042688 36408517619852389298663194084021508593230195693435304960638261212260706014428 36809676560288521633446073037026757392129156276995133977436973959233182645678 (-4662635770047539707636590478030966504645415400240599478691030833991990252558) (-745759921688775464045368852073767680878627460526988158416238477261355014871454619) (-7739258666294542843070846167817380166376049329467152721464752312324460661778)
    ; MDbl 2 34440838512031552885086468353412585876356073293333752632176889453132630361535 20863946747992082801546794261557857841127425780727502848651572228832783444107 52148957671559489061484835894317539083861214374032174222658476510835702387826 1680206545633020530308858975805037591697524162611186746792019388108194735204673760 (-926661819274221838015492977531131689266952759804345449107636488088608009375682199) (-8690825124919081318247604453731350282568044597972240336427818070290162341395) ]
  ; [ MDbl 0 18706016592105004530677314500258278942143057952699304950865312552267021183577 1897382892515595029501060473599679876003026068877390916319189186831667562510 40208338974541974399990963903315279353581215648851786046138167179644462966573 1524185676901236061690041377000618369505679006894812503490508125322349526826783144 (-273360944898754298298410270507141482479128511787111428340842173619246127340774634) 6766147356000689123371925231223312348592849084507162139830709418279637586390
    ; MDbl 0 3295163846609651181935587625702222990972870506755400641862248870497706341474 19786369606616774015072900456349371646768954706974510998294725374251153830219 18827809887250579900005038602935723850969999740617768653068917069124180095670 207012900743832578060549765197780417245261230305535970287626454926897549266115669 (-8482578054789361761748353374380390018484271813665187833373743604310041209354105) (-1124175806657445095062007555069659199154228316504685693449106872966271551293)
    ; MAdd 0 2 false 9801310978744420333994824597544335242042437199184497962464925513056260221275 4397772572712548575607095451190992254284538300997306399697871636119059340667 11186669785601898876919653987290371513794618284901970705249648142050295138078 201420661540058389854914973657282118820410641966300505855070817091321168388 (-75048527267883972326809470372627659788969306112208569926147170762690389036388535) 2876435733210136675092491569991402014317415690486284507949342329241772319004
    ; MAdd 0 3 false 305751596269794357600498429931197555598766785774945330909352707635193620207 25144972846463210893741940250157344279519518451964772798611214310885828806747 39530909168759271737956940655474924159667855248546887131838928025399664947046 96013636117136977159264207370419796127278116764899780394622252478943569564 (-73031681941084899940624395176178140828518393222668351421932024968538472684263) (-120976136674410211043141122518891297574765419539206659202945936246381493668)
    ; MDbl 2 49051800016319122019906129690689051944877248587561669540357456380048910847622 40894986482017588792582762613009938157246203433634864729266590383159421792876 26304538233149153265076082080043446848468602942101136620074799825712450010199 1442996663496140972662826847099757961273563698326951886607834899063582550876676920 (-1879679194868860640590837624187954245096260073255322216701162088088848352315878804) (-19746321581077110018445085120938613999460698639268107304094871003387362546771) ]
  ; [ MDbl 0 45583245829851560980845991668794509258874225502358230434231918734831814566249 22292000607771109028002431624988418822373027552051354326247044640705070468749 12046773736386964559551078126428270574499410144320685524850531814456533765272 1873535563698155852859096532167693952100788106111154051851296435509408439072741337 (-1623245956488475488492591104244825625559886462563662516854640254813373152499902379) 16171837991507168777883895785643831128418480838881999232388463084604928109704
    ; MDbl 0 23500190086268197505285334560899413711086719077086094257583391891676569028376 25449878806899538782436420154665662900721260756047949395311563654388760366220 16636012379658292530658886089306537254633611623956791039272998992105304990056 442357988311236163814570122115327097218554125749693425202938762515409046659750192 (-431436204707887785229728344484746485968195400092607270199039470739983486775186088) (-1415266507919438013875345569432117777055198024821800864770637350702213756648)
    ; MAdd 0 2 false 45496380961560109258303209558332426592857064776266946548646900755082274379164 44815464927912574786940230809112980693999014394994846383159367463116029341630 42875025038349930445070705809536024850944690387838547262830703146873678984317 13401063688411980148883651746646974958268628419064505967389749746988359981457 (-1617065234000266480362850539583020441804245141353800797575269458855974276396182264) (-16802696260201970341002753729547998481393994195804377506983531162513091076701)
    ; MAdd 0 3 false 33843858332136797590023583993086614799008423063462663896833285015788005668957 38633541761119232717436984480427361417006996920178382004850754815755315918986 8442439639478891484999323621800950424822288046596182964092910518047391896695 (-2530407219750317281607912600194843732660909789026128931130564748491122720420) (-894815654729608216929503004053266626455178272772160650916418110972836917575213530) 3990018878837275848265382673393828058978731492526886948790565394955351319792
    ; MDbl 2 9197127217607333997280813487024069042605032879988058739337893524294034383266 45869573826414100762974865520632903086343293460077116966220590865737744199715 51437884202319278866809730740844927082652694734762927072703526510506256263202 239096145872865582343157789923901318407465528499882031340070422026869862912022113 (-66081246139067858385143652245536938666029595661989155838052267632227068040876877) (-3581565716448754583480034369544026418709842432072095428522105968067279570456) ]
  ; [ MDbl 0 46495601312793289289498445710405490913021843388293389043184221010157495672111 50577846917239330853337715860796772698368556508465074699591891316632013920333 41095396809491415113468115490346988916456571442149550035058042343071766939886 3736911281930376202996174194500521503901780703124890966606216327247670322441433304 (-1688875260102156401589738558408758033262565346511248343176587200926773830325023513) (-4174889572675775495919238120334300286591809518576890592565176048803728986822)
    ; MDbl 0 2627523856818907995879502007078336147443160957122981001023906647173769097276 46331506159332670648855308003552316720599537700657792305426309485973719050038 22696649338213794665435489212660462721878242067129008685007753550322367192221 168857465262139675182860731945132627613582161002403928134467984629749145219921136 (-5393456401012930918666523263522308193821788665184299090124608244235345892667410) 212781070370594453669375315724282929030500391022855104536323511531167984601
    ; MAdd 0 2 false 21312133920862281541805878594641451111790195514311443548394638080883873737130 32210697577651368703719646048276975027254534923722589415271144055441989864512 27511671106361604529044973927498471735121087443975443330840217373253343615035 (-187748630277595237969282770527186681354980830440533023357682867584228223267) (-354836028323529388221959576245539880166622306287340217056823967345288515352123179) 5739287511814263047956103527084929837737454468870789367429604074170764220548
    ; MAdd 0 3 false 37140396667498788561325796711974035236414770109628679668486266254386338875478 4247262986931104226466279230648360063497614974468226669951306552751013067308 36358209257352907292888011594214566978449073504389375581667720593250061024471 9674599312341979720855013704335042699169514872096111433392510873189392455259 (-1077623148928839910604958872971098275321558079118593262245685392303539778945305121) 19806536067460761418425605283395446003552502943953898337821402539980733783462
    ; MDbl 2 30772885832119621470487537129896250663498340130482003743925063271650489358703 23611584719680443504300892832645111129056208352430697544212953064835382086419 24671242797225594433601228051015564078281836792804638455394744202534541341293 1091396807238797356265782057078670421399282278862746817018673703170308650070459293 (-739793119353086772043448685292852405086512054604359106913494815670393583397966341) 13333572601622211489989247346213902474366999280092663829036619960263453151011 ]
  ; [ MDbl 0 31422248306710871793466839132248340893847648622134852183125112248227011715140 27499248790758130031745926480053956994810893724187500732262358992494092342032 34090234146419451981293980641798790793506541312586104862930790549328350245904 1211277226780683946212858929378358991493380725292183002374745898258024130376629800 (-771344432084301118352888840215821932971132347965295051580552626363148164167487864) (-2329686409666901217445229143137383886669980892073614197420477517012148069809)
    ; MDbl 0 11125014580097568990607911475825667756670808691198201383290333694420200221056 21600106791010926820956149142003464397905545465373908419922137723392283753441 41441005184952396651113473091879436375945839741137838510592154183315778831014 592606093942314496144293836203799793645779406326243239079686109145520415002734401 (-96688542616888935745083807579663726325954081820515988809756253852155712845054467) 1251586638690933740987576875952459205259101762535459520433399815248198133706
    ; MAdd 0 2 false 28834102702105089865691602488130424924754543955348344385282290783449571133633 662595222099838240035097679424197417908721482624194691980517536402522031196 20784161466642542455093997094362909905451066349991438194760600713088572925363 1106096941923214144317241001308649669171963723964033514247298558835544724715 (-649511310969445721776280601732533379852198803529338359991321676222357487156187478) 11513383859584697382678583378371305854464302330516245157451081014293094177516
    ; MAdd 0 3 false 35224587691996747434253450160904645818551370660952849681451932934091724813836 46155789488485465724642883766609189976125957639442769729893672089307490807968 28136298762552512016375071703209274169297132269920238413699535271795804593006 15416328807337294813233517578091080513803314268445091679015316665218488016346 (-969316651135403462636119487754555453196895583249441939352327451367539639649116753) (-30560737385871002571888337097667549816440228292393833692903113227503815126097)
    ; MDbl 2 2181511407075140934700637017194039999449643570977824669437647288162238455804 16461011651589563577258612903455775475398332471741746358236340420574441488681 51812510896343786280624437057990448881480500701988595248085061749089643880259 141277716312627716899996260624924605446427672436908263280848505514827889172893192 (-3717823883426717214745162450153711716215620523612042108771043201367059234281773) 213803901074397118444279736408557733653671997714820950292563011202122101559 ]
  ; [ MDbl 0 21150169551037609289487946123577115634275603197643194397778490865886611574490 25781334123706554032395056590321209766784391898299897638688370239131135767360 15832032381933184002085330144223648722195580623827590874038209828743790108515 1712206955204160395626270295775709519360936284938642285327042731169407251811964616 (-349463275365380064863926901285297271339459134354725851702380789108923462739090468) (-3759380384083499770190788518241460948228100499703617856943483445656050526268)
    ; MDbl 0 30654316915701861689106818390440048691814203159082933873125101295084601647792 13971348859142580752514366273672068680110435177033457473009116629860389020675 40878599282476862865868582153226886322157842404934714816572632098454563894038 758322468526959253146090700138436036412056033545385717341721582266281989849828737 (-734103208967115368314469547139503160936696809508777475366781732157856304957378181) 6904185919670633014999898944524559438358890496472987370271583236073956163959
    ; MAdd 0 2 false 25449108181200333907671503680552707756246563740451288615255357106828640385167 46886200326941213087336796685888774554976862847326242420335674512646750069034 20639528548161407883871801670048760923020241890879883635114043352925201610566 1208327266934762285920333596256270584151849487947478684376139604825010842637 (-505963248472322974941944990145881982639425859393913943798589127055333767893304796) (-15974819014168044215488258544672670008419347859828583377992562507871017540389)
    ; MAdd 0 3 false 7588369551094352049628870242537500010899753672202496640577311328774696976523 51728342781483356008435332151464546242474184354516048077516602834489349087508 45384299742324971410087306689933286336774468460588682287335147511368222497159 (-4403046093142347133033080793947259316346381183435650255008972941263644838024) (-44985316667966760387205155334080672047949256025384536636120130564369523221377357) (-700740976314226993621749381991368839685736382865744244641570682758809666779)
    ; MDbl 2 6868724810810766722451709750676567423216771285064116631222526965517679486719 31677710281692069377248919756706570680346355238655940881664903278676737326252 18706124755920056359800927709731452117117932549614938271899518044440186842789 438719573381075256951248595574797718154839689758698351135578608417322987874488184 (-36857516679923196362431763100698175279222758844055448013142151038054167180004536) (-2319406772673468733307069238873974969572088172324437005063057061134829914130) ]
  ; [ MDbl 0 44368411676948470873794398889425197355369036796223333492743810040605411660359 16505783259053903872292712286814942331233850130464820904994046575714439933809 34536808108085469068092936720188353137443247472917749656898245245100166878183 1296823188740346078231422519521540954790274023906626180232156309579520039442725753 (-1537876994718773518654589196505340272110763934709639003448960540975572941104326543) 12837666994682886748262926031665281036954801532030898497789517297486304759505
    ; MDbl 0 31191269916964994556354414294384483285443123686534834217035383095818741518745 702251080204145364754985355164109155352523955168536941792927500387714225774 29817076734727248567046149010511477354450768434320107884550264462295228842577 1683151112857841704536314693844500158010159002380256016718294840892346379949747680 (-760046127117406054679726163272715113156936123170221232766153517525551540801415958) 9400667695268584821139939442280186919466202847480513438535303369643018276755
    ; MAdd 0 2 false 52013727747078678757791209591304161182472939264083756805520104036078367874962 44193331489308937133144026621949234850314094524382232405713935640711717992959 35699819822942134668794342994887047425870134885671849756635125473772045680873 30726083933299367655361616257949701263782411012391210322281991274960278775048 (-2113536716349849921364712636724112814569862883084570266882042491194591851988740651) (-43140945169130379955768116962875402511719830091255360997083145027751956847340)
    ; MAdd 0 3 false 5174260958220874356834732365074379498591382980030512068729224679544257409834 21760868925080229591697265891716375169675671876434235085858087865950486628274 6202872883255861696932363603029133521362525041674062474833072330818638218151 (-1235014958102056770076758962910423240077330517525838104190724882371558573658) (-20915607953504245272022329269682983966059043608853471110108889493534343204104687) 2213587831902923718976410761532662478188126325164101256329355737054779806482
    ; MDbl 2 51692784388511959555079999554954505696689916191861159482505342847183448816713 7651259552784494350545242892279990145878360656368665751624331349006823831883 1579788191891140493955342231745870400015505460393918797708665374485407851780 2408234789616476921244432493069448200760585707978407043118564061033939453240510541 (-2087534626308047516152160020236184973895235567054203538984250016443556043427862893) (-6850531158054125671467122724196144060506181986230156568761629662400362308698) ]
  ; [ MDbl 0 4021799558789863528782893280820936421700498021442612579393720900878061007912 15462612625062220106051853399664670312850436219548150031864038324659893107967 7136461230701379482731705807157281702514068811637700189220229304387911901256 9930465814694972364099772399173936722468704112045451638954593189200836995309080 (-12636147327389438447432515218118757369598640421740613114920424760162969953642647) (-599126003613284755313221724725096611227397298781590845715464744409921972588)
    ; MDbl 0 1150348032385724321186967444084460498932052202914938999331924786784173409035 24852847663884062278044040910552322508603023799712714806595996379546021502199 34870877939905086068138085784615489794555933384435343858244931494330541153039 12840410428276182318751741755028227457886742017438714081324876254161443270008512 (-1033790041983207112364060110542064618516457011995137673144787072346944040657115) (-206004731769449215480381469603029186673247241036177174853812291740586099455)
    ; MAdd 0 2 false 40796171023702917563378409640263821152541632073297822566988222887713009327243 46351646477155647474507492645280984600054003837811143063853285807424935824152 34862748901063606793337711380767965894675643119765246280802970925911267642771 (-13383183328512528556879908188671928206698112314798726681598482424516023302233) (-1300207431606252735672065110663436708462550767891072409904166391062875350171283264) (-16726500134901165784292064403191766850531047454160696961186062501815724429453)
    ; MAdd 0 3 false 24644777465370040960424031190877680557835241300471943121788730539939520028803 32707170233179276385632718071136269270715682508998818518401878427144410361144 52301236711488189550348619365314674531258043626487905959938205678939862272750 (-18189119956317164460939027254536182513536753803589042190284293796531036902232) (-474486257431570380109880736649162198192723155763934121978659965615997918566415809) 6412882011433243569233855152952629102038939961994359073642537508188817568031
    ; MDbl 2 1342826872714890847636670748991384916373453340817617882527016700874990063871 33154544216975931038637836006326449001547756800241046410917656288214899838221 46805513540079737419329596566248305411983790758424574770139193837934920669220 73197535109791254849842582124072145736944808141137008836406698516685711744923224 (-1408684980319956460833436832081486095557606098198171209330814335345907991920385) (-212597600085531806879024297000608521244946411260588779007164339125330245917) ]
  ; [ MDbl 0 5580111427739932746495671736372676543034530217586122311864225484042003973892 17439585976253097402311466166593799761843155277455715643924761895301137579367 34812613330762086321040417513228420043148794047501735640864865664520498230328 408141393314610043451107272815568776794790833348369077056330850782168915525816496 (-24325376966782361143785348577607640385142817719645072843742882452115453740472259) 1672351567941619238547282263094371358592318044141158846878608978912676346940
    ; MDbl 0 9683577452994122422046762514371787720670029327772343382188568625225747475147 11890117048076675638659068036579700571425379918287455711246050198696809437946 51432572147082111852801685820814614432729549542859614318330982107962365343082 526733131405835086011126405894805241492781617281502856047541341830689982945376048 (-73256387364225286539916004775379341164428954820810732172136992391500333980666286) 1024846291007887824686734759137981857258517872870680634328851316303515649229
    ; MAdd 0 2 false 1078024611932034565223468491062764706726865268718651357318964044413786632221 15212345716645866667917309681406646525947933189640994223091694728676833735459 47943223510864689137591691323006617456403785321474285570607546019795576899602 437173514700557586267481842256119733254930147119699360258299358137283549549 (-907885727622237065784193452302734392343040767131866937863373657073377533651024) (-68301411185041082910832460004893691325295335924596562929668222857891129889)
    ; MAdd 0 3 false 37173476112375855866012641206961215790258651417052244318606115316088240946081 34919360280952215645540229854618754076626407043807977395985569859265224568828 28775217451996250626227407097182557928165114731347582155937802703644760809831 12719800806755971815314128084355408255224816055051798870654966709719877610008 (-1079543594239061913697447541153111921545111166090355197897038514917618402959138098) (-13970935599068546480756099555219452317549944732871555450742774308125424791794)
    ; MDbl 2 40105958635657495678646306300209590796120686835358594060494572860613994581166 30280769786924276630350552880688903534557460604092502405637978121612873962299 28759260895438490513451125959212538292007028575892852828765684038116453034170 3222938865401854723461073254928261542792329474613235973283024523846153108402819253 (-1256584330029316434299596641687585846278618107486313515928172087217210351064810049) (-14066223850819671078624018558132231823795004381344649357000077799081461114450) ]
  ; [ MDbl 0 40949544102283964788421327177870323228804673240093822310667471714960108904372 44874882264037031009490879709781192835481438345797618777843217441399399220035 20716113649213238626339061939576766201490018145809838985076270744168959007788 1840106694657342197314256514696574792827893435375584923331952256857320049793745400 (-1310002060122512506952830199591310359742660137828896192260107916451632281213903867) (-11397201830221635025351562332688908253618991214966560583355432455302395183750)
    ; MDbl 0 47560633177039475269646670214077517517581649770580967303488778455450279115601 7422603594316366694262816263628352406977752729545955230426126794251704790786 41295193073310861854971332454287698133911798122553467744270305157679011577254 1539544500459325531684774361916359245499897884719852850421339755638933270530500360 (-1767132409804372109705902568738038617485002112139610785251762550553964514749772814) 33970141272664622459761972542897978572503079875564413567735368716292520610239
    ; MAdd 0 2 false 37613374140485608699787169246176439517559214509671542449286071058078017363473 33149421006313035773998476747968700794060522307858575505944461242537557042387 15942377947484363914631875344461765754633632347305136051672214811372751295721 16396651229649122411806795490222757097102913051515247499990732276743116597941 (-1105244657728102519774817323912709792630456491238475877032466729800856148755700630) (-18454396070048269882719099855780776767405415648317445299531668870854614410096)
    ; MAdd 0 3 false 35942339512877851262780783514345805443480442738913062471099206218488285458352 7562336367281352376328713521400540539503088253400660831971593225495293707626 9803925695226228597699938416378946375236444490577770514661899984417320292187 (-1966326217059343583364244555248328741894711598907451475053094719384913286225) (-1009221562824485100837902675976972455996434114541838606835747535478951578560889210) 17538749571153794763527475357926243712076659342861118231786761198467346709228
    ; MDbl 2 17544591891752194746324475543528321681830563646220379459129819041930466085680 16115302514004184835987936857050773985752845669559193167650222299163694911679 46123408798467830175367470328403966832758183516939048181377854338004843633338 1132003612883606484314035974074233859928457942581019902495952004934163975916878101 (-240469708784181328655364931342171152542214195827773546905735343825431955699004101) (-2908502136646772037031507916384843657056773934760256688992823896044939578064) ] ].
