(** Generated by tools/gencurve.py: certificate for the bn JubJub curve. *)

From Verif Require Import Certs.
From Verif Require Export CurveCert Curves.
Open Scope Z_scope.

Definition bn_prog0 : list mstep :=
  [ MDbl 0 15373061944242387236881769107503692232798868306255467829888540205405730368215 21105130435674205844145369408997632366592890932485795082163308734010861004187 6067949736050185211380419908048974984327956726339908296293043465133446706733 1549957345178845110549258758138752055579808596557314304183593207851528642033956424 (-1821482226412408448546174772844785246538264564105900074028180634051527707462841319) (-11016052521057082834668910972757497900681564792836285890970737783610299934969)
  ; MDbl 0 21737369221250264687069638058603046429000778045393502156319510323210208645402 15156305482816026700400559007222803089050214576602505325320867667653945101100 17284493885635732760941027384308812029332837666860926506794186906734310466622 2033275259047414197591724972783164925137430212344506169038190458490951939386737080 (-3641817243724935308631964158369562904086437845347015360756887844043584260766874316) 5907820248067214210002323569219964684839331510241791102157581653840635474907
  ; MDbl 0 11908910084698507298311725010062478715168283659366690130975817325413768631174 10490343039211314552159374964963273397065940806110934391320975213145458915269 6616883312113869483704354583365738234456616760949867778155342207036773396159 3172978813102316330031000142783937680902630493036390315463909850667795014322820353 (-1093070606799522677834898634986063596277206143975947871118790377906496237702767751) 2538647232892266225074552804010014566778989373398439076163087674344352823789 ].
Definition bn_prog : list mstep :=
  [ MDbl 0 20086912668628808215851352316055013683417045315953982345863429526559024641507 6268435994068219670514349214860377606233659001455359991866070067096814116090 17075928723171027068166906971364886775676089845984942065371348590933836782260 2048821127100678500311183803660325963268424141710891161765029129719901884868474024 (-3109786446291678817713027701983385323087878977670551390571910469677425146848095578) 3874458018736880712156108651816559740433361704293940640622546459756143804302
  ; MAdd 1 0 false 2681781604677903585632130265103157624563261651993443451305892411169538101963 21657298693384857318071998903846405957828946522171016760773063985857067771019 12831383351377655034539422237196374676570030925035182319112705292690233006185 (-517274626228294629764941489113738630859465992916042193523882109893021495534) (-55430781106477948712916970645447876301854565482869737355537986674994813563327328) (-1368192797794007161409593973672425078156306930114318990322738708229493847082)
  ; MAdd 0 1 false 1293718136410992642694362488006570774212256827444267164255376409507575313606 3578714739560381500469433122777698670723558355969627044163530030280582876076 231131251655795242986585996562714584169121540430290889452331953411470133015 (-909568250380603161416377992437086934005581772919907459442638739725735235697) (-12899816026951629725347361414929717130433264961975833479655732367769602190387099) 1068545889162373221761974993920224492965819478725460181737214970707423258874
  ; MAdd 0 2 false 13202323115487477253937114197274129226451318054798915771508150143891066774245 19794191847144675247225359605599901674240138738097130851080130230866649422182 16441916710654527731051823386731689149871788633364147722042409059970056897598 1622358144531262897816203831401987834657565901674030292725972112550145131305 (-1343398622521068967120039653300815449568206587808235117829376485166061189949746338) (-9780683150292948628107684931236245340140161688091795064101072424054744188599)
  ; MAdd 0 3 false 20018335141977795313769318910631626083915010225527599820208702580439658494192 16539059273447063261542317353017220540374213724998778268894003023182177810951 1588978709471080429675964089895117892107208816444373891984065669135843713467 (-12370253532950676890184894639074459855323715904047599131100002999303496522678) (-3088588821269693173044361760685638779611608344121477979061629151100143761603510113) 2977047320490186169293376762412349383884503423567526506997845448089698847511
  ; MAdd 0 4 false 5472862913850566299782810805574377302920363526563640351095772465354050617421 2363884290785621482364161556562606266423235919936706653601449540926388158784 15657595649273239834757727000820946602647794829970546771708806787919652272651 (-2568032234335283522318948242955697035593639030638698623519643679767799281122) (-230851830963150019504828821400612860016075423566909798748405380090256364032858519) 3544313260511220804185613356231729128086086555305529361167501766650036484117
  ; MAdd 0 5 false 14632865923069167825843268078985239158910258221257658357360489861997294807675 21298244729926113568670958573128195785616635210078379254056830832172629380660 20813391994756443183305246792646023748759105350004756094108578526972851455549 2610295485953941985313706616000209120084790748428195859912563501210027406773 (-1650300267941680609539481264210818888669136067009255639493578033936117140741422596) (-12658117842865753439797241098208915539743632678918210283154854625724580954500)
  ; MAdd 0 6 false 1951825082445726643681500663980237542767019152971355077533071755112742762270 14055539053642344554755104938988640586440495040216914256513019968189068327334 5558227725629959210713361740925543788475611791361389488980227973827861304452 (-1340242697724792794909433059086033612270176337733849425543084170329354473283) (-29362022898949910299397440657668567972233575228550693626851250406601690155853246) 645848763946706251723560274192259806873973737880727324545352629546374107107
  ; MDbl 6 4956346120797439451860740554223298849303021290169442753217397287075324431229 19820047382428626180136769930266131152176440769195130555612854920369853611373 7711550724462406541802808497542751871652873415383516480379439017804805337077 980387500006033003617103833904302691346740517352307978248155197041212155004543424 (-189333488991769721540607765023058915831198495711385885339281862855004444492453977) 416024870580337366860144799383469325298497363486809155330330768908901145416
  ; MDbl 0 13679465758321511318190927185776170537571153328198135017128842160254534783698 1232244015399485679228674877209840003776148076718844112694595244127870872650 12764451550261085476680782600985144253051436673868541122961617620272890059687 1626145550990288417257617070253903672017386908463724026850653536826748388171268688 (-1442256340538755097924746507031227415239207598675942946329567552001236344477299982) 11616794512492630274089920067059386663458116063529205861552586825153889958170
  ; MDbl 0 14789113114549320993831645648583908533506489912744601379897825601800428813150 7453549815799782545787662481518687340166912905642013366323877744723599860452 3599857199127302895802574600293321044207902528554216136938772408537748673105 2909902919176862819393134702044495020451879126927780339129931386435051666402607653 (-1685731665664259982651421516872699358592956808455297032865119234216264286626250850) (-4203516734579725839259042058029999831680909265718498838590726097478548076676)
  ; MDbl 0 8592601158490824916050348249706973464354370878984988668074496075284517458518 17719366076209667506359860147915583166275695501499374473302142500991195730888 18245494968992310785545976001733285466704531766692509875104127599048536652380 476816243233064323533360807004299196175956389895514725866687759725549589828960465 (-569054013772299810111570199042789398805861783313270896018465944743200510709253370) (-4030020372514242339213853754759788490300126465615266270338635659204990337349)
  ; MDbl 0 9185431615188301579795657888010862628474937499508383938294938465284613184407 8937189329352403026198046137931197785617206864387451156121239950385811770262 134844698879536843000618800326259068543753173432860430863738919613247660570 2583429600459797334649791147354516230148700785658393934208253766865185317090409793 (-650284376682840969016032435987189354288486119416806419742073794211694539215961308) 3685452706874853173513645222863816284745684512690722327346001974935953669896
  ; MAdd 0 13 false 11123098276441332922475422543853138653839414479500910251297516418977585407027 18010926483439431628077414229326851226693760622738195375931343865222834694567 11291176300009555929613878517337053986403705124305589759295313807299568682018 789276757130958483402308746525251527622445632578145056985342309073983855800 (-953576922908649701317762061033917624958129553188101384174488407767202767590310488) (-4611063148854127226413275585194971514247988927979189722091632472948734396319)
  ; MDbl 0 13750030885345946330492491875433657486917610928932837039612610921012631094676 6072344171342811539260544332864056516745566262790401497904907855692296827874 263347298657721736669125654822356825992227151918976937225540360942517101205 2393233700808907606869287618353937991817910667410848952030163640217991096231729600 (-1457174393657573686363096489376455688686786451737086164652645831805286575482557418) 7499728346388696643076131045987460805558319276203530339639774065335396157485
  ; MDbl 0 7693214679372056775241510532890214829312194300221721232360156673456579394451 10883861821233118276927019323055736414738530318398437873880783112788921721750 16062545767724670557664667174332015527933930458415954047019826086986072112016 31234975799502814429233931746259757564239055126480704924599869051083492193287549 (-456162822124295184793049168749952353123434353099665475109842956475682953117011888) (-1691137951590327001114068703936146772212915130227800615900071504161868775041)
  ; MDbl 0 12281886098062947517492195481670794005544737038745033523105434594816991151938 14372436335454290865424074727878996383917583360620109858177737700088129036659 1934988378363765242938930186003130746871707838493407586103082106507776867867 3040996648621545300862669251787279376358061643707325869454116781322823347475846053 (-1162610696821216854680603336575907868793927201683012996304686997465461091912586121) (-1957501800356683243357973858479494922257601348519026593343268230437517244325)
  ; MDbl 0 15520707632702462767098866280828689527626564739379195555373104357265708334443 20800387595485344383507793066074894157209757094488512891911809412868402188932 12048027446473147761480553179199799589361697697549173946122430687282421020523 462967620228777376934156588856623318098677295106124259470274630787062907966374224 (-1856637934998854360681673734537764553089119045928478555558110826178276076264585344) (-4557988175129381256276826626751202445107320679725895905848577597288629093537)
  ; MDbl 0 2637138392554071037933231613368891761464202828968228621355448127491567566869 17105111852057294940636918064482025609335054347568454637999373125146536522268 5665767654060054062650797071380816059941073550857619985013644685955738936065 489819002817078636948686164979527029518715526477312207022225936319278903604502985 (-53600646317277455983154377980106705728635486799775481809825964705203782916972090) 445214062687756760439419391537473033626195175180759527847462867658224569884
  ; MAdd 0 15 true 20312547487144332159207243002501014341966918289914287595029592735709353639543 21392605194740283708883173576782572008603782887986771208619481686406437113645 10790436545996351682952734256938182710000990054798353789819473003121104438513 2495497944570840390047367954428254137203114754031483022600414112993050580645 (-3180042841606233661991461013129098104207216374874322724703723102721520337885430629) (-3978844379331633696997020095855507145240888585829570703420609327187028019417)
  ; MDbl 0 19285013429538786143161339058328153109264690507476697940185279151206552221685 13682330148924471810759425324192804659276805752001755411075106530118037683159 20373693753828815632522343112827128920993303112384862189719813910559847871768 3207758262926910491489953027165648204910368277654197957153483237541607287555117688 (-2866448047368116634274416783490970575326330070196386000465037775861362006037931591) 6793270646466516372880643055368377263145232462753758905167102546104251482437
  ; MDbl 0 21258674387562416721365374872275163930907104391924584370748471160096069006124 3200843306046822766002150438479411908214989329464538043310190651451714955037 18129826999509084935220155537614475092558692371809547708108087401242763392653 6676391601498438741093806526827873648125526723361259932974195250858927810333771424 (-3483185017658319278522433810612953542477992867255350492324353043655351790270047109) 10180009295169690143744204058959093947084506637014000527511077735728737202771
  ; MDbl 0 5436668361170623609571942746907196383618341269803108943216227093927437403014 5824263296676849517105831064564521053036589707105733274451186441445952694742 19408445590424100264850323834603260172432068498825667853918527858958893658467 1519361377215845316065475683695259918700364600039903980714129014074726988369457680 (-227808469837257538487482646997104004421208794493592377798219943697356855767928442) (-651613039229873300697038023753224896285087323452217730646387204313530646470)
  ; MDbl 0 21621923586138672500386590718510309272004943679786570553092827340929260657553 12468655629963853241945421988687432386308681646098623244343132893362223843105 19266090902261931872623273531728729284583555942966420700502943744205617858455 6468738186411459442595159467296064766524347186052795779533449178227349581851200525 (-3603237095566719692403557248679730264456024680020785467299574841268691453787193411) (-6563548483441378277624105469730182113100532978366549188563400702314565826933)
  ; MDbl 0 19423195418373303132032111849429075686395301268253155372222815569734797432430 8786247221929194906845866821351360509949372214248090263090113976149911586759 2362440990281788777760715411018206779458021127317964703138623798597773061693 5768329605977332150476975257858180973869230395699430723431084854968034532161072168 (-2907672860748350284183407892463017176294579378129003240359481971402620827415025651) 3267696659723143470931149576040382494619118172837583157369564903338996334296
  ; MDbl 0 11471942642220536368017864880084479376888381939483751107653308045694805009361 6986647150211499406414120507157191517225498877609879223155390624057112904039 3881056129046683263841040715656857937503724400383910220409239156941896325646 417775641592517716273008865875871084850328342731190033492335436679929431657601624 (-1014327307098255843910128698752923779370162263229348613314910518753799101266859115) 943196259405658219080034773601246734077548719833268781754761793166475676693
  ; MAdd 0 23 false 12544306855883698801487201859717885010543428677563829843176487152373003721084 1979568697349799536733797560396885715199414515608505286106509228096552021573 8774166876997567742532432098884639470708206713336753012861326541184090725091 (-1953110176711355724894443074967140801109104361314770454888723692379541976733) (-1212823272049309681242772430667981192079274783279203624698627420225733179126525458) 2869592087951032299771219437862450856169388172605514453626261747756741140871
  ; MDbl 0 15876899042553550930407279260175869435707780711074243965825778219367205190141 1416639603134588699877498975310210700426525335955915688674454532965300215259 11151336681896316171331292628998417659669785281691644285788365391460671953762 2147364955013556407343383380447438248699982447475861897387856453240959260830576088 (-1942833350949626141284644921463707862320977345797012638948564509389968577346611259) 408327358632785136309543266501731312668294706768069814908102522653311065213
  ; MDbl 0 2301569877606080377505615030832042747770461922662222123113157120212962111394 7196879714345366820032659190570957597262690579688093738575918814855302296609 17810200692457154826007747541791947086262792167538223818185990659543909290585 395626682619266842798798265426004186689382430083960865915804661639586046991347624 (-40827474247985434457942322002596025372778031897457578565549903993780285155525825) (-607797830241054865381162071816959442480200386024397535710520502405080080391)
  ; MDbl 0 17656942193470490159821308432735640771331688258147027754837085364152845319673 379858495439814154542987790776267543299057464582585997057747776370369253238 15956663355966318450832772716014109341563842336260708805737838613235310704412 4847514577363011449175714035600188534316247133307641330427014975618981007699727024 (-2402897103895061413231485428010529807651367049020452994642725844622694174814567662) 5499196545773824721598198347647904365720710369493975336863126436415613345758
  ; MDbl 0 16788158177250852495137725711621707073743936986074700255017653067939921290783 20454578627842214636363007362100251630827935496053185114258094307036658135402 9508815943198517582360577182251979358561922587996866606694333524190803003603 4129327385876876477806572147938558458863743247420626118612971100797549164795010693 (-2172252413967846754046930377614945443672926644978974139416152259718517649425962828) (-15397196518703193368248237927732788128585094017737053594231051886067988599931)
  ; MDbl 0 14414013268842563200615680632070036045322055692621949927212571205770699802444 11036421191121865479299867216195245127554311233111356679227120930270731070847 16059227368060012182870665539753555732831079430643928074527415113125469081502 2112794829726760453475485802617191654495223813697684035845371693967640818450294165 (-1601304848479547684894306730545294026229842295869073515990018542417196618763901197) 6202117139132784835085736371875987538088606658160441049622324687358560026195
  ; MAdd 0 30 true 2045760383270329667569443670436794818639931330981009449265937377511342528935 14021276310848530589136544642165336514886681637384619480270947199478933757677 19446717442413638446459593540270288330081457686732262294557778648459396431156 992668555302400532876764763210081213624479748734679722378519831946543742171 (-32256237775842454753838906388558993608360520551065371752536555050001327179152173) (-278976178649525108713480816558994168867874768634421893055885185182327736724)
  ; MDbl 0 13941393720457268577793024046129208993454717548203976492646965551593826305273 865813708529924012377008745340867876832914763934332674145929240422857777258 13235887821743800071658359894826205809593914323338026604284936621668800627834 4179164592452672603562347442122415263726383837470558549916837032101872436130163840 (-1498016401003695549029539254303229407128231658599512543736168320243142231020350330) 8379178026649127925888660505592149258065533733630143250758497802937461905341
  ; MDbl 0 7745345321727661519015466136993580828883067226845419967317893475362200681703 11241067599254849346453888866790582015726554487900824693395394777397031994350 12143009506025053384947867202906536117284934389724855237463772481851625834987 1580258265278601571132550457796397120863649298904716039360589421145253264076860933 (-462365854529116348619276709226363931753931276590879717410728095209572660709382392) (-3671373926851459120592413854054884912963489056281601516090264911650213120641)
  ; MDbl 0 16113532385752285021282558688224233615447973997351639700459289429993538198463 11379720199121647424795097738794496586944180583171955116940815778077548500128 16776509153539219745537041530155813105005062558457054068786394188546297376169 3016155751263585846788048626166906031056226712963214253283506786712522032656915453 (-2001177890965420492980769981589594015349180120375494427233686849513402699627864178) (-102072293852186443446948643520614899619682685038300125274991579109146112610)
  ; MDbl 0 21051979667759355456398043927472620626661332221561593039229932397714544948792 16700051221037740865988197852517479491973863243491400796544790125748575968079 14132091632808925709851658930474960256803295669350093212411981643440763465893 5444150659219597756442418605475263835779860763573055108413252632696907471034363073 (-3415781384730414406556387303084590535211855311196690715061619203974300156774835849) (-5117062212573816673714776768512445818051391769219528837260198276386214887062)
  ; MDbl 0 21328729335028519871235555809283600730724350306603040890013122193248848888655 10944235347008227062473452167007026301271498456679394617600013081171211852914 100086897577596592546530588825530941423733091053778422442941638122339707962 4646320672179888299171267245193309186124111584567700233649454888911725484661017624 (-3506179527692906788884381920241048938570197696787788862308026870855126420374802310) 5608684059211565081874434070153397960618715670771142649290236219320635416660
  ; MDbl 0 19286565508406950291400707555408346252026353030308363728513671744338124291912 12103010206298673257303365808591290475778948128500318828481489343775203659445 5168482160170222629859346668108674243093981967431515069893175870874630022103 29771851510687742861138290883513893762377191524128905842253612977312863057554549 (-2866909455651348941764813792271041057940063503861435706300531863162093168756623763) (-1021040718711755678127731185116743352207650589795361109370888337017287389161)
  ; MDbl 0 7086960988241206603956086776890440993179838725461353439265885935549981208243 20385294668208569934570625405729615244673655738367099583344441037305050299419 5134261444860221835298523023464261949688698680163930938831141462204230126940 564641357826727673532981876866676934323056880023376626817460681618482782578418888 (-387100977317028404488501209633647630343219870555939740699543300716217250236068571) (-2681632656342116462041184454556760911639130243038578832053029074276078977925)
  ; MAdd 0 33 true 2271070132858185158177703049482386707778654033080137227401854205080600350704 18594535596664507398158791539886204640088192244665844842947010889674822883525 5365687041664494913191670700015499417451548049121534212699957737276496181321 94725448273661447681546500589815633377756536012364335258923553539643916809 (-39752575887572812850957005088823458794574961029016466331174304763144574917243406) 185804747614573062209129494504687821624622134981634788560949222433721017595
  ; MDbl 0 3535342152972591137404702566636950967069594489072885561961070246617317104012 16664881727079859067713007750306856731023682796987122611453001810969909557527 19178474029877778951914753002974933417194223096760648409814511822687906292121 292456546712290442614125802439551615602117802322918350590740758438437909467130928 (-96331225787522017912265203624706520960839237323941028524157974230991109656304475) 311673564010304165764437240620884744475779440675274540583582429422971352902
  ; MDbl 0 10809209556225132755161331268778584342378255403746015280483899258482860972640 16451606947380652379412139542112975284950182509673796691055230559196972952956 18527725222256959462497390016967982461196470151316105743527203220708506406382 3195562659168157947375898457366403551142228608691128510110037051612352626731524640 (-900517291862006821923911444757790874179844525180009821970708641691170460012290724) 105322834743963949778653047469955428005878371526529457120182002731693303961
  ; MDbl 0 334427709262914397480442103398743100680650766768958913456521308317717442663 5031754038607143123506754439283005938281316075686737444474334302923363066993 5426521107494611872056568782229316520824744113689796377125975622213045931564 95549226928164475515874969206194821128647563058870724226308989141619070703745105 (-862002830141189633219453656728740643106385820285274967657060069306263842246559) 174482495957412277911096522332979995926124931242320282570381392579791214419
  ; MDbl 0 13467669728494840724957877199528172829251824999379187097016103203200532685350 13963122725238653955355695712590149305124433537788281226103482039228360717759 14470689098474400761967783760809177432755330039962057908653795418252162725389 1126547404131289921772343787090984083047699783824485418708292057572938248524962328 (-1397941824684578233787677631745810915737608179705061365933008962872859295453415179) (-5495403372452910031948714907286729419790706920578200185224019988070615298509)
  ; MDbl 0 8745048663329622999310999813996419663202727680553753693732014707674619318973 18790189346888251481558624877827990692131962996224466275789435296746777912764 14353196866531045544826888540664741626586500623288966360506143518960684664070 1950704887057677531855763116719066595197607080793783411079043039143189961247124424 (-589425125518777158101514495035672460509918080423422900483620142401224588422893840) (-1928566525628682740108343591307753107068374989478671360828032535701619159772)
  ; MDbl 0 20160512927823520221983476076254261751782126118526847823659651054781611414404 12762572512255980311218943065660870725867397794926566877308457749599330462568 1161226871202656190505876426631865204254643434341169466014584473076872195081 4460557168114366731518285639328276332190852595089184689471460059888190386362585249 (-3132617272784816850362960061527154784500131990384539800411939186818095511241296282) 5551831996295792269131954753059460223161349385213001112433502038980249296449
  ; MDbl 0 13712927188859542225739653531642597515851503436708879628898968631675567355918 9675666219735041356214675916783558647581393036929848541551452620011023160399 9732614876201391184127970033219568157256268513680692088883580820142488709327 245482718379430253582090387777063601467538463005685444658101814769513185427219953 (-1449320795498145135400771192052524444046383771603589921444437652910663616408733449) 1933938757716961750903612431133692992949323900513808264267360084091501946502
  ; MAdd 0 40 true 20462247430804461392059976154035759292683683354395584186421738486188163635589 8889099321931278304769721665112915053091367947858096498861398212908843339307 21249332446569074892591114917061685517177959046194024705524242970727225808566 4094528837587729347587732020562925571657932599240275497174056333474792923782 (-3227088289315844763605541374057041472048127322824737774427568945389936449599999414) 735322911847259881633579571495275261596422528193945983094590510032491001135
  ; MDbl 0 14179404847810344809702372072429807915914862258530516261375393384120591929519 14893883087023235042552095566738155448014369065303096090351645963241963899403 2778899934887383271710112784788872252362275824747471884971615443616032817471 4644494849947373965591421448633591888052426431131268803814968152741687319188828760 (-1549602073253977551631625458723783469862632158490532421729236170820778458195201495) (-3889954096696435730846922120518803331206827494702597097325439104042734208533)
  ; MDbl 0 14309493581330606991959484976297300915630004645431442189563920605242933272485 18019071274937018401074053453958345609135627006651673010916856055963690677500 432862433176282509971940296198441853490030161531436570377030679703488996625 612989299117166223186405852120755037862627352431649017999370239246128805907909648 (-1578166106249032439142731051657014803035355061197689782476723463262250576591910312) (-2043099602706696909950184794918002777392028402000538501740873798323785630373)
  ; MDbl 0 4114997049305042514955013882095294522640368590774068912502668109007037983756 2535569395396117527254443248188291093042461423669592367787669301327886763640 5155216717302864490536336625929266226420032814416165749108385561233410851936 27501534429025279211860938132781852333987323181183731329231353086431623629501953 (-130509834776590983202367495155281144313450086035086509104954200514486810860220714) 2910903580533320996277476700983811418253201694995486200138604129532445766847
  ; MDbl 0 15926701711497017265654632908003418033454230503967398173099315691095683679913 16696178066226210273893293080596119399270855526206008078211135581737441646832 17571520930548866892198523204126430300470480904463406854979149279880285376241 1265631440738694176049749353778032275654628532033837279034182790866132253062410273 (-1955041029749199876245304969427613032013650944152304494705760469661990231049063830) (-10303786908528470699649158662831061105474540057309280215357404682097865413769)
  ; MDbl 0 10972767526278152840004552389975596370631285758643373513626832184070287336910 20576780265615200989018073462029089224641938932601860942620874235427491291731 14112583622989723870789093062865325233015521221912257747114427092757422422294 2972112844201723390264237575171361047801541745339408493529248248183487624552879185 (-927975563190023821317419766627101190194903537733939641555629442473482166234393629) (-1945379811672429875503167232588269709587617708150119847588350953454843880625)
  ; MAdd 0 47 true 12817791001661404535683115955662363990753700501568167009647098594437017298869 13782333694584043629095804053593130299719022647518738829080846588305566637808 21255348098489042470917551949867184442121087116923606229816594129210064326867 422490776112527847808481827628162880177966072458579505888952775690099248232 (-1266282355959907933009572415457888271382021334531912277529425153227697065472492941) 3978839079471260168175664909030184089531283697963002996463393029523515027478
  ; MDbl 0 20833089930456432773494694028132414332161597480264943207865931778027744655099 5964752609062991293824904090390428981876601674434574089431285329476498436406 2348837754646258051759240340118775926359166556765200810740066169021212922874 6825865808337627340928887325599362183494194141561823721343190107105961389853634233 (-3345118912944712835572908733785900039379237036997645124838684629736607613783897260) 7440723805327995499124340344601506019287179841420510740212991492852058418321
  ; MDbl 0 8202249456245074771272121065641192578819486851043690404830838365133711672128 10675388764019133986841293681186795418966007547599255240108364539772469112192 17976160653318630260279605487211234173435116979536774106329539400775134286690 296980068302594134902429402183325274764584528409295728482954224288534281490692005 (-518525513705679229182696597577382655307688249053967550443918916777128195520242406) (-1765231364929142202762287918947073131496383838790070256264096920402555901916)
  ; MDbl 0 21236846584711766414262969332590342462991180377709744230034777417358703008554 15791426632906101495384448410985805545680313877205554616208847604002143298805 4833700169793176141390549679399044578658755999043911387059799542796836021545 5884672559898238607244726918376122306192921554708323713460329834309400728462390625 (-3476035819019788838455705371288354433173313481749432327610722284596105664989442911) (-4963784072540241083860483749363316007886971914269375293079601874454884329661)
  ; MDbl 0 4660773279758866093684100135562969208420148372390704112940746442490801110154 19026398341212713027545621664863839125706825691664825182796870668024897403301 4832200183613698193457629972448624925458906348602509636403535777221200341698 347307854920274376673075088458956192648731470001906802696922672148649110301332768 (-167424934825778820141436556002761793288666421871465506208469276459448822342473977) (-688838742658943444010464831324502061276918039147433513565487050319977379531)
  ; MDbl 0 16683939760161533733919746529456514701231326717779180328094454674403255006465 1764557854994616654764211118570715927985241853259213358976813600349509464471 17453615868725540128581557778602422260964637678117445472548039873195727692976 1242782269815025639614133155385713344524150984096133405406818932012651625376456000 (-2145366079944085755807698201089059245800913952608586019511562994658486189917250263) 13157543458735381621071310694416103146967137218078933883382707123803462672028
  ; MDbl 0 754445160026709778436019784765454961734911040433442417117801465010442196588 4792827452386292495786874756408094470577747508039602203709464160252085254199 4215133726205392282616502663352885434029104570084295877917486563350492736020 202977632475348901894624557497122331673528614326635824904212737855449079517362720 (-4386918206537193702072226195391600150095092668995736117803516529801026254759967) (-104378563157646558386794967904356932351214842308043268925765342768953498180)
  ; MDbl 0 8729852050255506534874157182249792961041345592725798059627831823570366532598 16904438250874252223551024011000119206356922042123765791314404597998655781650 7712316381777209095725641120600705833763546475254018360986104313945016844113 567224303705570031070070511657237013143936709225092895441973090381289474702299424 (-587378371242645126610674350994257087223154952071025528840993301150028742020655338) (-4830564562910120437940081176096477072378352727101017505272103832666754633943)
  ; MAdd 0 55 false 3066752555727211205863711807188338351040812889864639698288279410073403839970 14090742051213142936866130612356039237777928444643301568034849547932794168388 2319774939788867717115635898865199241568090866479907289274717813953051251402 615614388413938079377097978516974629677734489636991101695694876299424589592 (-72487255242489625924715056240337409300740017952971205277191616295685368873590388) 394225797926078965482032194086547041083336109138332947904501476073840178625
  ; MDbl 0 16969077464456019197458163976547701141997199044755520593654876250135467007994 12681495810705579054740598905119517647645188450075326159955234188830471153934 19645235238874551596906252283777634756979853773522283991234812207394689275101 606817002226060328755037762047389612992130853754090679131540355305054199956871393 (-2219323685164568065105179673427387464284690815501650586090155162331240041947623424) 1092532130682484621748056307987597580075385484254025662886283440006223803669
  ; MDbl 0 7887047266223828622584416837490385785905261314515335944009938385881309392881 14770331359097727808248912370309103345115344545738398266813325916603676400492 2235279606103544610214611122200131580876054050634935208642259605743998330627 2388415408716828324190608913929803646879636012096840204628987196830804160730092349 (-479438681808857668988182839562726272702354619233436745363801041001105710014181374) (-752675525303739069016578688616095699387398990665249822884644135926783043678)
  ; MDbl 0 17989410479688618860405584327142383842840006721616457228671590311913449867356 6048768209783567935551734508165565743659480356804016038544098282042478541166 16450229309438621088789460317034646312585196336518720027417744431666536577639 619874707691664146157078695293767039722212551182117718705762721742279411891220225 (-2494238891745624987872524285778197525480352674498493196115196441893671742701055744) 7168039044349027983325278271167125465297515118496799421601646139583685051870
  ; MDbl 0 12408378010470688399829664941399065221904802545447316543077343070108054877993 12972142317827998266517293768204575005549077224439506232338415014727908940257 4885702822924675288382997248402935346521883757259547712935220721240109459764 3146457304725317629774551318254649724698529512726579829280410645618660537382216365 (-1186681616171958252273168478698453399487331411771371550224161374053010738787127411) (-3924839629363166190986677225597012381979145369994705259351672700099597748998)
  ; MDbl 0 8287002772013236297225318832066004693563912844768803985881563875476896048486 3323739226551727173886002951476903854059242512704527204924285647078043194249 16231390983113412249901933596846954354535837814596700651568107456172372613882 624129570772648376250182828524570549510488548934026266441453329672097676813709560 (-529296657972000874763844589859053145981384953710881440422062689111952149165994933) 3652935671039033140320900164381034105605291468807050992297300375184703142626
  ; MDbl 0 10170735992481269593959496644484528415434562196823960328157969680277478272184 19186865711947128849161945126174871872384865295920456494501608681570104540493 19676627802206498823010814505864550901093225567208897486549790467223214788157 2544734970760796387688883930354600450051125063780476627738653161377832343289302024 (-797276468341946058101772930367496232583326319303399522653610015578290227641968217) (-7371065482184888444160528589216853401654726654005709657056622088657783660055)
  ; MDbl 0 15418561681487131925043651590716493133645678086318363688707790196186938719383 11195530145589590315041961946694136542583684041287058045405717712864332385060 4694042329459876887017671382387724733109531531955058589023217681375793704286 4676634165744060463862086370458872018419176821479070275555991131669082091682667528 (-1832280284561568454768968845450742361688130771396496569421018145036574556940162932) 5629273261851001575440581762622797381271120597682089831055116227818781898388
  ; MAdd 0 70 false 5409596488776926830120799941527740818334385816144624863674775022262298455512 8437924448740633227134579185740457194040174082397940026347438189568220261491 1394321278091392502426193483548853234730352599735940053048252228529435166127 (-174284327752167568301715531833772813800656409732375226886472231443151326345) (-225545375369743302453268528532869622007776966518487143214516145308783448628980054) 681531824297225745484435345398015133441701209445899932550440713254821809995
  ; MDbl 0 195933991811584918432143284992857207032166760287144288555621193070059144291 21030878837884645079072162575413923086060985940721889114497033196991144575009 113582389884032069142230561140119854455467134930564313214699442711355438651 4220967710406243198792006248273847978897289827071345638115348915595065557051440 (-295885550295530622571484695842121185806918939032916492555717198322746015882717) (-112726628474169058870400779551055384127571683536937132538363061667211677748)
  ; MDbl 0 18053589047409553791414398696175400701303931918587221424192346894592982898894 2848743945497423420137300007953473794451428921182994697005958179529885125820 4098732669709315089057414155175967866874867264794553948030351905355724673438 31669474100554358968005957665463068446447337983862888770322902316828265061822824 (-2512067405089328698017409255690826184083663270898554366761778532907878372889138408) 14996763023588556163645368932896735696444969705981240321830722422849756924781
  ; MDbl 0 17184781454735967466680939724411720330089780985234194793130180489066033093327 19478372444032230018018459087902207176020794325275888938000541412666717490015 17192007197751965873366356940153716063091644426808019317230406592143879215196 1085745982336237460419952503098475367914577617261502536152035549843402711179608913 (-2276104568281811955430243598337459585089288995185294983625971022145981215398911309) (-13056165956036643411668318415862862713344091045528317824973061615353532194247)
  ; MDbl 0 7001190995243423232590022428263523961350651329278129159951621688340751741308 7624294350302502208934308040313420726411834551253412298181453857787629474773 9590235111216392244124845667063580167182721370737266682130342332634705962790 1855431225131110733293400307791010777446277325475210956016211424540585673637565648 (-377787891896088705394477358433609438898770033375395541190177293979364486572907853) 3791654967128889377010262608238593390418234016862052819201026502197853688150
  ; MDbl 0 1533800634084684441301416173410862484918081082715566182446374008591908556488 1642543070874776541334513582852656269434891217137111960536743477035418710425 6328408644846902032170415975222771033197106352187207992205678204230840297884 226750162277217993440668039793915252811602102489531228966072295416086412967178288 (-18131845488616647519224201486494883614548254986835336367148580803222559600048957) 419166305812840967026554579713354123763049539638945756960231925957248529950
  ; MAdd 0 70 true 21714407445872933720068729846644878185244389898023943272817481696178074089270 14558078774987199895063579387119656850832768977486197721231507568022763926309 5415473190632830746515386872807723422437510366923305158814204625892135956584 715612360862428086453471722325211314740786805610262143963874593616307442145 (-3634127405800654243003921636274725503807598420234826631571522597652433915517183848) (-12812961108981424945542980948572369392016412322532987548881140052801684636044)
  ; MDbl 0 12846116460618065267225770403843773517899528369023821966696583036570285398644 1994185575251081651293658886983233183264792604291786812682088050101872134494 21775308224037229534073782764837621793155299643394832279176523172072569363128 1072393587413921457231215532401379119191091341835534948523249640207541739467942224 (-1271885140475169237448417568067930780568743155817620654328122493947947931428626530) 7373695375530857632295780499045998326501655429447002495814042499838051916044
  ; MDbl 0 3627839119349316307654154022411111913860876569604964889252349699890119681795 6769490038269404997508693929048277967198625483543018962610963723744182241476 9008353812039618335733533278623607880707976882018703179578085125050762363020 1217717939768879419985471776405046552962635544049196064282583398700345652339928549 (-101437893677510628680650744134530032980897126243207188142026025382692660786540886) (-791476795975697719965712969935224722567109322864442107228235284277549130614)
  ; MDbl 0 3298466302861077688851704635933791654080683748750887461453413977793390449305 1119342357510374944083073318952653658587956427097069519039164453357198290977 9586473377499458295140411581553421659388174983689614664550649675940295475095 458033899318230573757311574111437819583508529896653962629086777552522752082795425 (-83854869415473975785739021298378083524892813759768414275054188280472817684888031) 851453533309879302035424564544079510273742749911822042954842761822962151240
  ; MDbl 0 21455505658104711888944999269579089919852316446922094832994987607150788344834 13765063424678759980200758147362347392578031954204453780386206313568898725698 18587190012425804697069626591806496909050911471825323811320575470559849319934 3170529713445291957095798705541640661090311505360439174367915392115923853519850440 (-3547984323474367134967799323584132074644750441868758731173700135615717516865943150) (-12395711318450210335728767293964690018623525795416623004498953483394086737879)
  ; MDbl 0 16101744665180688365963284620434200366221074414240560230698166887631340075053 2966508571506906204110153444649331161007047688763986981155583222538443560636 4861727802110883208797560605212509616243263279756938691970682870102716317072 4613423230282420203335641417064456017817824532368013788180975458004167010077897413 (-1998251071824747986525498890634762216890920330674406254946800136745461167110685590) 7943788545147393764123428384613262747733915409267900230372882150400198179840
  ; MDbl 0 11568071363313963032222048005800830077878938450625263965673882197139304466794 14139036524733531368192194075176985057070109688498772446169164238881367076454 16418450913463049076216179353310553614456090115423211063275176198114846344628 866934692314100631897190399111877140978993366573157082325086273237522684241164385 (-1031397565165056631669321134436551275274577055304041658138772801186303275905145672) (-5904749934853277992469412902066261256436570539879704653564558171859106711976)
  ; MAdd 0 78 true 14453555829414296616839301981601324383527315136203798849086930570198279317895 15122059590664788038004822368824624479172865425886505070311403054280136208594 20808152621763381232529368207301636975036787961017360149142710722897594090594 1584817154739496799494990925501976436678580931326143517720355626261606470230 (-1610102751819004391163759914541586347786726667356067319272671658074307338643290741) (-649123771525727410508094035838296002690522895388759378991873874769239219466)
  ; MDbl 0 13394796928800201484009882035467216656820852614736068914283506012539374689111 21749071341834620585217901621390065936650649542696426885180294379347691945754 18711080540425561868640805546363126529219214774937353365277519161787524855901 4296422734278348291969386000501197689132644509974239745414284278850915766916489349 (-1382854385657171711567278807809062044013934442067065677107561637546188479678716020) (-4055486645111104889116078150059308583048739345232478131835563770675199881015)
  ; MDbl 0 13003986699083549819676382206163524882620598792620841387571955148048292640750 2783407938730039734459197119863127694810103810346883670312009448185986008531 11415316328292650272695009730927271393159615504758794129327262202187972154312 3750740957940737257597100455929240260622895919245127091625525840996027364112255749 (-1303338477548700402627799466735856321515675416941849051387628844185994151327653361) 11267657987776306974838720366280248700991970642309973234570154009303090263261
  ; MDbl 0 3392101223461707911822550926203456404550499709062270076348739919847022957028 11164171361685582778821517015500056042322654714549240586548957314037412561774 8301483732432687914362940466333396395595845169616378938548419687332915636534 596886430805667549132216008199720720166677378013107802213500794627766248822398680 (-88683288840415911759376433501606133658375936870487730477066438899824279202596302) (-1298797625145402195743260816221799822844446594124596048294689579337543165450)
  ; MDbl 0 5561033472167471728378889471217438964955093944021178513368974206580137706796 14007708207336699201943325022458693812964735821586045508394059412882462543963 17611039945961861328982441668266988286164998216073086023480310917094778588716 711632600196358170737858264721187510494906483559871592134078607248069841307765349 (-238350025017602644645091434284658207031850810805506145251547861715663515334433777) (-722442805052747340178605590399241807110540249887738447995629233860593668382)
  ; MDbl 0 16842763465430530264146544458381406104358809207398903681313694493245187037076 8477369827316987945134522949682008864566910669247822384501735951106774700453 18905212764092453840708381502239464602476744418765273237036335152033895949518 4572303870611808278788211745106257788823765842679020108247030940582122292227453768 (-2186406363938315927777851223592261765529476705260862021194302308355315396954504981) 4255534889842765935066824118743381973211313388856431733659756509199850121278
  ; MDbl 0 1443407734792348863574493161444433542478017435871372303891184999033456070228 21527703223566334289238146135140165327690060382270952646152740601636141856592 2853043141678605950296619190979400509724554063334901105908634837682682744459 420644240160564030047360627689334000311135308027053435411746504404729986103868048 (-16057659333751453502693465971704710677257316690854911196255786843527703388303188) (-860596817938284122197892681863601955207846192163847351581903742371847645557)
  ; MDbl 0 10402031960758117703887668395114070318889535834843256667534685338613018636192 17277731141809345554154873652998592390917332659411310712623649976740619748780 12320699834315801173349212122327704935027536103121591167676640151450428106690 457531499744117376611339982989570159586361238201258954555621789956107073592693825 (-833951033549884224969576146839867836708995730654453296719196720412701239824873286) 2019730212498828560212924611919806969268990519309507872261520237112593214515
  ; MAdd 0 88 false 2156728623590945240964362788806651270189591899363705188194174515390358845499 11598079282723069851140438565768551034557562381783985791568365583371244159623 3243084079637676237037691145237875117954293269620336487696340697942421452719 (-1349814188501350044821395847014556678789626986434334129140442613340449897813) (-35850497603707531609136210549154973819829973201280360275982281045079170168785781) 559636870270782519084755265195576422246385448761133768256189568327756526102
  ; MDbl 0 7935540127836275422461755082910345258074293108117958274508598772162053617206 20388422660888312626986627422042432497181928684716862121550837073504018487773 21491645364515244397957921238614180941268455101042813040897113050570370772015 396724537680282304189380009474871105070647945187767983327188059113674391698082288 (-485352384676624097774195917541722023818265158763664700662289284595723271865634901) (-3186921993845207235132973728396614110888886837042395525919545478898043827202)
  ; MDbl 0 9706068252089494194557410341207937375820416240726108026631425828659692012661 10642927765551542701701568764891654785028792030242758526569866697973509100236 20000816571902074490239433059937852019460912399618130625432509453607249744223 3215547140694961167182512112695964844417632445246834504704952883757188933195573288 (-726090685272689841822998444235645899663289026172428424695845171078986172460752540) 4321518139138776350778535172608935912399033866523296405463993412332370641207
  ; MDbl 0 5730048912811744306039187755240771328785645372723335067701918909703921620469 17742742849832841658421833970623354973412539449696264279157115479716723168719 11519686443597243131888357851971032776143534920724617796535615235430848229784 1766623698364786616380481972096317732796050329697045796194257729326816138988611785 (-253058449052878920705128392926022405149651737358131422068537897824052723927144317) (-1858636526607214850725356482521647543763951131811551877072130078392923218902)
  ; MDbl 0 12954932918213374010575622868779350466189026457739841156705689341889924511392 18697290489840643015016647247525730690066558965086322923382188233444329409293 7147036706095787597254230072977645423451731698539566213992139878515220582168 2300478355417757027646392115008060434371621876954637350469956077423190246630823024 (-1293524088178680964324076913815385680247316271787514916113412543491968036566563237) (-564965434454758875972342934679435701401641064312480283631871383983646464880)
  ; MDbl 0 19828318582689453584598196429611440564753163172480301677150641468032941429365 20631385013915668182933420950166442929825713410357611091113021970142710749558 10151576657187286923936701214365808113953975966659095910670677168312663750865 2184517890289468961952996455152640499727537750742504097921441459307610578342208928 (-3030232556081451014305447644022132184981640080748407519948262709729334571373909926) (-1752074966316023348686181466820924494861526607833657449935417906852789862374)
  ; MDbl 0 19304627372508767254954397038835640404948628180067072765563604805386516005380 1261850427855624778482168479809876152686054410503951422228370574025837803583 3412308496991018584639548723405321591139802923304333275448342391912319779900 3020907921429477370157956893655255301202936210653493976546928623034327107377760133 (-2872281690095699853637071772496849020966286165600045988991054212738990378082938341) 17083219048336027850844084535531917132134988994698562378488580965135323477455
  ; MAdd 0 98 false 15129729806618254666471795701397224059385386439479492337922125713891022525267 18330046436518622493205256805667903237432864724827469076349153118063260284053 491352859959905778680030494601759545833693287489073946830806798920432132240 6378977085996296684934125086061138435840314879586013685782116882725746712559 (-1764276007375266327472509760593862114452060364280374486085315358248302879191928559) (-11797986499396492594000049685509649055977589600848424169747302026184674121390)
  ; MDbl 0 18735191850985147700597047465020343444712270229777140163909288372219836395454 7141025502466561844989256144628927995203545309667892533883997111091552391518 19172873065522956560816770316297452982112395753393984662309119157413717238586 141947167208603537450313694399563271978563863243350940515322213817681291504102448 (-2705331398082682780677780723159078736533117007261325890170435032064529254066820466) 9577217095569410331352022535253730073623432008954802506215672134352542889992
  ; MDbl 0 3016736762775546151653734346986360590497815290319909989534544029472905740315 985448227740658558733030315546155158120255407399701783483612568433609279814 19790682700470066361191082661216432012275560880365778260486128789036248274586 891583856994213624758754905382458738807910389645529310969447596614236094810995253 (-70142140526522551394888021702515725784426857953878614003371930273579261480750744) 848389538141620516823590388720156360826931917894652635650412652618326237364
  ; MDbl 0 12434431714731681897362500034321360690058153117915929189136319633614934564800 19665323143888935250334197154469185923933345825889433329508419445606728536844 15501547744407159870579802662278720745855857252106645864813211706575726046349 3793332501462202597278609824378296040285648704395133598558043458498626135585203749 (-1191670166703273186841167668033013988145533845143970142448847496172566751453477010) (-10611798783693637358443740426308070463156067942982894652206935643520104518055)
  ; MDbl 0 2935002552744551542856659778883374520770752043062969983646759029433681215779 17137172583912961353603767709807800985408883493241802460978514680695508964802 8610583122888179221270292254368561365744944020201259712049021453984296662247 701375427868715866545823190156630229520200917946266343027212041147787217419478249 (-66392825313290164876994870261071710949908674038752662596939307798832123749273264) 339000640238625758983853160816181945554267813375646598438206918188565924266
  ; MDbl 0 4230180899021929560930126103833496825484735088511064055575832209302180292697 2285184023874021944442263904730847567523378222372123516736255225700709125269 18049273474289317642917699264249797210919535618513910344280900489694199336460 561509122680636053733686068841761173577446669952637132135773596502425085957559165 (-137918353366335881358277301537927688251406779113664296685778119097258838553834063) 2870335398187657125329170846787672968143349664879399107246884924963098293682
  ; MAdd 0 102 false 10965850656440487152794864338777120847719536667595215828478859344362023349285 17773839093654465485746934176533391476687768638272426762567170582528980880034 14423986987295502253313773794440404817607633953156673230227745267726892979441 9705288707235780405585725527763820570693718810598231674407497630535722955825 (-926806001709023902741640206579839430897708527882416641281535523964132389353321560) (-7759703661861822418569451759801679851564343169660221356158811660371521312478)
  ; MDbl 0 8483545429734029003627640336465781195145627924675961374617903093190126242053 14758709318173766546529570776451179594554269307838177061130522570633784262649 9139681150869047276206498069889582298303166649589528697567747222120590419622 1886283040785160358433170127711689997598492467553010859400713433160407917207324749 (-554701018489076868206027070747405348001708608524773261428319558980651030817053395) 1168617808958223730095790726349522101952081275103000994287551411929467103926
  ; MDbl 0 13735660886769630638577800488077502792695348326042377706851954458854819565616 7047774348396363694901090360635771031995478096302246223126999266853647439839 5374422574071431090652342547010148114791577451200898252364043284155633999595 1935180523840819259521901513689641984021667927631491924596194879592602407705230824 (-1454130232917451367783576468003399581443301713813879192879827843001468169404401355) 4838889466137195999705415014656634912405691224985320075870534399568044384079
  ; MDbl 0 15099250573661622103151215632996479323989849933566971838055171549561535846802 10901900496030888023662543074344850351064344102719524593093106450409617288106 3761767007949798319486913195456730115949810970995410514764622513091010554029 1250903321994219391159932476143553616211255099743264091753137373484706665888494624 (-1757174807845757650449389938331005345822579869493358968159629654475240308477713746) (-2658706630147363486614563839425602007471636529845883096853185516475543905374)
  ; MDbl 0 4852552885725956309822943603185572384449879096187349967480053649158205852981 16394545114264968394912389118867783619018208705097044268329203364721089224464 5744951804462004147951798568736202809171338681017887529705590528076839532314 281398314090753212872788357579714306912137680289167179424981122207131732915074605 (-181486672520426057467181000741394494407010639248353353139951766806011224963174522) (-1217701605768012109848889377346059710488955210455729876682692822857163993573)
  ; MDbl 0 10398620218727453900853916238406094687639420305491646368602310306242963316764 3636686955673999406564151615100240769874249551850922796042452254226473733482 18845302282046499494831150246240466204554818326364134890697029691515529941337 920902516049694202831393881476761774977495191353786770166146732348387977131288449 (-833404071340308237590101501935836624626531102098946525971636603354582191261139524) 6060976322876174784749575041244159438439369416012489078078667743125570069941
  ; MAdd 0 107 true 960505447305164418797585827382103698624367675185802680300398306135894593884 1704597539386394081922957566580980044365493456328835109361117295524218089170 9575444429211840273085677471999602923850945710879233571444236095003466795675 (-2543951549492433070113091030844970276044917296493622541883582410981828056) (-7110560697548580182900501809238136000300278668042632507526813101392300329084578) 84784439751099968374218005340587926292294265493436968823263497904581884588
  ; MDbl 0 7360585024823882239767835936722442352157547722915633715218040135937329562480 21102595239894745342514788640302812568292257720045982013875338606234316471130 12391190029400412737754983266600645429126124826800966932470708052777967575671 1086439663663519896561100696876546325821017666414225920842127693593663116412625013 (-417569578441656109240394353161769240959030023571891127975979386018359721225562104) (-6523164614991864727109584243438990906575007485457407721682170707419752661138)
  ; MDbl 0 19511586185200900422280402260703268491866930948576822801505933085315702440319 11690857818141459203891247700783742404121719596090306192511380765462996357214 5967261752917361953676587795798933422216141641718609354519012600734369926471 3726892669050596509879013974468489723173285375085545778625273211411889752760925293 (-2934197459822446237628004590904661794555063233335587517316232733994757917000907016) 8389797524281062201913843280709841340685148136801759473187368371021275062086
  ; MDbl 0 7591851867667382522164394122331517261955492321593353898593128373535409734290 16698353470350592373747296956646373573713452273144097784038116801271925805564 1902105225766339020152846644661675755120264694292723078320408884774464390752 698342773310106496763204430841183467387174072296965657497130774778713747110397749 (-444221561795516172373062109782827907755230273646930523078413837546682049864721570) (-1736830381595893554794412232628675842694044890566456152008009198615768366019)
  ; MDbl 0 21077586628735282914252987903558571132172501768575528521397194683021791377889 1939868770225885536859692786526862908338142542454916193479437988758195650405 9642913774952441392184722355998978500669661961456905001400986957126993867288 618039819145135090999407786670369669370315947743568820928922067279172693771242849 (-3424096135031400921636005359661905143406745882811963118620871097859590482015644243) 14211887249111248568634793288118047475436234423285957914537965350495389400383
  ; MDbl 0 21379432368362292034740832833545011379525382625339761526033792936396503021450 16902257696644784798461685622226102822649642834666440624595321495627115088190 12259346951533061626512281874782807414541334347357997236154871063398055150749 3177888851934616496635063984327297743524395398858951325900791961145520510657951568 (-3522869245898641731251269027327245566068344625509113564466745317971208347098574194) (-14614575687711450936724212092581089261178343492616472542386974318365719438511)
  ; MAdd 0 109 false 11791328698940134522063068678782771926862494139401874278511702985168055101788 2046522151628548183016959297003411337245624866640177234608579142217745158530 3304234768331045618606685132143761462778006596377554644385845161134847913549 2368144778418349219945125831443060508952859663090523116896580827085689236680 (-1071592525622091388220005399991913995139034105018081161914443429400577271384098734) 8002874506714367553488947974546322368919520224755590416410225209737131438246
  ; MDbl 0 19348947240070993402531486896061012626483955838554917688895189515332596244425 18230848188964472502418848915958972584992891347645902414778917927339032200611 10118808715122222038943795996566252174405975461290326479560609002761210807116 985513707635791915976583010363181353809545647701404588593974578917738213528239693 (-2885485288314634247952176312274069012444410173480661558685306661599902000689336157) (-14306752371402483210762814847596446940375208700789527591297065941475882032770)
  ; MDbl 0 4112561364519229000739666285926944096706534735565224542128216003108213907617 14278067500639681639695658576738977622598988812616482183503998473156785675047 7362367823522478149339606007649003472821262067611033101371443868576171129900 641514972269679276764409161899438954855784545232374712199762860281667391234339160 (-130355381814592781073458512199651289733974257655699805843459362579027099388868451) 742684245437388936546088049379272325009747860182100631066852592508219357316
  ; MDbl 0 15582022394724812105418081481541834266434683057726807176660290229587273021015 5045495095265104851841782207964047162521140303843558874331551403772758841236 12964932545280985830638483507160924581207572401508267276160285938630712208015 1768407615492734578826765129208020275129354474471506749885255164732424132173210720 (-1871336256455081400436068905882566297772625374333838371981525158561679560020172184) 6572576465996432205613087330667804115712786210355667054485152397187382088250
  ; MDbl 0 19288204606269733802996370046722620404123690941031597608581819883873442752230 21151075435920288946850957738415159239931981362784907280959657471427220653542 15875458471897348260663031404450981077634677822773423047948206841054036890224 3854753737720327070551113712900321000004103478117105427020594642129860283341606385 (-2867396773607619959121308380050559804168855208356538328305587297463545476073052536) (-14192447092815393914396200600196088950332266935468901267498415762261885748907)
  ; MDbl 0 21036358479878611367052038400497169974932244159913101174672946889780474901154 15819296363934865309537785271804055880234402830744059864006027453776250477872 2848928964644309670288390971816192674958200358971055843468707497557920026597 5147972180482881134466005510006746740562000968877716181574390532386595829513266725 (-3410714045050156121297561305432002426065464766619183751674195065273133983168613862) 5124267697070511397751001632393785204245592949349422166146949660753462439127
  ; MDbl 0 383944454772837513493491576111120378413116856956309584134050220907334911770 1284298015066440897805564837512668921542476597322096572543127539467734915359 4994253549953038558993402452842056590890237811723165648000349000441179209143 16895333072671549554794730285624871347025025264678416901921939253292825471764145 (-1136163891162643017886014799983555447074574448265500517582575389746283440101353) 254960256465366908129521269887671172429078197677128093729019780175426753310
  ; MDbl 0 7161579479160188621385627734007658110375314612193714482427661165420763802285 8516971784795554470063784938537210752045322332274037195456565479781747464083 20412522104028183135100997816338422625739343286693288065967467129444286783212 551332711164146289723034832870134232196668523912479949754335071914608940634812024 (-395295450256557309874942673575901722632185494645353800077289228916054969289131047) (-2366447062564032840573005532616751931137391874134095495553139227690895235335)
  ; MDbl 0 14994816809225051526896120701319106761382484195252802502857036972480925111647 10767662052259894171349836554349015586945333390060853008842957560765309684248 7826868494809685268554250122460002206221522653942632363899958204557736482448 4718162850990634922595810723856719854463098220908299043437938234245161224770567608 (-1732951915134923175460312526397431631444144444221835101676075394682584850768771636) (-1541863750897679812207201025305420742694191109616554926817377028907882241495)
  ; MAdd 0 123 false 2135500093554063304160471915038724997755475291610868626890642914228599018961 13955728652235289930573439918758535418360413544272537067809078817179700637513 3354061106440130186224661890017933783810220732081312807642205848282362718264 1062434303294899678423591006716133576887543172764592707276723499215311471882 (-35148223002046428700745050382596753721887990583335537800647763556003980750049634) (-311039883939845656698840530036858070841737577660180719612976406201725870281)
  ; MDbl 0 21301802368864713354116942441658517581954532790094590708283541984654833093003 6073241644682346275467965351948433663781043789453990503311866200595180651916 12038475326440628667967453768933774739938524670151540151195219245978583364740 1101366917671030735358547641290206389088420121387009048868279171353894905184666568 (-3497332195022632048117321168585094462035985410932743839199406111650813628421024820) 7671295562334328071463434128672737076848443730538794356239856003265574679011
  ; MDbl 0 11725821318593058028187468593179320134912251480689312005732836568697860610377 12121593053043682312825763730429743304423884143471392643874799552737181941614 11754722204488159066774274042291187441607917574257962728666805699307441495749 2175955188222364198983593241138806706228865068476816634294562377402476976820862465 (-1059719016084902723273615448214678944498479580527596098554407383462818067383715132) (-3240181877630367990829134008996027072194658105572386707488696934912620308155)
  ; MDbl 0 19368604007361527597994122661009349289163047113340901965516467589217187933612 15750585055634144457479904735048434973879513686654657728156006539393982800558 13156441283665849907679329122959097332446614538556464831244496823210818022260 3509517088981563389988102992656382030899599260630525275922554519218343770823889349 (-2891351046586162478754560450590051889861770032577274681129436124460380311152899652) (-3211244934351836210068917316396672111440699484146398663657410240917003778361)
  ; MDbl 0 101047692108546052103017537927195847686006659809080462316184502984257011185 10167608785938924675154243717462552865093034248090840871852844964750960720833 15413905399852472151325377103624083550077590342677923407377845653895226749360 20526693809656315381054877707104475249025005256482754156519230962870827717072133 (-78696783330669009342756906970365009830256125536245019190874409013669255091091) 25773967807863423763673659959740378564579023630353839359768677854189142265
  ; MDbl 0 3125437753444084010881948738676085787934614352010796256108468874543739752665 285941120103021518616378217749375057644305238248868080823410388011971871351 2930193610586342991356068157328613815698785113652664535646406825995555575872 742618918527838820522468461359879792367829264560497598696712474001712055491042808 (-75288022696213230130665055419717195763867064327246753205884890985022007476686895) 1411010347912681684726440990821904887451576990345303057503014848541161153994
  ; MDbl 0 16248019801094487567886625350477182532913175092764163270177383205464626205505 15749591495608623415395192254619901301238242328545026000716882342451737534086 16844135256926502038134580579645963200282680198394273941320292725396946633098 733889953589960182174978601561876900076923790611303800007031052095154044215624800 (-2034721916086485475302483949083030838108449229608706470048032459482355412748791658) (-11478934100355416453368917664626395188069322524134649695825574216335070828185)
  ; MDbl 0 10486806052336054875779872597420957275778104255841729988313989759102447681003 8808993217981725243217466759111881152175449010507379346380364772135831737202 607083718954688042389369079453915089945316850834496664315831848340469587848 2722899160109483665238484471802458369892900151575076798230959072080179541635823285 (-847599429409610920944256701469581068093224022898059431137493265674503071579162516) 3325287847490648494311063902757745158633237544407907324586186574347583327818
  ; MAdd 0 133 false 4880551809375803586089388517762928954428497856591943958933865220563647422207 17778585226353682770560911472515240921579351900896438538545004628068913153825 3589038645548629828527770797718819805434167263349235048482673448967203917552 374900578371835776955957983041557806726670211509741987441381039715409254774 (-183587047880256555772669282296410575566429005122725981930291161375297891296047182) (-2000003324256971237579100710508413422178927312891923299339945372335166041033)
  ; MDbl 0 2425130869235894495661550499140896180118142394954557337990937603426781096486 20834558911532511503937689644140484221018024957171258733753615286414237480571 6021223647038893652151546615736636477331795280145501334700996315728957159995 134210872982367105508327148029768799871526415674558158876823557991864387943926328 (-45328833509072552893785413970211705873087182719621467335849498375987065107418407) (-338589815678383545792325933043686904183583153359759746855711012765743617159)
  ; MDbl 0 13692467164617883677054499902937833459851779973310619997555293185092554333431 21757104865226867361413843104614739065823921222916983850898698498963481834246 14481945356292891697033713212621303449662053655532984571148115233466663101418 1270928084428791582100552735864337091417179030731752358807610705047383833211250720 (-1444999177422572266828448036811720752972004322455991693046728284384469568189947058) (-577110289426790954686513202508800319508891914949979786575589762184417410114)
  ; MDbl 0 19618801513746574967674671799918706769174928303654873433843561217099049489027 1453471511959255655581019160631797239691579510901757435876420526626259784990 2170048290677189106289365434967576269194064014816391327396387716627071183035 4379655905173610873556185177503781680485950682035809886716003728568189368339937845 (-2966532634784339949701802307534268614944862007551772304268968810464067861971549440) 18198489257359471088019090684588588832950701219368745506277135115325192753427
  ; MDbl 0 8231634295801436929298053344277215776160313433406820674765230796034991113556 15864615761948183667032239745937906342212074083881376709659752653101735888624 12101930318811742814965569609626052198402336897167010691377574047649153806731 275353183718318114011860606743475020125036807545849071473429696094342629190715973 (-522247439566816887076275763377497404275151409472307394606368537117767442532050406) (-5419679868527621719049389005166355156750617036469656001906666297626650283310)
  ; MDbl 0 14527020302748486614874830583628589248141017859836223788641811782542892325053 1796794933745043079338957641555374081498616948303606101513028617353311864304 17395650331791955472359354071632632284842930039315362595090847516561207752415 2710010034563461688283913445413880337391746513491946936976757026180773295246568649 (-1626511995636876557844898474856126769823180972267896416985420891888844977849738150) 9336679969394104633406647602515329466302088283195363190242733457787780846742
  ; MAdd 0 133 false 876203891403695460744783751394554581560591566128399781761895469115532685124 20800254773648480780203825089966817807267860322186625259230708919364999459445 228119474805488003337214702878722839094048569617389782426221807619803825867 22701041117003147473276760026536662276814183024842540308125910356930309652 (-5917176705508605865056810647260178875193060084499315324015081122833165943067743) (-760723716350926042659048878211243107775623198937839819643063478606288255998)
  ; MDbl 0 8633708408406024467696223348006641199451766211468822816950992793037213288510 20695204256697541379465995207698317654329731017052258166375782344990730208599 17861804236260425213303176254677802055991988900702367011945247741048989880881 30418750415784934759893373866847174154330076657511761909031383908897263554269088 (-574511779055029763417793859314271313788982528920755001051335539064385419565223211) 41436653312797954080078141708695288476116855918130261615454401500629566536
  ; MDbl 0 20166971718857631939196436660166702782510048526083003376532723634321857894148 4914193135858677760614037450339358062042264026427157647464871091128422191369 1203949319250926542780307071122474779228059507368183704128491536576570586793 5552707349929164936433392697105848150556435424801326878230907387372400389529489024 (-3134624777397547267882250935884247920493161755116851492700326867984372114902072945) 14540007018032145381030156546689389444278341874538409574394467502931470600798
  ; MDbl 0 5413712554155044777298862552006450854766944473108473087382920880319708322932 3264896243131464182738860753662784061962098558262056253703162707207664673857 5846427844813576700012477606600784666077502028765005995256077663359993107180 100473581793236850095462320086702249430538734327745548448844552371560581835035624 (-225888732845210671663099557986527724873424324967994046990489418099977799860303629) 407927641609540085925264523700713166695442226789934217134513187993409315083
  ; MDbl 0 6530903127885784592421749727212163368759832280694473412553298026452050552521 2333860471244785135559436116403869842365508379339605059592897594637085369448 13019366083932496981698479722871652430956022715097004855329710998290150859794 588571316550131022268083513899520602324857332406648977099560911259587308369947160 (-328738574446409991296829997493698655766531613621480255172454687130560873640139680) 277797741481169955507619402074798410441888261204726300387417455037274218595
  ; MDbl 0 11743362916715035760733294082728559321438983292076464160463270404252234660898 9089062777227646505170715719049200532414332393930462497785501686034838524176 4343078984329012468471302686491428404681258811711715834470547963939232928483 2356766944337372279392037194656458975965572070979209844950961234349175843235806913 (-1062892025311235320203306326862200458403872913136358103688011716506883511681771210) (-3624264986434747540373175279016467588395327197223866218131995401125419763013)
  ; MDbl 0 15118841183173383866687011528427587920755257451640259256957209668972029912217 9997327941734738340411070567588382096982913265924985760509410418997146590345 8884795468191842768506970495635695712533460682835042694253992798028173722045 1012174216389035176984665477852838264416229835547594669116261921541041055604910825 (-1761737478983135052057018661930536621741937248232396090986042735256832516409370335) (-627364967338635511981730120510208057492794900153958150061251135962017133553)
  ; MAdd 0 144 false 13874823558088768138798152382443947830578214293304924636775776779692274559321 13272841577802681022097664468613559591172861960107885790143293722270122697386 21818005762315026802435490707806749116321772857579188192201370796935830381142 7391184290985832337730748575820036160334135442234301394131064554291122471942 (-1483744498511616834326603258488923383720552853358173830736568671042674714977261044) (-2076328101285251867620229803722186001203862248028793626090450075002849365644)
  ; MDbl 0 7661217779846070897970324418373087940007673438283484999136529674813899783724 20591908027303033729700167144515047316617534827589562228278875171321991939706 2093065536263293013742833520135586931180014809455537115295322894444002885840 2576624363977010908129376378627722158151075737852792793612013703744786992896032885 (-452376253346812497224875474777094449769369221775790305211718173705308151833096328) (-2561784531682470779328968519226688025465561512006807580123967312110354950886)
  ; MDbl 0 21070581648003895421934662107133995920052649826469046531123916160759256857493 13047026380508359155121271907598155238018393829903019138007768298029770415971 5906926141127126610801207815799675416526257300359694661998919421759418198661 679877480327653324571577191428263924875365295503370234006752663815124525009124405 (-3421820566947561752560406074483886314368615688475882824987836406812686441621514093) 7263033661228493155936754647265874640669517598101026599174511551139993870862
  ; MDbl 0 17097311861979456288194887165966424399714845351398820522913701233170297614150 9929397035523405945669024014355772064564512160755492452606905712113954017280 20405164256176972925959041913342251915811825961060595512642937556815607099483 1556790102878612697736133224606447878715332886920835957462605164372195812104418120 (-2252993042335599280808927036647441591551875411715930868866872814419574114035347760) 2435238017659450892896222315727479801496438897379683744108222023282100455218
  ; MDbl 0 10651882178952168806068164550787541184974528251470834882584959675139407853380 21749924801392545784857257125468236866501984209594481649897436583066764717523 21028977656875334933597369968261800945376959079499152949673804769610134841342 3350444127631533848467055980963442405749639935057909052689378999320859191815020193 (-874494115958171419929160429753301858662272791665879629535612786259736011110705293) (-5752442980110740122761584449573799404609788478581725923402910613450312358245)
  ; MDbl 0 6999464520964339744380731094011694566708984676898494978988128770134733944699 20297087064521426846248534760419486283980993342819774823526906302950354535788 9540952205487750431563606569451317376147627341657682135826450375928710796254 2268974242469688178832076529969416506947519376936139511049918492879051436042154888 (-377601591977023362439119741306310656999511859099435399245635159206617743550397096) 464591253555156244214151887813330902374586543392526718293799555649570705057
  ; MDbl 0 10333730733040185660223732286721708312009672555922591671412109003388075897744 1054800900772684480592567864948834997856687982335771457639093913879118809495 19402001876178453112697369692483423817098894042254661603653034196699745020083 1519844567650688898588995962100429667367015834429681121053402182842477081302597793 (-823035305486392910957644152697801172383588771949101260415746231451054167689028457) 9084539360631434061579874051744400532461610490104204847443582484986020977215
  ; MDbl 0 4271050228762003471454404286407062356372850309925406416533265018313409153731 21548743441054279063131617953950981911196116030069801999306359744107164440793 807993990349091948225036902479937874459068089341713697859217753419265237813 1277366294099721138344013899079777045972500085916237327531904465325261778753888088 (-140596186572338053483959915622373815319491067123896179730380794252052507406870493) (-3998980570867077244158797129061388355154314170083811888573715329885933043502)
  ; MAdd 0 148 true 5247844128806863771803707896909201329483478981584323131427554428585765455719 13685647948437900885050496760312340638662004706654284261168430161471648998831 2740985015725065204535981811792606313090333481675466553992553898506924689167 (-4599690849705192197244910826526436506819613240498725105496816599597173870671) (-212258962898296045190905489470703516156490474919372879213448779674271066130565118) 1885226683420254087237423522653071650052495260980982532945155852590920012194
  ; MDbl 0 19567381164456309354522318996261418462112333187442429714978264249962051605151 15950800358571987247561643445340293899574566975679882458165734993244646597166 2721309614265956053195858599684680446856346535674310519718325783910008239368 826774418300155988596368321816114245407195948989379765045740708016815747915440680 (-2951002609430428099797422616158792667598683548855924504921276784353437143641397378) (-2024972989572645937698956576798295860666739665975219686114877365536752090360)
  ; MDbl 0 20695014683228849120908716384790265448535363283954860959345868961506321135349 1248540964532048767189300792882455448871229047410632168013761382907908552194 9944619312551969073519726939839256545341981158571615182671150808448850052378 868151098720079208445903054563786177296808242115117292563105696559920540405163365 (-3300925033869916941795302966518343252802615763584293600847000561865097581093203572) 13900772018011168163476988423031975635737807738940740678131318711889512420346
  ; MDbl 0 4395632620390195767416401013181653612753835957799131319897882612128631094680 6958605103524843416473059739171400017396632570597901397776007511313498950778 19103885794105394334103375984636970977993766569966570370020701912451786533217 673819953350592418263128274356882044321036631167962723695156597640421627639570549 (-148917919076304249704137795123604739641771045553764924594856313505757788165366392) (-1146704390153172674112164090536548645950015038780307688564361153645530750395)
  ; MDbl 0 13848728126854950356480106810908912857428576585224887497411860112456204949183 13675711245692021061536771953457664927698973220923190583860795523268950882381 12614006863987331240251874621963025619959023230601247184611456567129245118398 4078180921863840760144750850002086966708574430136339708102912649437807289050198973 (-1478168565738900560251918327850764721944465993927170681043416479916885492792864055) (-4249924368382337825859750247953798358921795835187770272848478735162637495692)
  ; MDbl 0 15728928614461878839099370933939409838865297425235827516726077001660408664107 5348784823753176683270263169096969281923237897434167778157664854191365173827 12884174095152298800918166228259203272419638412177823627457534049245975856446 3058369990872167790909624313113774040995251200386731816235158572661489878835803280 (-1906788247069958072294472652841919121564522214933688559516970103780786179213415411) 5983743511776320427449288514498924276437523054800318307956595982528345255602
  ; MAdd 0 153 false 1843549645241948134400023759128168148266645501064495270821982841644683110299 1911413738524899762296296007754579903861730290290756885389902898941447981431 13974184619949260390060458291808689139126885119199599381462687114680554705703 1343352288440456188788526538819291706308771697539797422741776000771380371692 (-26194725887066997918072738123846837531625196212742822134897571558174346558806148) 289514525302095356824147062553726649942345001149440409193892641943317770015
  ; MDbl 0 6622739987371405948273797963679849628974179486922584802168906746516367302812 13903900010044997876199599376822667367706006844429996943101306750063826463899 16792386744842338642173116669683736175541441260451815730559532632109716424431 1426587824294598674975674091539712809644030560095258623009394079245365896503702080 (-338048951336933150718576625575020374409118366799983947500208410209789538480309827) (-3628574428904115442583485546897172505668266385665321160047803856271206482950)
  ; MDbl 0 10659217586394162197026819214725232540224205671537209376395192632850862818752 14223216301595178300271516882112827978610222347660000884756854972229569467801 5239584294055585717948627050917194385793343132033160257088570724334274239479 2759155043875084121550728409359720284640182223469795366150485669383208705964042824 (-875698969579512240070276188427792009451975308105725943624762273944971028746666441) (-155501830386435132109828553689285328042312344893981572864885083872865539942)
  ; MDbl 0 9441452037746778120282706411884855277752758777775403871746251532539479471962 12444971579974809707385658144587210837177861796229171341322612079723305839781 12736849007774258872699397578188359459580549176436338010744908033228182256839 762580320169691370461608986802163935519196586048191582880426410023241741670164600 (-687039594054144584643938984537587946151846773371966819499889229411409354492438593) 767042487095003574477571555377009752488908332037480640587135264185205094666
  ; MDbl 0 2729722439166483836970724987407093529656573311832254497649313627496227406977 6381072606061191980367069556942089568006088482903582953342429348132284668304 13086448076118609212823067603183864574038245464460621303677131177347931019548 535959373345162857431044811608608047395796085048376958357307634955580830031181080 (-57430310350542414213750468681552600460499481114619817474602933140194844972381392) 756239831349225427404733841386296554580962347906219197352849996068428667826
  ; MDbl 0 5918159722041132204216062389808077508449894166317648739929656687983957444177 7293887683837206484227299396853211220319127277081203941180350742130506878962 11186173736984963118810340027975200878936687335054163931255048059001690423939 1193836018836697973857403049038920373994266481629640503278252961827584226163972449 (-269946404560775161342961016118064826394699843040014427217090872490302328062407304) (-246807633604803166434959510989601820852803363196098941912064667390116994209)
  ; MDbl 0 21204501642364209048589267630458308444748154116170756159863952704965927268907 8100671118375404918426697017731993126665396096978352188853216868933746671463 16808317947296390795734121012451662791098949251401976095716929682866786105545 3656324020023685830553385804219905723842386887147440432478333600096306923695572205 (-3465455476277307674602827948258314465813271302273621672233286259661874014400503905) (-781581270039147869372065907636740341936510633273759960140533338394560155123)
  ; MAdd 0 167 true 13400869484208834490224860672542506987728608627987801892999598973383826373775 13458761802690516723881650751944834241207049672684730681682986958960418984507 21468347443074306851333566637157749694598956387558807551352460856728529604385 1463054010717384373976547495993938410138983939523306622229985942746304228362 (-1384108508944808150893741710498901653774399744435062670482375867750265787417194461) (-3280440296897545381369603628340314668096366483586930959479652079657294101590)
  ; MDbl 0 17761680287875544397525121071744512584857831220853364424677749353329864248343 851375360982758613184179425983800718100600152909549531720442644746342683476 6043821749978935438415517871317033130712097505399278505956232171759686736571 5877852415489336315860359222541199002406331681820384092822759048104607262181383760 (-2431488839431204649618589403542463968981756763744958243829345477861511422545864064) 10230531914071973405339748207332438519813308446232477802455852273249033982181
  ; MDbl 0 15770351279483084749036350646390839192271122439054819438571604390063137123341 19355820508125112420791720932546728202237423833959751202418687951965067808661 5286526917697797409925493016051774685698375786289894292949716423055490695665 1469221324273248479678555407911334174929839526107696231086034955878832796697831625 (-1916844654166730461793374454943349706121834303272641967540487448853044231277998483) (-13332344762027904455063903228829309975104891031660882585442288864565139281913)
  ; MDbl 0 411892587976406461540561544920051697257270324012717302319344427294113174913 9346953388251710018718033315127873573145051611989766506580295117222478769802 14145039580132505078070396266461573697799304120551953888473106940420669892858 33616500082463875290831337319577694642386502597505960883697154133683834136859560 (-1307591646228814075521298242227434933600913545135174410575887733784944603236266) 188346693924005967917193245342089549445312600708882999452246180397612688032
  ; MDbl 0 8353435425998203002740723088035665859614716913051906221859563574116519193438 11486780906833863989462757902730634173910118376107319947065045596626007100818 17161132789045225669931192767797571432739594253199060201006364280526293602405 1821404147615958240933167338413834410236531065539032249908804964869177347647598165 (-537816872796070674970098646337738278810664769035563312041334666843913710826319760) (-816644401467570118999405295699000720457822394885782959794238177328595613263)
  ; MDbl 0 6284956627453367262746185262800600292489585060890825900727725483911864366276 8743917318582950825327042065469929718680140252443655634057509011448774198814 8132812569627589972506037275025333465019102134719875199267977874090763818080 1662597564511588090484228809646282506751231188074133663289773690464145976478624853 (-304444935246338560866054514971288770789756426649105410498463381487449630671899644) 787581661447889496642406444333337604772576243833555177615860132562052816907
  ; MDbl 0 19504925344568636531726527730750199167688968663828813258120959605164517155671 11920234088573422749811325476689579132255082612132366277274395647909842317303 19509202027093473988952381699839270315095483154943352591399224911469245778515 2445237775388708617398647711816522772848620942654467165379536848423497236998899749 (-2932194456531258474303497658135480401897570569160438191556424294971094723452482537) (-2830461167308837849055919167059054629703931770131707392289507885367550755442)
  ; MDbl 0 11584367025404722361012110241726813253367359191863194928377663904756168655332 13227375495122406276497293720798502955321228241837712130631489577411076070330 14452447318992338630417158083376768668846556162165403000186414525340069044696 3483761552614916487053784580547091589112279719249735616746211422036131008591080448 (-1034305421401004472103660066130399196584492098419198630874949851338711279152853602) (-691805454472955258240759497591784415260896588168232140674116188177665730775)
  ; MAdd 0 170 true 4176129937102518437089153261465776363187900560788549437043551239595690076374 5023951337179152745296811209644521269615999354798681182627131418030543051585 17402135977932389492741047774730841622446909939094244006725939742544950643033 631847053683402397092496881639857924526155352600080131881149032036020412401 (-134416378252275789811136216032724034896232059141113406180764392000535631753258092) 1565158309569601497417714213755279454467017385901360631599243901809263665653
  ; MDbl 0 5845847022614055799970282116734787520247538884747218779113992399742462775096 20388380031137514581970461892041495752016169823804984321467220765914175302269 19501841369207812481337924332302425240183918993677267688988117921005408957398 1568141114233640496933043998094700678126612888579551885720780808413563275223002808 (-263389875017736487486540297494828377523735524835545498316214410678975433557607161) (-4103486070610976148820667604295566279927275344566602166785743344887667283535)
  ; MDbl 0 4058617356708309627539465931001963553079511983506558395238955182033609229165 15104058464940671637851033714832808559551534441395045906574738932449062986109 7947387596744879965906898987135910363305037463469393859307532785144349805389 1220135847314955636587631340949086261375173120519920374869275384109427435370489424 (-126958095867173363895875696420705524102215568934229018750277898917843116226798285) 979842893400439720643288320936672215105125627557110028717285144908710516189
  ; MDbl 0 16589141680495748741923842324967963611117339829881709490520548473699043746777 8945644100003491481825021483190288030424131073849749202540248772145371497316 21069194130432815741160099107957849985830454638632651233582658345149189450375 2032306338165090533085874155841066977999393501586539605311842254574428520904377624 (-2121055420111938345817884889454881938988823511419862809088665007659929978145358996) 4667474178961280982616626908130971581145127823769877856916269160096749877341
  ; MDbl 0 10500546881198672830071596549947462184670222922139584377956699257018240033287 18353038454312422778833691667295681549093339945129147355076294492843382352707 12988715220077187805867386914405854280902708210880874017394351383780007563150 3410322253649450726012571083028362260575804545595482391238242535225115544002671865 (-849822098347089314606931657926601228316462995564702629443086499611815729071716161) (-4513052327943394470281206528684210044377908178587251353393146813783843598126)
  ; MDbl 0 13333267595862681279861816439209650515859746942314389481639275673325226434492 20794287878555473013432646117687945599511962749215876542722858917701576121022 20299290841351379268275415385659102054485377958955366195715161405774091655819 2669589466828649620586776197112077539270692606036596427863112368770500550291317560 (-1370179212487513109492489836439656790746558073502482881851601031351681009979567102) (-1487092044448934686192497827829348689241501758971557057295630980373098540397)
  ; MDbl 0 12150399982142970591055861466887293779253203990580672052348320935668773731749 12815296411483623794751415674710595357388460769667583466834560947210345267243 19515913501501231662192784888212899014889707198361014271240953388990279169641 3802002428080968932067817583396365076959207283574566159063153780505447123860846445 (-1137850836799193661772821036586091398421334426023705882977263651636942508471775805) 4429224325894102659372584510697067977541050764795823950625763324322430113483
  ; MAdd 0 177 true 8314886948043542294527249303016861096872125924486895165428791383031753872288 5940118660248445054282846803142470224504839304476023359440974055501029367000 5273482012184029700421868375159767909362360752845242967240839646938469638164 1414579845437692184895346745602220698899473736281452058158276597429404374436 (-532864614251247663348288792059378045461954600857905941943153545519772975821609476) 2611736633403914579520909340689791381556096968618897274685378022562623743587
  ; MDbl 0 5635661225654194625209761007501446849549468827517786216113597259596753593260 10894233612849533182403678947769059736944253702096566278386739771292072532358 8789649579999830140271943904789461848832168290523313974224975928200196659296 458121961491693059954606904128381819715376960553816383054024744322621681270385953 (-244790151372369271480509549010955381982974632055256316406335579919700408441104368) (-1275557554312787978806112942293146021938036061417501728260132675935058806620)
  ; MDbl 0 6834238940654672174994449853169487168774525082691468268322151631560011978535 17311264957034232960316671401508594952024571258032484959853959416413643828645 12060484702874582955326927812465678265707596636686838314122979864338088832564 925984097910482496909541824375255499389079913009105978948155769926639249418621733 (-359985079675966595047942286615928246024920422409725700235493559833332928549418727) (-2003611059718814124450895318292083557189096413643361381026304722588770213965)
  ; MDbl 0 3580958392688154285975495014972113525814355812396017436452601917649165451225 13217794605406083254810974503782526586474022810153983692178993025813777337387 16490864929773742326054601920938825997685515924668337908527327382122467997999 665771209342168971364143838260486541305152626915816652136841205126686245979776688 (-98833171875931388767523734542047910449319735979419154496300250261845507116008875) 669699577837843631277445608389324404305591047275523368309912088407515791111
  ; MDbl 0 13162108675726217167354825564549590326233008785749169142560139243241048198335 737787705880017631697418164470171913442382441975371889792812628618233620075 19982080774815512645353436759483863445707086752225306332207218240087021654793 3345847899978274057434890980694658237625903973300524960429137750110631054278267680 (-1335227069138039246647479752938227177903603561838824873529742533789319818504964791) 7504631963706458697697237390029268587529328481056901533201307892399791627784
  ; MDbl 0 16479102941761118522340383442861650150373890862328516974479229821408085645973 564235370204561459544654375821865578592493225308022945717466142777664821538 14772814023119422102037063733325757115121354457816028301086778438902015575899 5075846296045481545410330481267001781782311992862794105666571614827851700314833728 (-2093010065925536858103587929272200004007956471287172698370768269422339550587455758) 130663152000131174868619333065693977853549500630519867114576102591896029977
  ; MDbl 0 14264022558225970553103802301422975394142216435720885952070936767074993264550 1712381883691263474193284297786503834386928429930986982786137129914493574961 8428590709567233964507055500010133014365219169014386528986507413940179843219 3248175098210755911375950405567211743855502601203116894820401414538082678648837093 (-1568152221338184318094374959364923841593198008835807320580494748570898191369343455) (-748218478039330909762709431142318775157977102829103677726647751032947508904)
  ; MDbl 0 12760036422978830863444927667717167388159748630370543716153170969743488260618 21281177568888724789836988647308773997730596191059307397986851149447259953546 9405525881505634928429304840169484451771319468602663942135886092768335808084 1657834463832224635517145569427932471188260179978945601670861848818458205272054760 (-1254896799625940763676651935905045898041948088083733704953780435133057151118816598) (-11407884459204575456293997990821052080316331204783488163704881553677779914849)
  ; MDbl 0 14633386972168538429708433279178663897439435915896608179399037331322121672444 5030271895064679991090782408588490600230952354316908230496777793807131194283 14864384946361037360162965676445798461319879560071532221636541808229938080836 2121655296133418316192624748840244007762788854589366568879141842517580822819278645 (-1650417798271326006861265346093956888291822725481508662959755944099948006156962169) 10864544621771810273142676027386668318836401490820634116550098739035305950956
  ; MAdd 0 187 false 6141172297561475141620290637255480473420288779232336696290412682714864051918 21152199938738609509723215774041964953256524253981028009944933424468962976608 14058824239529368324261046587781009984556012868242395258647261276786118883140 4142304923424397731574788799461941464632794845663782974250137526609898194560 (-290674375413568099014273235819217421328282754043232736942849971295370196203395163) (-4523320508859566238824614981182185576608173866295093558667726284610600805678)
  ; MDbl 0 8004859458010337038906565413425752041217047783302056688871933595190615370933 9256397036558638651453394896940123236760601534310908581538944065756709827653 19220844195092544149793704798397201943493139235878590371976186017414678880710 1734811306660383641037714165441858841002752119180208048172244879274671561277547233 (-493868817889764920816258072739112512206797643416847679565295138237157480782932251) 4350473947575511207931241068492195617030943295487162061824241096918454655245
  ; MDbl 0 20206918638623646619973475823408083667029418981469336504624839845568171479734 4674819769664831659541448289385786012304108116027606453204257231766904830700 2530992639905393036854746691822384978377321290032973723243707979867298047231 5986976896996123641073441281116091407829289508616485086085466691427153553116609648 (-3147055262578774125074920207752249070495271587645343570648239916166128507418508512) 4229647834719560912248686958784811814080320609168113539055511183340673941633
  ; MDbl 0 7667746647510849262841266597966455738267483871636538201654032375369768974138 9287364382607456229727095265336468228641319256836658904081586324483246910405 13167776565602198413083777678906658350484129557356663987557668499398399873918 299155619084457601174901265924716658105397521894194289378815505906869304825655153 (-453147609353594328550739399559231490879743712024353468987027813759473139965770759) (-1615836579458288383976067900243455815843444693563964993903247803291012147367)
  ; MDbl 0 10908920553482660820162883176625269728539444231228206576161976197788681146668 20918607601951110131901912675017527244992104174438108198465542050519941175416 19951182691366088632003378433162191375679878841522826573661172440564612592859 2214270762534836243177265781003636771341909708359706173175066202846387448359564368 (-917207804426721546492338417178241458783526259824065864457789635148379790225142972) (-5796916132600994590808943702756952195965050336019440226152332454169535044125)
  ; MDbl 0 16815737472394181367219045557895954796121809203648907201857412231800210832711 3873707594933637313136332086152498587042097164513166233683902131178568844457 119615205464362543039062547368889176194074590574249998316614225380106939155 5171586342165023383691073786446956976270177182872708238173057970104774829055550265 (-2179395353497865335266409458414216126350924475720384494937966035732621770638869711) 13094818320477206389361663984356134660068450879063855435736433000937764581755
  ; MDbl 0 11286999067067166904155480115093898945698597427227718415323330938925978608929 700507978647727828413492651104357897704813468221837835066087998793721370620 7826808199002204196726444854140373609742865315383349801835881061865582012626 20813349444764252788656932330903134271964441645419203118077811415285794654368560 (-981886212763310759206531456369960427570842802492422620291542186915691786950512196) 1636307734629377862049118414944032263734944074072950093589724342498954620776
  ; MAdd 0 193 false 18436487705478124192120902401504375982640344843102276900325526158642570358014 772912669920214786914992305698671821871933883699052814898438961636105442312 15771213284728819548981721982573971548372264340661096437006629502245762584196 13340826759321093031829134255514182294570361869983365802817118957280522121729 (-2619754287659494335456791273052588169756080248004164376571213037419830686564226293) (-60986540047103105709781897026560699215264850680737588861791300318270004030)
  ; MDbl 0 8076740489889325838447915471659028106655822519208010719583297970511536752842 18786787923190442663620790188776117666504581478206377735420907258181437774808 8121591745999441433850973269440181862534667582865668385580320602613740642944 1963520461726933348192220006059012072441692485619821975067059939938717978739887905 (-502778203183604063988990661993363496126806662712890855644077667388858833092478290) (-6647102578758855520251981197268296236807238764378427284114698276069204007716)
  ; MDbl 0 6993324563210704374157978672283062143708390652308218315280566567032011251263 21633457599802154810395332234099841409292983186613730827972932270341097190997 14315179878465379582916171601986786778859132961508304423267203748900118158231 875554156127140183301224622354213174585184550249122754474396066571864756913744033 (-376939415338981423572502453945237293311141760639207403197530957030503894507980283) (-909514988907965755718457837175422423837624895701397941555075209183274723546)
  ; MDbl 0 21338940174969644561438559214073143051384411657252760155918526430223046044148 18792828123273651067722068513639617956954359912704023192066176514185976204031 16089673080071665375186005977420806269716704788908335022711697311256835513518 4708794644488507543278969180877951034005812171687298671477439961952847002602679120 (-3509537403075950082199903372678237047398166536043986489325424921388410663682488419) 2769341642169173263986213160955782931406431585037057194733690862757564406707
  ; MDbl 0 6230464012432409086981347603486087774349581096834148290225382382051925838303 10312583294912992785259728357400783160753839978339214880685521946494998257585 15521186765665235918198451416556323546697048790295792308358388663669052768414 1545309217674810150258705231094990251877947170615494901314956323976117044493841280 (-299188548835443374513067872060790078560060853866455320568661824520291197783595685) 2413892267601530002218464223792407808865389800033729048824035817519223249318
  ; MDbl 0 3918069931541776201287069244237999512033779671592822444066372539445798271779 17946474130248864310018852192339870673781298760189285792022501608385398450741 5592378855371443320206173173987753180994041154417162625038810668626717798075 937428256716690988639873019977612600953549313273549348545365300293018236823974408 (-118317381601412981004553881817987194539247249727955393464808377056340499874106477) (-1366492427817640312064664351763466489789826656292991059924345159641984748389)
  ; MAdd 0 204 false 15025162706670567620387128010965177656935858288757472190533833223753525435792 15601991018998867643899435294799336340827936832681243940731232335933790435852 3593566401091972459893220104979733594233380564157983435272014108552391442538 (-5118253825172876753108355776815441204472381899195379882451121147284188696324) (-1739973167140587938941514385976962563928019545448812963615969386134314942175374080) 1609368116747891445099940065608423120337368365628548399320277355503380925675
  ; MDbl 0 5404195564459877603484902243345153518230763002493601479728915782452861106994 9545673595706939857741323670747093490668883869371921097571571320377502555344 16007250994009967401748805759758255611377312969422249442764655445657250841841 299391391899040696674947049560108715931772761668870231173351881550523311537390465 (-225095232589362725961995775724270263770270998215168303878411025131282078127331538) 1495301562009990619623457892805022526286910498189183312688441090863572223069
  ; MDbl 0 12676347482617966820076919689216593883646921451513049151402833869515475129481 5790056294149599690274572035699380502671629137019704152828456548767384817741 750349914751208878638234383819772776632960354387959799552218022132208836566 3127856379767953021536918544217934500244646663784694932453313749779832494454288249 (-1238489858349452148166989615119000575341745291939958832006147469917317825306516131) 2175026574998543869164934087989423025673228940098576146946594521487930657108
  ; MDbl 0 3155192384620094494961738488941284062453496578243881045246230264899931715380 2275525228039168766590469317940089018538281648089394149338669752865271015222 4616694471600579524573070845285204881916438832795600796307060634206407285459 36498796078679278736324097355081359662842261299056108794834295048030962404267040 (-76728352587660679840353843009449269938381352944110962317922157858965966961492106) 506620002356112375429121914432264539200814449739966782508588847146881240835
  ; MDbl 0 7880188176477841794184566440705867404840995264712660947086885152574404236282 19636588262005937200304064726024633853388497795313686392806636316817584348595 1157135993538153389263832234003680526244293006489535535180214458059174565827 560792829066271406351683797696788137553789609315873399777765016557317564233934645 (-478605142238774938642850922493998419119554438350005436539973742615812873395546761) (-6250316411984120331063353977899892741579376912539518702099597613335853051816)
  ; MDbl 0 9808071290372808425245595403260335819562453127042685120234054845248349518503 7555791594253982978696102025957378364614890399892322847584443064304390418944 2467965293853329569061597889470782593877650414826793726890222280259560925931 174998116069590062401673822316598326817569164352720525390045077895428498011077488 (-741432145474186340913122176525454553840020654796735891653163938669021877191376796) 5413377202345194156136349373448338409466663578727931198618398951946242477335
  ; MDbl 0 16389377172283733106367155833041172287385823786488456585389702874094109007323 18365216609841910477179565432277901831541882237904880362770119355234301052317 10039252032363929539344247002196669675796197385401093563464677459861614766061 623506704033967206967938109395009531304913331233598615684797486669677372293598649 (-2070279984200576017276191047227291896560866028224492740557540202390496280105169459) (-8093831224064023354684490920487311959341005604583344434820754063470579245863)
  ; MDbl 0 14549460771873777792580373242997497112646804465841555205501243941710738053956 19789186828544323114280833421394361571802581303909638199366352789295449349828 16073265988955438433561527111107340499444543685262306157018005073896705815691 2251600575468365629280071520032690749273123440856040328345096851820864630517791200 (-1631540953086616087594455289081412233019102870958449211953130548037261142713681080) (-946535496642464724945112135847940818190742331526995093654292772573489768404)
  ; MAdd 0 207 true 3638559880539998530507016955905864137250988030683952770476707535108176830066 6072495360245274393010252663457785561073282033030745522196398130001091956862 8508049468888019766743799067739701417504871203098266673733517053785481752198 (-540280176798893467302103480035631970341555671931141761016256875835366271972) (-102038305239874098429845496672148794521450335815098950942096176077745169294351667) 2280174044235846700183644667720418197537776302093062594914213868042785844251
  ; MDbl 0 20219335270819111958087831448007864437225162195509687742796396448389854820464 13945038272317551005875671082842559877660897053738948133485917264126778275169 5240444415123582966525576486702818040229411628531992396295745521173999082859 2651745784041807374564019195253350571388360959463435819603692262712671197421261605 (-3150924020001835715030364011610029109351080846717338072369991251620475055383700823) (-7272287022084027525173410123775208216659384492170843482722164520017508243265)
  ; MDbl 0 6532752079318193021041597622352929862508351803740348993249878891543356137833 14304158677244347226872992542445376964388482174944396182280403732685216145798 3198240444069203621687860467609117490301395266224397192350358804308461578939 527740481862216229504363625918118403150204270223986113615175915890716933984625824 (-328924737886846168501622311033058930933789048170677773141810950172599952621448702) (-107182864597571996650054929631545519154145809865840151292706555503836178515)
  ; MDbl 0 15028302189191583950542453257186982616906007241076560300350799783880150705293 10082300285096070770571381126541228330130133996299245969166930000091420019313 9088423162563320918176622022024259308679910839163788184034115030517770685376 740920562450134042100426923614360189177794707947434488030053165667925329222957613 (-1740700372050655545329724588756832584139032445451355385024064116721049506450396371) 2898696075727859644372819547641024538536638503666863331394642899962701902870
  ; MDbl 0 1338263416769690109747545435646807582507838449365209946382152645687258554903 16447413869353304361665077346038234065150244184518773509745580083358597169649 2135040715565803739872880038310348768033774772055523453932420436419867114932 187497981958376003630919886930237530937797069659325806556573027406608927742945368 (-13803442033126657238816073805678760854895481162421511072458562076633370395948169) (-389167769348653411852865511405918569737074063109902659444821071958141519348)
  ; MDbl 0 6685733300180325017490826372322752067899717274361285079808978296434437950160 11647711968516988255517516500004300966847517780130199377652269197145941159887 7335315227894814413552313448902312420580828207868024574328276324899890586465 220070871943944343077941965075785785658328905474511534378983034886723643545070424 (-344510354936073747142229177831255399405824230498822338552569569236384573341475499) 1466062260787755539870737756526973567262220853444632596099180205717185441419
  ; MDbl 0 9014789553520594220843493681283840266657668793105506357411291450820447837388 17260714677602271633271801942432327579583224324212111474567288707009455160312 12440778122719365976706247081431610916911907903438346711798555782336145924667 1019333920414800883928202630059750470156505388040278004827358765754200582562993680 (-626347529968280049841450262186367592301928770853319070443332906319773841357673552) (-2311745099047910558520048639423278145475489795124577115922377093470727975496)
  ; MDbl 0 13177694572213974218968581852419225073480380444393986649108280614178365732391 20567369738449910367250696938705551857062408182037557126472752891693920868879 19283934605178939795227136305508425735908459591708594383150783678820948321855 2527133465378752301673904243316608433767517407112892738280622766582447853687342905 (-1338391156730755138420985759272955176386194452128917748423984475908397780223385653) (-1990753241484580369476899647980133748803997703639097828833965922984218867707)
  ; MAdd 0 218 false 13923125820818842758217634603732079739467711891785626387574958217557470775547 2866674712449266137648825929538265651627411658689362271743883558045911384045 9037397199489341589274030107903005408723407328513852155634322597751522103515 693304531760144842375506538287784837513210571564843588887976052460971046250 (-1494093165672315885515031366453661775987405587577836780764725075255863132679967773) 11259423856266816342743812039036105852861145881583239361644020488195520641084
  ; MDbl 0 17283767252679819990280344413743760412708323549512269794158120893740114464263 17400191148503532560357383695322689062357581400850182407962420089649971390071 11142547543987123860800837668868816259322974873771525016002112178903623908001 2407776447890337181108620604951677315975393859474372770056864280686293919329304888 (-2302401196711696004483707362812173776900545182066608297385846291655443801764891527) (-11476202859889536739607770632144174437468947625842642148536713492905378391362)
  ; MDbl 0 12784084505064648040819422204553670728010171700284817407000578792889569679975 5315377210567734897124617868196054383255387450743693753332279001645565633522 6163522266445644377462442111158991961967686687781361842716043695820439868422 2195818882232535948378199165626357963902568290918046464354631508549408321648263720 (-1259631315650169944262200211102848111476170644542325579755897338654181848697950486) 7058277062948735821591889234618401657122082808065688321240170047096113460956
  ; MDbl 0 14272609258379717953197422201471430603159906829710947432932160722977839908311 12135922559292467088003778955714788762033093376737245964951548181444057977886 9039329416137430746712595232311694471387886134721469330568688853285807120828 1356025214287378925920882053150326513453440374150188341109152809301446763694420645 (-1570040791801706453086372554480222762114799524396804566551183826878890951659718584) (-4447455159438626998559664952756311878306565938340143249313082326670636500662)
  ; MDbl 0 15335978823648650685377366992979273036740624760169798196899988954598075312156 7163775892289623224821016552861822911148624163869835066975414526105102083332 17952539888922747425725664963175512296616671907662437838330050036231880889529 2136908839142398529314598128867834339741150489666003469854250306675250725896222885 (-1812705214091070216301262750699020288478464378595366520345517247782239634789286906) 3483730349654297937566131436046193636184780039291190758431194356369002954851
  ; MDbl 0 21795624426028704026359420031898362164431394098652192628131098636019989125827 14051780677594527575621407822741854126140781107069917318370710655295171751079 13142388786553797465053066051836298317456954572538047865118842420705295572677 6031563463465794300519559364029349730931819538550260408149836347811399600125615785 (-3661363223734822305469679611218226057950616239508633218743180719159235564816151173) (-6858858713521705532507669601080969311000810603364489491387693436230094443175)
  ; MAdd 0 219 true 1855916914271986806416990461746344971218590366728325686563760617574426271097 7972703933586756363519250146588826679686889918914881572693512600193999493433 15638796688006910086228175872848994744099138053260981476288967803308024315865 614431925035378812062706508030829050987691247966710656346060279114246322599 (-26547354133796307257738192673346688239932094224536846758118118880245138616008010) 515448472425207871693937473433441879969006544549861076502353191238562891360
  ; MDbl 0 3358077999428703028738154774409703318372795920579713750367106551190306563038 21791117308462810091867532787334703491974716582790690804920615861731502529123 14053560387885965420239092874001539518367087385426893307990693545145827662963 809530034485057777249685460147804628243833447911466977829270001401607860626710008 (-86913200455401615826564154887651180537899002959687671197504670738851027687922111) (-2120010738773538098106411206484687611147128863321947837536303868217048898744)
  ; MDbl 0 14655587672105696568906717924511979964972316893275636030274917626589980257335 12363946595433780926558942415586112009715833616440497528140671575898586596846 19838411098815330784263753058632688293003599529156387505169317323461949737038 3174919249867749187718348402064711078697700796807533804445329826706119102662841488 (-1655429382324283405844418374460645250724495835492956131391051157287506266857259370) 6312097672420171951555490981419038770534275164310014896387289173323670723682
  ; MDbl 0 8900973104171277865362619016592683876072339823034048527516416699879202524719 5774296912733864966873956250999752868032744163961054746289625047273518398350 7031711068571866268114395042130900489205978792525285056940046952903744695641 2721960988635725986893288445698386523355564403657660489098708501488543141060698645 (-610631439608839954100184863237820303042815697206881871162247034041293175120452320) 2679716911725496139516536145539344559705942516276819571665336218679238062585
  ; MDbl 0 15514443918910209946686166239354983137442412495434851030560173223934778949238 19705086520779408525518110437204096243764715905019519016190940626148063684749 13210215977766587842614694780252482223100747263470557945341844402597857186197 1681638302629337161717540740262861136223547169786323470050158985659494068749716853 (-1855139665427728937206564315385156767004093159020520710720028285095501194264585491) (-9874180188224418922333014230565568185850395502624730699975391370446484897400)
  ; MDbl 0 10446173558866388320883434951574815581039170778936658457026489847737189450567 718158329191504984691633537101407467334848944779358200134770399005777990471 5403374059640266186071110815379268643783097164932377665068593167687547544117 2127218982867767755354762510552436473615237166627306469062991856447875879859681224 (-841043885838316121028383049198342549393534296315153085619409657426775617043014551) 9061519848824381209986255675541849316072692604370875969646803642043500594336
  ; MDbl 0 5327998835539739444482904979655097435551076601044077920875592528677238287158 19240089656696890710839051868386824725976968753356961992195879712639580482321 18538556651282981394035338329651091315571784245310393279215273122070157453129 443775582971609971647597454249675558109975708549441646022335618682451020103114320 (-218792497667757879181013945669233667804156264874239949407511330290268928737940233) (-4508577007424406450459482930486757146846059396995762516155258002790319373338)
  ; MAdd 0 225 false 20152202412766539942103505778658954223691828547329002210074606528870873745311 4824378822964981222084410550214999286397861384201105387559088485258452654916 3488844097788014885528227579559966250649208943587911758254654519170100443296 (-4773344017778917826588402668939162379962644187937737533565345536328607697840) (-3130035166134907768160632062923123219285207787452668015372456697821572262496457457) 13272345539396211899617534213905998186920144630981315793772655964686835338090
  ; MDbl 0 14859085332930778695262427786902830718818038589771888446366905132939595369038 6161154743958992972561842619231882060742263965983489724534215975439100590909 5675371809658004238363866441503594016732277043708346301869851914237493112020 799115496747565519810590171914342366689339059232366059821894499948162311371000065 (-1701720917225162033863675214614342134263570526275227920359859382904559154540302767) (-907485703505812636295679131150597622118309509225591067330487654846056717650)
  ; MDbl 0 7272597869311029448706585483247151241530471961301082461698058922876884098137 20906805793462634800429798277888006955653053530699204569948287578156281923128 14243213981716609793174412910688199924363331222887639510550664548665296493919 636240958461759504489395204367617798081066264389488875062170808084529617945909024 (-407646138121965765135076592290181234036229193910956136309798733662629600067622632) (-4899396951693856609908791621126067739581080426944161208392160677613613092726)
  ; MDbl 0 13494140514818276997786646017302400904119994690927271424024131675317201240493 15529927952345554456713381758122701475543328211369590642874361844025532848137 15771785294155236860653526541731116007305352143330353291158741560742518032961 2962758058411930169335242318015825727788161949418315406002199044913042212356020873 (-1403442551459460177971672021746398628862119045948558611870365099157238532320380623) 3314854716474081877522320977664011875915544411188022895771891622177723972899
  ; MDbl 0 17453542030117525990499153910182898818589021231899274366616709622138974594233 20464697420545892483079456787414252643264419296755818517899349060968571022506 14611553833744445866835444357170935529303059076354836792111105733504907622720 4243282975777103802784362743449851586949775940893276599154625622341254981639001280 (-2347855345456009046651625334259053838947918321387957627769045179701942185280232434) (-3934952971167294543659725305319509886072300819251801849233277268074286682074)
  ; MDbl 0 17882585886017935343732570326248796884336139152638435617392765089317694454980 6481494462314065060641544124598836259648895948773222357924986640739182113034 13061434428796218157846227267674966458569748346028667863480585677955616963542 4027792515718477635521840943293183526599056073291443976974612028347989031670849205 (-2464704299452156864075860233187108754794465624544416785142614251045633350396491032) 11424207476421722306429686711934527294856938112597081316184396407379835973994
  ; MDbl 0 11683502135382898966266627016958851195322819075996917380925436469417725819564 10677473837639040045918677996201779226958268849351525502545111168641833312350 12420038434601616335730457764015526526094562154355047829309910244436173216740 2352334938536903424888628748043982312582373318599682836571607132617927987834117749 (-1052083641940493144686626043372717652668053064462341075990728877397944361289103148) (-2239729076412266140475491698259018163164552285271647773342820655856173362218)
  ; MDbl 0 13781712329713077062184080443451993753912884065961824182220982384977690916391 8250828066483728386811555131875538663937629434422096245705402985935339637196 13268163737844035966355188977122673989322042293724880831049205314844456665292 2638535073547306173931219323391400006590945872530561538378690209710602029485949253 (-1463897080276273533857903795532578326058002501604963025600583059177992875620309182) 1527913142228716686355235297590518284815002802978321401485928763242275266446
  ; MAdd 0 234 true 16701586117466610121252256250828011851108843148186950089481343891496259316540 16448057093567306125171797631318641960334527732904404972743702299079285521854 17742101780600389702565403769613060345749491139571795668611032611546576514490 9955689649958667749400896644643387497869783260293581901157767419242773858153 (-2149906724157749064963677373819389908004430778167695268378962127160529066667720824) (-6254806624819267556810279393950903770886392674551232236283712453222099878206)
  ; MDbl 0 20803496017855435769131520972785505536080601468481516238204797874313271592144 4714852071608807840059493227435341957877496361832660928186206665304904646580 19722792139925877139597418058605552548782498244063599912717449392021183694131 5689556310352242490842669975931217181857958149708968312214375548005222553404563749 (-3335622016943018939854655397978307002730743023126320333529900729690616674750409258) 11151725854844004059877870534890466759746216643829115389417956083343207144755
  ; MDbl 0 6239165993907978821726561057848958241534070921465336338106031712675754916987 14372891971613472112793573518920791280846629745805443993981948897397055058712 10774518522657875238508065725523946144989034854351837745964772467242205417355 1896836136568967882283249984962741869184923974105238008701833081318569603679815993 (-300024875426658126723767838278789101154167716003394174504251637177550729849689110) (-2752990016820478163644813315649939000565734654672813017838899050749084644810)
  ; MDbl 0 20269892666171871132910991537024343412335963451388548224068746615957739045801 17090213960615913589662708550259738311471335484833244148100160117392644654761 18075284130527810958486611876592879065973131878435845974581715378185691431838 3366566154154956372548649240858261972542581799284784442503750310874966916986484105 (-3166701163324116269359764513931521812160330457088874283445414364229926698013715599) (-2516411453354810893583853797289454911902390768918595154907839731027965440226)
  ; MDbl 0 1655812231468782590960141773363831887771693085414539418524062026364866598509 18088384527190856629082542204704166873308846298132856565436497782373217656375 19171665387335203996463089878123816078498123878327353115792674047945403226535 461389897468914167271040982221847763417947656630045527534594435999599015522257560 (-21131306844429425253816113943643709820739657337098038077745262598234280524423135) (-75510082874369696847128841892432245231407169402470099056841178496246978747)
  ; MDbl 0 3726442793235224203763790525575776336377949061286471530338078423525956199842 17242999694644803989446813358494848369435575167534718063097884987578417953008 6864461805361347804694787946856745879846371665937078800951721521258860514854 1101301327870297690405182054884775850613264744086960938302879820335351715022761328 (-107026938003718460679803402910091595169368768545464597724151712820801863076112968) 143925587595003047705495180959004081914836973027268734133640253916269998625
  ; MAdd 0 240 true 12441688247177765159742026058757078315472346680893209822241591476994745130398 20695422498569503415343240383749663097702692083252176025402442622726684482138 9393778591485369948407838719308233794722177582731142310627304721579484791810 2305077423999077693931414555781144354803074894932494332672460606032530630747 (-1193061451269756861649046125155555968741570976932297403661526080271041134072580712) (-1962421948412390068938982306208797240407512082640852199566184185344379909012)
  ; MDbl 0 5539843244548747431054678695241677799474554663728636279441804562006239447394 15839578065483845401452681043174528821362840783326509524884288077844137694934 20762186881203976937931624590679464134681647230520088393990563252576768813576 802238971038913371034427498088345865432868223296722456332638568145586305626118293 (-236537028019911861018547180001696265013044794786472649037954080075192536917623924) 1228998469028261396824520108481030376377960081614005826265745478582063353470
  ; MDbl 0 20176894229814569363272856769094087749608882308904052771988010298268269030664 4262649241287872572357943249972974470664273726970845745507428821328331152765 17158840078531005466697994411491030395673978573669144939521169826790806998416 6457492421365255716494190504769922305244443320570507995117215330864475446790774949 (-3137710119196543099928490437071385399536809699520971685895860463874288782467915043) 10671777984171524978047793963736871144175072567805481033457818068384550631472
  ; MDbl 0 17209374569348002048797333026265353127838608083107223793176691015633156926304 21387968909983185490136396915670506858542915538048403894114577932035666243425 9640515468231155440303626116153533957465208966257476047375435683426839314016 4551844641328711465833223736449305296282703799640156501643155200181165472682518848 (-2282623889415649674509945990616817332169721294796819047045945723613567758762093909) (-13464581991529921187904051868667188418690330323539021010436806950827994549616)
  ; MDbl 0 12007067907373581020661998704638778049107769555093163619863843830490120820335 18432818548067200786562329057012112996097941583844193368801271258429244280362 4450230952420293675474675219725259937327288698068303146275870021975561755089 1784377185712171874947681969104228025460629049808931250256499734039640429457004728 (-1111163884339337041572314376875205790719446939291303742565230778265223151613829730) 1621084491787861019566986695657539285180262379157984983008748242709767801000
  ; MDbl 0 7969148643032268740803546536106562854121817609245276133417460589009918846731 20091444937467096030762068953213429261962342393727289231860006416335910160953 16563755944843235547716225879779829937205978427727829765198297954677338796962 546720867741957827336714452091402942778763262456682812703585354673815714921847005 (-489472208880094470028655341434531017964165553730295380683368690932862271685069475) (-603878544192752175502793937575202055651915793861733945724068316234134350616)
  ; MDbl 0 10618895341968825373542114444519020647315143357226988201109663271372134896133 4802691866339582037576657498500068565054699460977299983342197583992116648671 14118995504386726152403114958798417019971967191097060593136823684979584173568 2711322666609111837540009112826105898393552958293674092315888132477990703861991448 (-869086221303407198382602102850586584354685183138289869798250044363640136655391975) 7417208851441497341426112688311231927179156996734808414829039682222860388128
  ; MDbl 0 11088681159992631072903555250577095879619493718018731638084545269664566963466 9165957497320941369439412267489839798742983230101829963368605334296688881795 18390731001483215696156549462809622304586631061766532555468555640134549695266 2413339627873922209582728806099865444650173260136741428174063218294542126791139920 (-947684932691192181826294484698958496760240552010790160377401690333460272500413355) (-2210449768928424424873409119753538007363550893919074939843270364135747394954)
  ; MDbl 0 9465427964834175044871732656339178742800323149703894935637577854396323294513 5967915194412961119146516544244943142227366309402172073291327645483865291300 8463217126571607331189121796927587342942862755428532821227895538647994863300 2683337436479091559451738134347259994937894335423787797515845388723875108657120488 (-690533405479077468117214945827412984873038769540840854000493290957229979991823264) 1382972549414342948499424890385560944547712723558301569981475837799535075657
  ; MDbl 0 4767793937550435414922405961398219769605029620458313007337855078055781787568 2974532952083855003252898049625504206316382991866143680267723385258636471648 18677155234160330454880065844186946822953354728214508094460106731495114577858 622000233493015386483432451677976060052911398057077055524063401417683355435796353 (-175202031564344856156183672342172934084938335819712114066855710896922281546059938) 652031768439006480137691676609629930069419165633370453031057853215422872634
  ; MAdd 0 252 true 5881618885160937237984476603877751932851504259357478858796676172982592447821 11603882419860175126466110697183763637773161360421021985919940272812880466730 20806355035404068207800919969509799765401436154138837763378294780044602304741 3644941928282268308988949108466552573789743818565516252794252280907435911864 (-266623204155544162348065936973030066943082702764180273581171553294148848213881831) (-2318803985020921341163274754147518293349433927651734957963538906513087172713)
  ; MDbl 0 1654777488955597672916090768305480502620944120676790455462663403655698795782 8373196139868094814130486659426625046974823383953938670292653189926426686708 7468312242094970694431246241650469106553902094951229708658620325773751050665 530743751756238159010897508653738578104829161884947246982552030965845891423690693 (-21104904539742740034875486135460818279998127782225059658533446966871006340491698) 244243768735163166535199652561885338017058066689063379457940009985187981494
  ; MDbl 0 4303227447226387290988679630423581664480445880748118351163914656365449293472 19687357082726078960452725560460723925160258519868263486239156884389647381772 17676712424059820197524174277288491293450929159244111012161511947464146090595 495403843557731608194294518654791585442376576721205790900466785051035913407322433 (-142722612341508280042290954701172336637331934531565012284223319754236417554571758) (-2224363472057546738459725245066982083216665052690426487087990249875155893004)
  ; MDbl 0 9077381131973753084090785465393137190876951872276016064578050599859673640554 1288281385786581651125111543027747342379088495939144578552519908846208885077 14600251953887376206270318084453050000849328563735333303607754012445945417633 2473463887042282178248799037282567507476798918592915148989085995985016054990909745 (-635075450107224644977617143612003681156445648165796854266546329450025168891771607) 7630371407840700323956684208388226447426925276418001833991251886863341306306
  ; MDbl 0 2572929844270853392552845736971172145459740693805176579479332806269817486186 16207196574886064877771092531043706781455413696267142157951084673273372706619 15834719958994446569523352843435250878829038495229281943218702970798704759611 579058771693375606360943627534284002344089134733674072472566834585521207079321440 (-51022304776230438963267057688070201890498360305621945480018831234755985955760463) (-1753695916064836374196256786552143367952994020366626776588283471776771577368)
  ; MDbl 0 19898690006209626853685942765932242564174385842543219053055565191932558866729 2677233366359098420236795553869582062021931008698330001366931571023864244747 10737145162947425294866064705092426268587309537937378646031522212969392466927 4857046618862250831624967723103834312796720687893215667627675911694497284739930224 (-3051779534872426792707334224069537136051672628813656560218633553097467119905106999) 12300144203365015685455886995152673825604369087077149253016702249555791682950
  ; MDbl 0 8338428618963999358414051346624123399125970222259730796099587969314108604286 10481552909650353048811520662256025719944321022685202205809344842847807850567 19207522903037394484226336490292427640410273572152618292168429162527918786106 1380090379378146147160909177311790570854895978470110763966409861712068953234408920 (-535886250486198589004988199656447492337564765801507478957016036832507239548121927) (-2973092075611253117847670553920575564594996677284577862676110088679411161009)
  ; MDbl 0 20697888379611424244384938899595852467209159715134333167954054467152476565502 11693271857710323197714299141793755930047972424916922361885174422301318194705 13093313704391764024583926070361201518540937245804118059390594374910980572424 6128195994425144623083048378737308288288181776147676241663531900693723787730050400 (-3301841826157734487059648452927390343761492528144514021223636340540619982746785161) (-1145821694379707585486107533114682724630153523396441539494102545229412659118)
  ; MAdd 0 261 false 18125283942679797003418406522184133607000087158611225685611136331133437526187 10189464688337927669977309270157892016167918088979886542423612042802244243384 20955771652582480202360858124062763713256546542966418877509338985631136835649 6708234912466957734392984339461266323067729375279076464736153923577099143825 (-2532059000422151541109777195285753809318091501516204052084870015497333561841292357) 1245277297931491327860572180536410565757145532705353567390332888774058885162
  ; MDbl 0 4245519621056899675598378555835222299539791405734630364054578287063572913099 11046675907031991697330682754072306619188773628335019295254742934385542064913 17488271737536325866835670711153981162453857519593559984678911782553120576482 1371428579018161419357041463774475608581231225371460140688437553271615131114683849 (-138920356232703157450053130448283986536286998669705770658457618244824463847771287) (-166267665689965631620283103009354912891149949501918959338264224001584500406)
  ; MDbl 0 17142806368899970373267495415106245781963456091812557352144311525845851001661 21753199098607254009266627028159802376228467325495294576992778203081854613738 3368272427635236846867408891309089127938453858129287234274792330124003143606 4621304268936245787049387191053366967649477680874553935400552523435066085914471368 (-2264999044066414938605618098377471317731782320801241320098838183350499370367490786) (-8385316949925123829218773090542400219769022738832655879429639623610295200589)
  ; MDbl 0 13776151890999832569471507262080654854480845022310037461097716186187407068740 5413605092493381783578325132542492858989491435987315070470259571346207347620 231931774877022763250110847034352437977594344138171393908510638816013412281 715333707093151147081534988572887991322042729804319119260204547314306505251733493 (-1462716056072860065654988891908416093893071840094505817520644287460827023715909682) 10283910416358616047272430413470518739262138878791274519405225140370349220649
  ; MDbl 0 4160304319006442606932599838303785499223791933230598896111586685576769326025 2056374751760197113974885379717500653631051667602212364177016940981499423098 446946477917858183465313308117209821040101244215709487898706791909732619295 14877734393247618164566550905536677087665272057434975984003816841798404594613113 (-133399555643102062017899775917834233668530679315989282117805779098433986444498808) 638109690587423556858155050569782777240199407387020901926112144335646354722
  ; MDbl 0 13128060537885533668245324575063239500188902997292278900959019814963792371628 9718363504308035859515264603545742720093308928032057604301228896986214153482 2459052560399928989507973120807951343925667051434302667494873760647067385252 90446767933589943018980847629831134752706729777666767121235046163783368789089813 (-1328327993132798918622377326277100850314833921530114607207262289182244538109420728) (-4595483190359616595381282783590595725390062128739722248400960559411100182147)
  ; MDbl 0 9865082858920583416890438064782180097909563545441691724627771753060679368219 20735660422369870674637016526318240396215670047691584386881029785440885544129 6769649957894967791418802552346374857335936667886180317183166505113179495445 373953637491954426781035756629154289446847880379174371282995644752779716478988885 (-750076671144672116844842859335674641992497797734798890559098981785118483345858923) (-4965521792425058963267939984968387162088347320492988372509014045684588145670)
  ; MAdd 0 267 false 3027582120010777591211118439292407464770509555636425683808982431366698860460 21371374604680209436606109906139489158675878859341993800178762814954663978944 14924363730255374196768822006413019566796150925863415379662577333377844516579 (-580473941087429413138010210150484311363221120466291880112909364677951848606) (-70647377836234263697701929795071829436495348487592390373552066626767984909536066) (-87931996326497370064069733054672557432262366083823708824459258244582602572)
  ; MDbl 0 13913677075387465695902302471814457935834388383704483478020491901343692250890 12548646497310125578749325479821508172861060354434362147840871255577798101154 7131787466649533546277145027551781261983904707772119927075049603556766567547 3200961253269830864720014156494669605565134444254496830374732419436351351013292049 (-1492065960590180881337842552327203694495991898176266557277106153898841124014286220) 5608334599020122620456080071244517719976279420806033564518762645634107766222
  ; MDbl 0 2089957586060846707578777592214529442623834482806651930637039476909081674564 7506595546626692469766036944475292346995408582215159197076382638353428291346 7929102409997580103268847027777315419948642531990420282274723335791553855965 229779266273754306042601227133098276380355421945273396281928162390551887427187349 (-33665039526023191979519075979253126109829374484004667979293132889606827135159056) 481430724950680406389643194542322384463829083128589994402898740610024090600
  ; MDbl 0 2661445308948834601214166494418638102968920246686390226862523479229711674552 1680220863897979981284439987159083955660995634917446178155274159293962535376 4478333428495827634411917715734161023075415472950943684653748902076939988020 325301498199553975741148140517052327009846865700726753640184494603864056264968245 (-54593291067437942297177244631589978399849335350007741071475547196505831342588398) 708443234037614838528519468181386090185096671966023234291503607395809931615
  ; MDbl 0 41611420349874071049737792773615869552393362873347862138591436490863744840 7706013212867606014153416923730620346635513306206413747391846982863367990415 1673879103585301785062365432962337687992384100275595741369514908079348377326 2872907491692382063160365573583670527172006047393216294037812469999396643573825 (-13345328353514635177402243858652107201122412779272498637718056577689338786345) (-11455546241979371557057267984628338360007022716078888776496080927512429018)
  ; MDbl 0 7048914408302391774374920496544239468434558433232810068175574779674187761331 20909227829766326904354100447760497859949871076202306715888402737509303951618 15186571401305355164553554509601511555915527707441002715374049242778347044008 181886278966991822391980010374021247648030585088638345201570535388470640225772448 (-382955805703137912455056814419425359871618181814208278489286052503189091919205238) (-4251978118750908188173381850581422753068573797599728701251273536727538975231)
  ; MDbl 0 14340524795233531372098567309942496007361576081283379754904480696185560800705 15483321465847047138621960139603206144768663724598157516342353775766458273953 2792425440215257040511095838364756380117659258033799129083191055792829873377 3357118816611566387461440784357188482698469642020187401932178500849338139305846453 (-1585018271899388285838575541822046984436810974958575731408212138435003314523654811) 3554892240733868419513300016698727067143499347914592385631389520056053767320
  ; MDbl 0 16525652846770027755576123090320896424025183082614789552264026177787873559622 18949041192791208293640111026353490181712951902740612262493827632803208519713 11907842024307211052721194299709151704324192611313838968804245246511665750706 711368206057443272204311962628258098417815858812336508745949772872760424147863048 (-2104851369256849260672912181150190943587028993765709483067196869235339453417239501) (-2616623061386431431466314852376999959336795445308289942890360311114509786259)
  ; MAdd 0 277 false 16647476164986058358317896509730212058137257600327936602561272109762411844392 20344971908375209953815908163412057952794260211025797478427248017643323991828 10108498330715207891581538227654435528440726473488700226505200931353883273477 (-11690163745734856247831418164026256472870830127629934252417577848647161513389) (-2135998715160949529856451288063820981076419476842931597381616600421546121889893595) (-1061698897061984384514226330618936419660723217249148553352374545511601662639)
  ; MDbl 0 4498800300040356789542517775057886342766698806183338253551485246304494723406 20520233057150612530062604569975848979079652467676070902757844522736616084191 1256723952434547024165767688627114054090828036053630696248500785823455120174 701055957462382874374675703821201990039039553789995370807870795434829563754000273 (-155990307597994020856506427736477478631881458161952534625106346440892452554911985) (-36022302626704351406256145727779290490839676172373974650700057998606202637)
  ; MDbl 0 16437283605167875457498595230511020345962867692034556133724995972138399476030 1419700676948014099926357773871389410843848773106163823446544677569746817958 5927146705596899586844993175393400555316754342649015901731569843619711405896 318480486282757753367710037590490604991226647144779982155704276605380895987880240 (-2082400601122380651373376277152196268517417713315332089847008462489973891894619214) 14343813232583163862465410241990533766939418655485548536155263152056411100760
  ; MDbl 0 13755398333837313083643631533208128347231004381037759139552163693933594622067 14823369803381685068273936384507155128543545924851406194755691222155195801451 7346274474367211335697115926172187794360787439870320244970305213724335422100 1256762237784250005806738249321787589561932939739150494079975167042811355074399333 (-1458312258019517474383517491643994289357769857612244090357737017709898660569912845) (-8423371809633043072326114603532878465310502985085589569560120973110529616731)
  ; MDbl 0 3956634712970383338886564162338875829249928270484593538172971901283954947650 15430810668350390574688245873987729289101245309755549189481799344122473660057 10149778785761097066611007044086026362000632371583260611319343889464424988428 448080947067860201303975453323732561777592224996991370325819942178290767031143400 (-120657993085883945347276889762379643809696283586161202208018307091749635973036121) (-109804228072784323007500747160528209857231046118047276012165382463035733884)
  ; MDbl 0 21169692621760652056204067884165480869123123006624893279221852739393806112666 5158452414797448822067852262328319006267126659094117417923991462330316855000 8325679410843066701909838158464685721751310071798010982393263411784197175722 3312146879345953022165632166257715870752374033205251978891201802846381976514163560 (-3454087126145263931851915344128085882832301084967865054398331797309376819203256436) 9935135862737637800111618647668405962897894068312549579137105022875709556836
  ; MAdd 0 279 true 5710283870592210769443392771935333582516310803702824541319383905281796834251 2733414298873339240752511045716106784328404080014401182642907383631264861171 2707573818053193263412100756361822144574806565338385663986192696143708312849 4210607323366330336332169387284752205693074725497339073060194288651950881243 (-251315676997371388028096284083135000391494680443241953590956773154630078955369237) 632652704011646611086904844528203688077716515195024184264565614949786076124
  ; MDbl 0 6184530677099375718899808359775562291586195098184069882379516910845463235722 9627778277753925403388822466603342231769538292484203401384484418789515063179 3596628864265327116797776824925251926254981814532633420902988963309781072672 258120772511133664637461973911975988942512380997168551592690281965946880153902920 (-294793348214075729290652242794763972672405729401034682327617338437048714564902107) (-1948004952984742734467203430594634695122787529313084209719428929833038635041)
  ; MDbl 0 14810477992181576772554037966057709859841983748884555635140331914538579539698 9537557816736928792245785064657403612133714261231280753458436079152683313995 10410002497867565978334486591862731490537994365220624580616850944492909471654 821118050653860151873291753778629129441547080540961688219843710421363844063118824 (-1690605719311386120054636218528961082968312512428573296144128277385190501868861003) 61046844196700118188839053820724702402664622466121427211727056651470873018
  ; MDbl 0 18975279422458782643607684610978894669751554023569195465749413755418825405894 3273056965081852785030573182760034934126474654876574865239386477240313718797 7019714613291692361916667209818349186266707326998323442681578539565962780004 3044913579964540658498706456967108837795880423447923882892819038164070132875855688 (-2775112178488597513963622166150021482534386864037155174270256944099825220813121805) 5430799301634272667894270264582295231089263585292828679344806503749069296362
  ; MDbl 0 19907682809181551880898229250928863892614924554913019326063346289540566743299 18107441066417182689532486452889077123229884263691499131676117915080492943335 3380873598684173170996113153374449389184340090297083875953130700739730572682 2154143565418651911662887988604233770691690615850653116730285248562437240792081920 (-3054538535937245012603163570733836142508079578216155846185473875637593101110492631) (-13492093225029798778668461453243554372107072515442849698641804780567956229244)
  ; MDbl 0 9176130890544609619138626724901034376111849271702221356763285374651507293724 20939076427843704678569860955267497695363662314787157519120162828576349381854 10649781572730496474552735422089291325880195463740330612418737922060192318104 478259409192363769613037412111675769386722295332625465962204133362534343053711808 (-648968150256961746489199772678877558306374030550664529296425600558261392640568166) (-1187096509431273573417906848792043256798837314895973506510950821426948703526)
  ; MAdd 0 284 false 16659982101361413991194176599819659439757441864737153071377327832003295888508 12833380604676246867439436727514072964431049345806152306877038078348904323688 18681887119256933145308701564520252889611730510624041781375937780043286218605 (-5239324605438757433728344877532198564378842962567824292767656708011217658124) (-2139209135446169004901751915774824300549790868202423011171227096515472080519744422) 6169556328652995618483717338780081841657853216436444530371380399590325935907
  ; MDbl 0 2715283795778544306775687898377229451943359829052550599745628793740417932269 18695092641192555254211780233839902647463056050875900547880959298173814414150 21559783387746423894715050687485695005662653112826863156118837181863194510015 781956669014168079471812893542176890134267865631143437134639708599542442427658393 (-56824371281812410574557304828911298763207401754806128326716154170482086554814572) (-727158036461212712717554687549602260334070756834174077567526717029350031794)
  ; MDbl 0 13905134217480608618439753664241837682853184392566229378225973018941295095344 9947138268663035864859345847447594095679210966266899264266120402168371455682 12601606882309361175322818908554243023041348791838642962006294237450832114009 4621237187446920554774006823292938632818628490108578256484524896796216315160351653 (-1490234296062366550821805221245991123660782454522159962323036575546696565310573640) 5557388977756612370841802363153125125185689567262602999701477983426719374504
  ; MDbl 0 14266628311559148934663713497824534543311619102956932813126849795431393886360 7827286399056541475442808044309654925046747226846174452469526756627540614336 5898640411116834905523492626912442752755473634957954423852682088550755652089 2771300234565343202543774293763715141539178579620124368064497943917516909385164085 (-1568725214138270669892628741227269974024280264379853280422775577078189701131359294) 1381707013958140840241449335273717791865178326208084407103764466622187384286
  ; MAdd 0 296 false 7275930400538387062166636382677040909762049880102339446932399969641624772956 7827286399056541475442808044309654925046747226846174452469526756627540614336 15989602460722440316722913118344832335792890765458079919845522098025052843528 885233907532456970715396172928023462641716507622011237232927409383403273734 (-408019816073495298801823632819736897522567653187092422399049674715212145430253567) (-1) ].
Definition bn_cert : curve_cert := mkCert
  5 21888242871839275217838484774961031246007050428528088939761107053157389710902 7020634816151638264772483842287736880373639262402403271854090773336178375750 17149684640748146997295776498368279106982456662710970523126764399359598795278
  21449313544428428285896623807777999089618640778178766447151795324822652860828 17061719626832259898845741003733890968968767993363194771977168648564009544074 728258122400786739173900923159802061160990571903591603815685473526938029069
  12274975407417223920461215710249435871537310625285749444388916913720917809587 5420419481904760932676070340500202011341193741823844179763849527574615334219 6540697467786742986920347195263186199250193003928728990839504271203367557020
  bn_prog0 10490343039211314552159374964963273397065940806110934391320975213145458915269 6616883312113869483704354583365738234456616760949867778155342207036773396159 bn_prog.
Lemma bn_r_prime : prime (Zpos bn_r).
Proof. exact prime_21888242871839275222246405745257275088548364400416034343698204186575808495617. Qed.
Lemma bn_l_prime : prime (Zpos bn_l).
Proof. exact prime_2736030358979909402780800718157159386076813972158567259200215660948447373041. Qed.
Lemma bn_check : cert_check (Zpos bn_r) (Zpos bn_l) (-168696) 168700 168698 (-168700) 337401 bn_cert = true.
Proof. vm_compute. reflexivity. Qed.
